(** Property C101: a light client can spend what it finds in the compact actions. *)
From Coq Require Import String ZArith List Bool.
From Coq Require Import Init.Byte.
From Verif Require Import Prelude Fields Curve CurveFacts Oracles Spec Sinsemilla SinsSpec RedPallas Value Keys KeysSpec Note NoteEncSpec Tree TreeSpec Action
  NoteEnc Bundle Batch Builder Signing BuilderSpec SigningSpec Circuit CircuitSpec PipelineSpec LedgerSpec WalletSpec BackedSpec LifeSpec BalanceSpec
  BalanceFacts PurseSpec PurseFacts ScanSpec LightSpec LightFacts LightPurseSpec LightPurseFacts LightScanFacts Toy ToyFacts ToyKeys ToyNoteEnc ToyBuilder ToySigning ToyPipeline ToyLife ToyBalance
  ToyPurse ToyLightPurse.
Import ListNotations.
Open Scope Z_scope.

(** C101. The light coins are the notes found in the downloaded compact actions whose nullifier was not
    downloaded, at distinct positions, and together they are the light client's balance. *)
Theorem C101_light_coins_are_the_light_balance :
  forall (C : Curve) (OR : @Oracles C) (f : fvk) (cs : list compact_action),
  (forall c, In c (light_coins f cs) <->
    exists a, nth_error cs (fst c) = Some a /\ opens_compact f a = Some (snd c) /\ spent_in f (map c_nf cs) (snd c) = false) /\
  NoDup (map fst (light_coins f cs)) /\ value_of (light_coins f cs) = light_balance f cs.
Proof. exact (fun C OR f cs => conj (@light_coin_in C OR f cs) (conj (@light_coins_distinct C OR f cs) (@light_coins_value C OR f cs))). Qed.
Print Assumptions C101_light_coins_are_the_light_balance.

(** C101. The download is enough to know the tree of commitments and the nullifier set of the ledger. *)
Theorem C101_the_download_gives_the_tree :
  forall (C : Curve) (OR : @Oracles C) (V : Type) (halo2_verify : bytes -> list (list Z) -> bool) (into : V -> Z)
    (h : list (@tx C V)) (lg : ledger),
  reached halo2_verify into h lg ->
  map c_cmx (compact_chain h) = lg_cmxs lg /\ map c_nf (compact_chain h) = lg_nfs lg.
Proof. exact @light_ledger. Qed.
Print Assumptions C101_the_download_gives_the_tree.

(** C101. Where a full wallet finds a note, a light client finds one too. *)
Theorem C101_a_light_client_misses_nothing :
  forall (C : Curve) (OR : @Oracles C) (A : Type) (f : fvk) (a : action A) (n : note),
  opens f a = Some n -> ct_ok (a_ct a) -> exists n', opens_compact f (compact_of_action a) = Some n'.
Proof. exact @light_misses_nothing. Qed.
Print Assumptions C101_a_light_client_misses_nothing.

(** C101. On a chain made with the crate it holds the same notes at the same positions, unless the note read and
    the note sent are two openings of one commitment. *)
Theorem C101_the_same_coins_as_a_full_wallet :
  forall (C : Curve) (OR : @Oracles C) (V : Type) (L : CurveLaws C)
    (halo2_prove : list witness -> list (list Z) -> rng -> option bytes * rng) (try_from : Z -> option V) (into : V -> Z)
    (f : fvk) (es : list (entry C V)),
  gd_fallback_ok -> fvk_ok f -> Forall (entry_made halo2_prove try_from) es ->
  light_coins f (compact_chain (map en_tx es)) = coins f (map en_tx es) \/ light_surprise f es.
Proof. exact @light_same_coins. Qed.
Print Assumptions C101_the_same_coins_as_a_full_wallet.
Example C101_ex_made : exists (es : list (entry toy_curve Z)),
  Forall (entry_made toy_prover (fun i : Z => Some i)) es /\ length es = 2%nat /\ balance toy_fvk (map en_tx es) = 600.
Proof.
  destruct toy_account as (es & lg & A & LE & _ & _ & _ & B). exists es.
  split; [exact (account_made _ _ _ _ _ _ _ A)|]. split; [exact LE|exact B].
Qed.

(** C101. A client that sees each compact action once, stopping and resuming anywhere, holds exactly the light
    coins, unless it found a note whose nullifier was already downloaded. *)
Theorem C101_scanning_finds_the_light_coins :
  forall (C : Curve) (OR : @Oracles C) (f : fvk) (cs cs' : list compact_action),
  light_scan f (light_scan f wallet_new cs) cs' = light_scan f wallet_new (cs ++ cs') /\
  (light_scan f wallet_new (cs ++ cs') = mk_wallet (length (cs ++ cs')) (light_coins f (cs ++ cs')) \/ light_too_late f (cs ++ cs')).
Proof. exact (fun C OR f cs cs' => conj (@light_resumes C OR f wallet_new cs cs') (@light_scan_finds C OR f (cs ++ cs'))). Qed.
Print Assumptions C101_scanning_finds_the_light_coins.

(** C101. A new builder at the root of the ledger accepts any choice of the light coins, with their paths in
    the tree, and any payments; also coins whose memo and tag, which the client never saw, are spoiled. *)
Theorem C101_the_builder_accepts_any_choice :
  forall (C : Curve) (OR : @Oracles C) (V : Type) (L : CurveLaws C) (halo2_verify : bytes -> list (list Z) -> bool) (into : V -> Z)
    (f : fvk) (h : list (@tx C V)) (lg : ledger) (ty : bundle_type) (pick : nat * note -> bool) (outs : list call),
  gd_fallback_ok -> fvk_ok f -> reached halo2_verify into h lg ->
  spends_enabled (bt_flags ty) = true -> outputs_enabled (bt_flags ty) = true -> Forall is_payment outs -> Forall call_ok outs ->
  exists b, purse_built f lg ty (filter pick (light_coins f (compact_chain h))) outs b.
Proof. exact @light_run. Qed.
Print Assumptions C101_the_builder_accepts_any_choice.

(** C101. Such a builder spends unspent, pairwise different notes at an anchor the ledger knows, of the value
    of the choice. *)
Theorem C101_the_choice_is_legal :
  forall (C : Curve) (OR : @Oracles C) (V : Type) (L : CurveLaws C) (halo2_verify : bytes -> list (list Z) -> bool) (into : V -> Z)
    (f : fvk) (h : list (@tx C V)) (lg : ledger) (ty : bundle_type) (pick : nat * note -> bool) (outs : list call) (b : builder),
  gd_fallback_ok -> fvk_ok f -> reached halo2_verify into h lg ->
  purse_built f lg ty (filter pick (light_coins f (compact_chain h))) outs b ->
  known_anchor lg (tree_root (leaves_of (lg_cmxs lg)) 32) /\ unspent lg b /\ different_notes b /\
  spent b = value_of (filter pick (light_coins f (compact_chain h))) /\ sent b = zsum (map payment_value outs).
Proof. exact @light_legal. Qed.
Print Assumptions C101_the_choice_is_legal.

(** C101. The bundle it builds is proved, is signed with the wallet's one spend authorizing key, and is
    accepted by the ledger. *)
Theorem C101_the_payment_is_accepted :
  forall (C : Curve) (OR : @Oracles C) (V : Type) (L : CurveLaws C)
    (halo2_prove : list witness -> list (list Z) -> rng -> option bytes * rng) (halo2_verify : bytes -> list (list Z) -> bool)
    (try_from : Z -> option V) (into : V -> Z)
    (f : fvk) (ask : Z) (h : list (@tx C V)) (lg : ledger) (ty : bundle_type) (pick : nat * note -> bool)
    (outs : list call) (b : builder) (fuel : nat) (r : rng) (b0 : unauthorized_bundle) (meta : bundle_metadata) (r' : rng) (sighash : bytes)
    (r1 r2 : rng),
  (forall i v, try_from i = Some v -> into v = i) -> proofs_verify halo2_prove halo2_verify -> prover_succeeds halo2_prove ->
  gd_fallback_ok -> basepoint SpendAuth <> pt_id -> fvk_ok f -> ak_of_ask ask = fvk_ak f -> reached halo2_verify into h lg ->
  purse_built f lg ty (filter pick (light_coins f (compact_chain h))) outs b ->
  build try_from fuel b r = Ret (Ok (Some (b0, meta)), r') -> (forall a, In a (b_actions b0) -> a_rk a <> pt_id) ->
  Z.of_nat (length (lg_cmxs lg) + length (b_actions b0)) <= 2 ^ 32 ->
  let ws := up_circuits (ip_proof (b_auth b0)) in
  (exists b1 r3 bd, create_proof halo2_prove b0 r1 = Ret (Ok b1, r3) /\ apply_signatures b1 r2 sighash [ask] = Ret (Ok bd) /\
     (padding_repeats lg (bd, sighash) meta \/ accepts halo2_verify into lg (bd, sighash))) \/
  undefined_merkle_hash ws \/ requests_collide b.
Proof. exact @light_pays. Qed.
Print Assumptions C101_the_payment_is_accepted.

(** The light client of the toy instance finds the note of 1000 and spends it, paying 600 to itself. *)
Example C101_ex : @gd_fallback_ok toy_curve toy_oracles /\ @basepoint toy_curve toy_oracles SpendAuth <> pt_id /\ fvk_ok toy_fvk /\
  proofs_verify toy_prover toy_verifier /\ prover_succeeds toy_prover /\
  Forall call_ok payout /\ Forall is_payment payout /\
  exists (t : @tx toy_curve Z) lg n ask b b0 meta r',
    reached toy_verifier (fun i => i) [t] lg /\ filter at_first (light_coins toy_fvk (compact_chain [t])) = [(0%nat, n)] /\ n_value n = 1000 /\
    purse_built toy_fvk lg toy_type (filter at_first (light_coins toy_fvk (compact_chain [t]))) payout b /\
    build (fun i : Z => Some i) 5 b rng2 = Ret (Ok (Some (b0, meta)), r') /\ (forall a, In a (b_actions b0) -> a_rk a <> pt_id) /\
    Z.of_nat (length (lg_cmxs lg) + length (b_actions b0)) <= 2 ^ 32 /\ ak_of_ask ask = fvk_ak toy_fvk.
Proof.
  exact (conj toy_gd (conj toy_basepoint (conj toy_fvk_ok (conj toy_proofs_verify (conj toy_prover_succeeds
    (conj payout_ok (conj payout_payments toy_light_purse))))))).
Qed.
