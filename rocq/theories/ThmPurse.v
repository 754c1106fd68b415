(** Property C94: a wallet can spend what it found, in any selection and up to its whole balance. *)
From Coq Require Import String ZArith List Bool.
From Coq Require Import Init.Byte.
From Verif Require Import Prelude Fields Curve CurveFacts Oracles Spec Sinsemilla SinsSpec RedPallas Value Keys KeysSpec Note Tree TreeSpec Action
  NoteEnc Bundle Batch Builder Signing BuilderSpec SigningSpec Circuit CircuitSpec PipelineSpec LedgerSpec WalletSpec BackedSpec LifeSpec BalanceSpec
  BalanceFacts FuelSpec PurseSpec PurseFacts Toy ToyFacts ToyKeys ToyNoteEnc ToyBuilder ToySigning ToyPipeline ToyLife ToyBalance ToyPurse.
Import ListNotations.
Open Scope Z_scope.

(** C94. The coins of a wallet are the notes it finds on the chain whose nullifier is not on the chain, at
    distinct positions of the tree, and together they are its balance. *)
Theorem C94_coins_are_the_balance :
  forall (C : Curve) (OR : @Oracles C) (V : Type) (f : fvk) (h : list (@tx C V)),
  (forall c, In c (coins f h) <->
    exists a, nth_error (chain_actions h) (fst c) = Some a /\ opens f a = Some (snd c) /\ spent_in f (map a_nf (chain_actions h)) (snd c) = false) /\
  NoDup (map fst (coins f h)) /\ value_of (coins f h) = balance f h.
Proof. exact (fun C OR V f h => conj (@coin_in C OR V f h) (conj (@coins_distinct C OR V f h) (@coins_value C OR V f h))). Qed.
Print Assumptions C94_coins_are_the_balance.

(** C94. A new builder at the root of the ledger accepts any choice of the coins, with their paths in the
    ledger's tree, and any payments. *)
Theorem C94_the_builder_accepts_any_choice :
  forall (C : Curve) (OR : @Oracles C) (V : Type) (L : CurveLaws C) (halo2_verify : bytes -> list (list Z) -> bool) (into : V -> Z)
    (f : fvk) (h : list (@tx C V)) (lg : ledger) (ty : bundle_type) (pick : nat * note -> bool) (outs : list call),
  gd_fallback_ok -> fvk_ok f -> reached halo2_verify into h lg ->
  spends_enabled (bt_flags ty) = true -> outputs_enabled (bt_flags ty) = true -> Forall is_payment outs -> Forall call_ok outs ->
  exists b, purse_built f lg ty (filter pick (coins f h)) outs b.
Proof. exact @purse_run. Qed.
Print Assumptions C94_the_builder_accepts_any_choice.

(** C94. Such a builder spends unspent, pairwise different notes the wallet found, at an anchor the ledger
    knows; it spends the value of the choice and sends the payments. *)
Theorem C94_the_choice_is_legal :
  forall (C : Curve) (OR : @Oracles C) (V : Type) (L : CurveLaws C) (halo2_verify : bytes -> list (list Z) -> bool) (into : V -> Z)
    (f : fvk) (h : list (@tx C V)) (lg : ledger) (ty : bundle_type) (pick : nat * note -> bool) (outs : list call) (b : builder),
  gd_fallback_ok -> fvk_ok f -> reached halo2_verify into h lg -> purse_built f lg ty (filter pick (coins f h)) outs b ->
  known_anchor lg (tree_root (leaves_of (lg_cmxs lg)) 32) /\ unspent lg b /\ different_notes b /\ spends_found f h b /\
  spent b = value_of (filter pick (coins f h)) /\ sent b = zsum (map payment_value outs) /\
  forall mine, decides mine f -> payments mine b = value_of (filter pick (coins f h)).
Proof. exact @purse_legal. Qed.
Print Assumptions C94_the_choice_is_legal.

(** C94. Building delivers a bundle with the value balance of the choice less the payments whenever the
    values fit their types, unless the RNG gives a zero key or too many rejected samples in a row. *)
Theorem C94_the_builder_delivers :
  forall (C : Curve) (OR : @Oracles C) (V : Type) (L : CurveLaws C) (try_from : Z -> option V)
    (f : fvk) (lg : ledger) (ty : bundle_type) (cs : list (nat * note)) (outs : list call) (b : builder) (v : V) (fuel : nat) (r : rng),
  gd_fallback_ok -> spends_enabled (bt_flags ty) = true ->
  purse_built f lg ty cs outs b -> cs <> [] \/ outs <> [] -> Forall is_payment outs ->
  value_of cs < 2 ^ 64 -> zsum (map payment_value outs) < 2 ^ 64 ->
  i64_ok (value_of cs - zsum (map payment_value outs)) -> try_from (value_of cs - zsum (map payment_value outs)) = Some v ->
  (exists b0 meta r', build try_from fuel b r = Ret (Ok (Some (b0, meta)), r') /\ b_value_balance b0 = v) \/
  (exists why, build try_from fuel b r = Panic why /\ rng_hits_zero_key r) \/
  (build try_from fuel b r = OutOfFuel /\ rejected_in_a_row fuel r).
Proof. exact @purse_delivers. Qed.
Print Assumptions C94_the_builder_delivers.

(** C94. The bundle is proved, is signed with the wallet's one spend authorizing key, and is accepted by the
    ledger; then the balance is the old one less the choice plus what was paid to the wallet's own addresses. *)
Theorem C94_the_payment_is_accepted_and_the_rest_remains :
  forall (C : Curve) (OR : @Oracles C) (V : Type) (L : CurveLaws C)
    (halo2_prove : list witness -> list (list Z) -> rng -> option bytes * rng) (halo2_verify : bytes -> list (list Z) -> bool)
    (try_from : Z -> option V) (into : V -> Z)
    (f : fvk) (ask : Z) (mine : address -> bool) (h : list (@tx C V)) (lg : ledger) (ty : bundle_type) (pick : nat * note -> bool)
    (outs : list call) (b : builder) (fuel : nat) (r : rng) (b0 : unauthorized_bundle) (meta : bundle_metadata) (r' : rng) (sighash : bytes)
    (r1 r2 : rng),
  (forall i v, try_from i = Some v -> into v = i) -> proofs_verify halo2_prove halo2_verify -> prover_succeeds halo2_prove ->
  gd_fallback_ok -> basepoint SpendAuth <> pt_id -> fvk_ok f -> ak_of_ask ask = fvk_ak f -> decides mine f -> reached halo2_verify into h lg ->
  purse_built f lg ty (filter pick (coins f h)) outs b ->
  build try_from fuel b r = Ret (Ok (Some (b0, meta)), r') -> (forall a, In a (b_actions b0) -> a_rk a <> pt_id) ->
  Z.of_nat (length (lg_cmxs lg) + length (b_actions b0)) <= 2 ^ 32 ->
  let ws := up_circuits (ip_proof (b_auth b0)) in
  (exists b1 r3 bd, create_proof halo2_prove b0 r1 = Ret (Ok b1, r3) /\ apply_signatures b1 r2 sighash [ask] = Ret (Ok bd) /\
     made halo2_prove try_from (tree_root (leaves_of (lg_cmxs lg)) 32) b (bd, sighash) meta ws /\
     (padding_repeats lg (bd, sighash) meta \/
      (accepts halo2_verify into lg (bd, sighash) /\
       (balance f (h ++ [(bd, sighash)]) = balance f h - value_of (filter pick (coins f h)) + receipts mine b \/
        surprise f h b (bd, sighash) ws \/ born_spent f h (bd, sighash))))) \/
  undefined_merkle_hash ws \/ requests_collide b.
Proof. exact @purse_pays. Qed.
Print Assumptions C94_the_payment_is_accepted_and_the_rest_remains.

(** The wallet of the toy instance found one note of 1000 and spends it, paying 600 to itself. *)
Example C94_ex : @gd_fallback_ok toy_curve toy_oracles /\ @basepoint toy_curve toy_oracles SpendAuth <> pt_id /\ fvk_ok toy_fvk /\
  proofs_verify toy_prover toy_verifier /\ prover_succeeds toy_prover /\ decides (mine_of toy_fvk) toy_fvk /\
  Forall call_ok payout /\ Forall is_payment payout /\
  exists (t : @tx toy_curve Z) lg n ask b b0 meta r',
    reached toy_verifier (fun i => i) [t] lg /\ coins toy_fvk [t] = [(0%nat, n)] /\ n_value n = 1000 /\
    purse_built toy_fvk lg toy_type (filter (fun _ => true) (coins toy_fvk [t])) payout b /\
    build (fun i : Z => Some i) 5 b rng2 = Ret (Ok (Some (b0, meta)), r') /\ (forall a, In a (b_actions b0) -> a_rk a <> pt_id) /\
    Z.of_nat (length (lg_cmxs lg) + length (b_actions b0)) <= 2 ^ 32 /\ ak_of_ask ask = fvk_ak toy_fvk.
Proof.
  exact (conj toy_gd (conj toy_basepoint (conj toy_fvk_ok (conj toy_proofs_verify (conj toy_prover_succeeds
    (conj (mine_decides toy_laws toy_fvk toy_fvk_ok) (conj payout_ok (conj payout_payments toy_purse)))))))).
Qed.
