(** Properties C89, C91, C97, C98 and C100 on Pallas, for the functions the crate links. *)
From Coq Require Import String ZArith List Bool Lia.
From Coq Require Import Init.Byte.
From Verif Require Import Prelude Fields Curve CurveFacts Oracles Spec Sinsemilla SinsSpec RedPallas Value Keys KeysSpec Note NoteSpec Tree TreeSpec Action
  NoteEnc NoteEncSpec Bundle BundleSpec Batch Builder Signing BuilderSpec SigningSpec Circuit CircuitSpec PipelineSpec LedgerSpec WalletSpec BackedSpec LifeSpec
  BalanceSpec PurseSpec MempoolSpec EncKeySpec SealedSpec SentSpec ScanSpec PallasCurve RealOracles RealWalletFacts.
Import ListNotations.
Open Scope Z_scope.

(** C98 on Pallas: no hypothesis on generators is left. The other hypotheses are met as in C98_ex. *)
Theorem C98_payment_from_an_older_root_on_pallas :
  forall (R : Type) (rng_b : R -> nat -> bytes * R) (rng_i : R -> nat -> nat * R) (rng_p : R -> pallas_point * R),
  let OR := real_oracles R rng_b rng_i rng_p in
  forall (V : Type)
    (halo2_prove : list (@witness pallas) -> list (list Z) -> R -> option bytes * R) (halo2_verify : bytes -> list (list Z) -> bool)
    (try_from : Z -> option V) (into : V -> Z)
    (f : @fvk pallas) (ask : Z) (mine : @address pallas -> bool) (h0 : list (@tx pallas V)) (lg0 : ledger) (h1 : list (@tx pallas V)) (lg : ledger)
    (ty : bundle_type) (pick : nat * @note pallas -> bool)
    (outs : list (@call pallas)) (b : @builder pallas) (fuel : nat) (r : R) (b0 : @unauthorized_bundle pallas V) (meta : bundle_metadata) (r' : R)
    (sighash : bytes) (r1 r2 : R),
  (forall i v, try_from i = Some v -> into v = i) -> @proofs_verify pallas OR halo2_prove halo2_verify -> @prover_succeeds pallas OR halo2_prove ->
  @fvk_ok pallas OR f -> @ak_of_ask pallas OR ask = fvk_ak f -> @decides pallas OR mine f ->
  @reached pallas OR V halo2_verify into h0 lg0 -> @applied pallas OR V halo2_verify into lg0 h1 lg ->
  @purse_built pallas OR f lg0 ty (filter pick (@coins pallas OR V f h0)) outs b ->
  incl (filter pick (@coins pallas OR V f h0)) (@coins pallas OR V f (h0 ++ h1)) ->
  @build pallas OR V try_from fuel b r = Ret (Ok (Some (b0, meta)), r') -> (forall a, In a (b_actions b0) -> a_rk a <> pt_id) ->
  Z.of_nat (length (lg_cmxs lg) + length (b_actions b0)) <= 2 ^ 32 ->
  let ws := up_circuits (ip_proof (b_auth b0)) in
  (exists b1 r3 bd, @create_proof pallas OR V halo2_prove _ _ b0 r1 = Ret (Ok b1, r3) /\ @apply_signatures pallas OR V b1 r2 sighash [ask] = Ret (Ok bd) /\
     (@padding_repeats pallas V lg (bd, sighash) meta \/
      (@accepts pallas OR V halo2_verify into lg (bd, sighash) /\
       (@balance pallas OR V f ((h0 ++ h1) ++ [(bd, sighash)]) =
          @balance pallas OR V f (h0 ++ h1) - value_of (filter pick (@coins pallas OR V f h0)) + @receipts pallas mine b \/
        @surprise pallas OR V f (h0 ++ h1) b (bd, sighash) ws \/ @born_spent pallas OR V f (h0 ++ h1) (bd, sighash))))) \/
  @undefined_merkle_hash pallas OR ws \/ @requests_collide pallas OR b.
Proof. exact real_older_root. Qed.
Print Assumptions C98_payment_from_an_older_root_on_pallas.

(** C89 on Pallas. The other hypotheses are met as in the examples of C89. *)
Theorem C89_account_book_on_pallas :
  forall (R : Type) (rng_b : R -> nat -> bytes * R) (rng_i : R -> nat -> nat * R) (rng_p : R -> pallas_point * R),
  let OR := real_oracles R rng_b rng_i rng_p in
  forall (V : Type)
    (halo2_prove : list (@witness pallas) -> list (list Z) -> R -> option bytes * R) (halo2_verify : bytes -> list (list Z) -> bool)
    (try_from : Z -> option V) (into : V -> Z)
    (f : @fvk pallas) (mine : @address pallas -> bool) (es : list (entry pallas V)) (lg : ledger),
  @fvk_ok pallas OR f -> @decides pallas OR mine f -> @account pallas OR V halo2_prove halo2_verify try_from into f es lg ->
  @balance pallas OR V f (map en_tx es) =
    zsum (map (fun e => @receipts pallas mine (en_builder e)) es) - zsum (map (fun e => @payments pallas mine (en_builder e)) es) \/
  @account_surprise pallas OR V f es.
Proof. exact real_account_book. Qed.
Print Assumptions C89_account_book_on_pallas.

(** C91 on Pallas. The other hypotheses are met as in the examples of C91. *)
Theorem C91_recipient_reads_exactly_on_pallas :
  forall (R : Type) (rng_b : R -> nat -> bytes * R) (rng_i : R -> nat -> nat * R) (rng_p : R -> pallas_point * R),
  let OR := real_oracles R rng_b rng_i rng_p in
  forall (A : Type) (k : ivk) (a : @action pallas A) (n : @note pallas) (to : @address pallas) (memo : bytes),
  ivk_ok k -> action_ok a ->
  (@try_note_decryption pallas OR A k a = Ret (Some (n, to, memo)) <->
   @sealed pallas OR A a n memo /\ to = n_recipient n /\ @owned_by pallas OR k to).
Proof. exact real_read_exactly. Qed.
Print Assumptions C91_recipient_reads_exactly_on_pallas.

(** The same for compact actions. *)
Theorem C91_light_client_reads_exactly_on_pallas :
  forall (R : Type) (rng_b : R -> nat -> bytes * R) (rng_i : R -> nat -> nat * R) (rng_p : R -> pallas_point * R),
  let OR := real_oracles R rng_b rng_i rng_p in
  forall (k : ivk) (c : compact_action) (n : @note pallas) (to : @address pallas),
  ivk_ok k -> length (c_enc c) = 52%nat -> is_base (c_nf c) -> is_base (c_cmx c) ->
  (@try_compact_note_decryption pallas OR k c = Ret (Some (n, to)) <->
   @compact_sealed pallas OR c n /\ to = n_recipient n /\ @owned_by pallas OR k to).
Proof. exact real_compact_read_exactly. Qed.
Print Assumptions C91_light_client_reads_exactly_on_pallas.

(** C97 on Pallas. The other hypotheses are met as in the examples of C97. *)
Theorem C97_recovered_payments_reach_the_recipient_on_pallas :
  forall (R : Type) (rng_b : R -> nat -> bytes * R) (rng_i : R -> nat -> nat * R) (rng_p : R -> pallas_point * R),
  let OR := real_oracles R rng_b rng_i rng_p in
  forall (A : Type) (key : bytes) (a : @action pallas A) (n : @note pallas) (to : @address pallas) (memo : bytes) (k : ivk),
  action_ok a -> @try_output_recovery pallas OR A key a = Ret (Some (n, to, memo)) ->
  ivk_ok k -> @owned_by pallas OR k to -> @try_note_decryption pallas OR A k a = Ret (Some (n, to, memo)).
Proof. exact real_recovered. Qed.
Print Assumptions C97_recovered_payments_reach_the_recipient_on_pallas.

(** C100 on Pallas. The other hypotheses are met as in the examples of C100. *)
Theorem C100_scanned_notes_are_the_balance_on_pallas :
  forall (R : Type) (rng_b : R -> nat -> bytes * R) (rng_i : R -> nat -> nat * R) (rng_p : R -> pallas_point * R),
  let OR := real_oracles R rng_b rng_i rng_p in
  forall (V : Type) (halo2_verify : bytes -> list (list Z) -> bool) (into : V -> Z)
    (extract : bytes -> list (list Z) -> list (@action_cells pallas)) (sx bx : pallas_point -> bytes -> signature -> Z),
  @finds_cells pallas OR halo2_verify extract -> @finds_keys pallas OR SpendAuth sx -> @finds_keys pallas OR Binding bx ->
  forall (f : @fvk pallas) (h : list (@tx pallas V)) (lg : ledger),
  @fvk_ok pallas OR f -> @reached pallas OR V halo2_verify into h lg ->
  value_of (wl_notes (@scan pallas OR V f wallet_new h)) = @balance pallas OR V f h \/
  (exists h1 t h2 a n, h = h1 ++ t :: h2 /\ In a (b_actions (fst t)) /\ @opens pallas OR _ f a = Some n /\
     ((exists x, In x (@acts pallas V extract (h1 ++ [t])) /\
         (@nullifier_relation pallas OR (@spent_secret pallas (snd x)) (@own_secret pallas OR f n) \/
          exists s, @foreign_opening pallas OR f s (snd x))) \/
      @break pallas OR V into extract bx (h1 ++ [t]))).
Proof. exact real_scan_balance. Qed.
Print Assumptions C100_scanned_notes_are_the_balance_on_pallas.
