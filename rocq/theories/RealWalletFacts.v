(** C89, C91, C97, C98 and C100 on Pallas with the crate's hash functions. *)
From Coq Require Import String ZArith List Bool Lia.
From Coq Require Import Init.Byte.
From Verif Require Import Prelude Fields Curve CurveFacts Oracles Spec Sinsemilla SinsSpec RedPallas Value Keys KeysSpec Note NoteSpec Tree TreeSpec Action
  NoteEnc NoteEncSpec Bundle BundleSpec Batch Builder Signing BuilderSpec SigningSpec Circuit CircuitSpec PipelineSpec LedgerSpec WalletSpec BackedSpec LifeSpec
  BalanceSpec PurseSpec MempoolSpec EncKeySpec SealedSpec SentSpec ScanSpec PallasCurve RealOracles
  PallasLaws RealFacts BalanceFacts LaterFacts SealedFacts SentFacts ScanFacts.
Import ListNotations.
Open Scope Z_scope.

Lemma real_older_root :
  forall (R : Type) (rng_b : R -> nat -> bytes * R) (rng_i : R -> nat -> nat * R) (rng_p : R -> pallas_point * R),
  let OR := real_oracles R rng_b rng_i rng_p in
  forall (V : Type)
    (halo2_prove : list (@witness pallas) -> list (list Z) -> R -> option bytes * R) (halo2_verify : bytes -> list (list Z) -> bool)
    (try_from : Z -> option V) (into : V -> Z)
    (f : @fvk pallas) (ask : Z) (mine : @address pallas -> bool) (h0 : list (@tx pallas V)) (lg0 : ledger) (h1 : list (@tx pallas V)) (lg : ledger)
    (ty : bundle_type) (pick : nat * @note pallas -> bool)
    (outs : list (@call pallas)) (b : @builder pallas) (fuel : nat) (r : R) (b0 : @unauthorized_bundle pallas V) (meta : bundle_metadata) (r' : R)
    (sighash : bytes) (r1 r2 : R),
  (forall i v, try_from i = Some v -> into v = i) -> @proofs_verify pallas OR halo2_prove halo2_verify -> @prover_succeeds pallas OR halo2_prove ->
  @fvk_ok pallas OR f -> @ak_of_ask pallas OR ask = fvk_ak f -> @decides pallas OR mine f ->
  @reached pallas OR V halo2_verify into h0 lg0 -> @applied pallas OR V halo2_verify into lg0 h1 lg ->
  @purse_built pallas OR f lg0 ty (filter pick (@coins pallas OR V f h0)) outs b ->
  incl (filter pick (@coins pallas OR V f h0)) (@coins pallas OR V f (h0 ++ h1)) ->
  @build pallas OR V try_from fuel b r = Ret (Ok (Some (b0, meta)), r') -> (forall a, In a (b_actions b0) -> a_rk a <> pt_id) ->
  Z.of_nat (length (lg_cmxs lg) + length (b_actions b0)) <= 2 ^ 32 ->
  let ws := up_circuits (ip_proof (b_auth b0)) in
  (exists b1 r3 bd, @create_proof pallas OR V halo2_prove _ _ b0 r1 = Ret (Ok b1, r3) /\ @apply_signatures pallas OR V b1 r2 sighash [ask] = Ret (Ok bd) /\
     (@padding_repeats pallas V lg (bd, sighash) meta \/
      (@accepts pallas OR V halo2_verify into lg (bd, sighash) /\
       (@balance pallas OR V f ((h0 ++ h1) ++ [(bd, sighash)]) =
          @balance pallas OR V f (h0 ++ h1) - value_of (filter pick (@coins pallas OR V f h0)) + @receipts pallas mine b \/
        @surprise pallas OR V f (h0 ++ h1) b (bd, sighash) ws \/ @born_spent pallas OR V f (h0 ++ h1) (bd, sighash))))) \/
  @undefined_merkle_hash pallas OR ws \/ @requests_collide pallas OR b.
Proof.
  intros R rng_b rng_i rng_p OR V prove ver tf into f ask mine h0 lg0 h1 lg ty pick outs b fuel r b0 meta r' sighash r1 r2 TI PV PS KF AK D RE AP PB IN E RK SP.
  destruct (real_not_id R rng_b rng_i rng_p) as (G1 & G2 & _).
  destruct (@older_root pallas OR V pallas_laws prove ver tf into f ask mine h0 lg0 h1 lg ty pick outs b fuel r b0 meta r' sighash r1 r2
              TI PV PS G1 G2 KF AK D RE AP PB IN E RK SP)
    as [(b1 & r3 & bd & X1 & X2 & _ & X4)|X]; [left|right; exact X].
  exists b1, r3, bd. split; [exact X1|]. split; [exact X2|exact X4].
Qed.

Lemma real_account_book :
  forall (R : Type) (rng_b : R -> nat -> bytes * R) (rng_i : R -> nat -> nat * R) (rng_p : R -> pallas_point * R),
  let OR := real_oracles R rng_b rng_i rng_p in
  forall (V : Type)
    (halo2_prove : list (@witness pallas) -> list (list Z) -> R -> option bytes * R) (halo2_verify : bytes -> list (list Z) -> bool)
    (try_from : Z -> option V) (into : V -> Z)
    (f : @fvk pallas) (mine : @address pallas -> bool) (es : list (entry pallas V)) (lg : ledger),
  @fvk_ok pallas OR f -> @decides pallas OR mine f -> @account pallas OR V halo2_prove halo2_verify try_from into f es lg ->
  @balance pallas OR V f (map en_tx es) =
    zsum (map (fun e => @receipts pallas mine (en_builder e)) es) - zsum (map (fun e => @payments pallas mine (en_builder e)) es) \/
  @account_surprise pallas OR V f es.
Proof.
  intros R rng_b rng_i rng_p OR V prove ver tf into f mine es lg KF D A.
  destruct (real_not_id R rng_b rng_i rng_p) as (G1 & _).
  exact (@account_book pallas OR V pallas_laws prove ver tf into f mine es lg G1 KF D A).
Qed.

Lemma real_read_exactly :
  forall (R : Type) (rng_b : R -> nat -> bytes * R) (rng_i : R -> nat -> nat * R) (rng_p : R -> pallas_point * R),
  let OR := real_oracles R rng_b rng_i rng_p in
  forall (A : Type) (k : ivk) (a : @action pallas A) (n : @note pallas) (to : @address pallas) (memo : bytes),
  ivk_ok k -> action_ok a ->
  (@try_note_decryption pallas OR A k a = Ret (Some (n, to, memo)) <->
   @sealed pallas OR A a n memo /\ to = n_recipient n /\ @owned_by pallas OR k to).
Proof.
  intros R rng_b rng_i rng_p OR A k a n to memo K O.
  destruct (real_not_id R rng_b rng_i rng_p) as (G1 & _).
  exact (@read_exactly pallas OR pallas_laws A k a n to memo G1 K O).
Qed.

Lemma real_compact_read_exactly :
  forall (R : Type) (rng_b : R -> nat -> bytes * R) (rng_i : R -> nat -> nat * R) (rng_p : R -> pallas_point * R),
  let OR := real_oracles R rng_b rng_i rng_p in
  forall (k : ivk) (c : compact_action) (n : @note pallas) (to : @address pallas),
  ivk_ok k -> length (c_enc c) = 52%nat -> is_base (c_nf c) -> is_base (c_cmx c) ->
  (@try_compact_note_decryption pallas OR k c = Ret (Some (n, to)) <->
   @compact_sealed pallas OR c n /\ to = n_recipient n /\ @owned_by pallas OR k to).
Proof.
  intros R rng_b rng_i rng_p OR k c n to K Z1 Z2 Z3.
  destruct (real_not_id R rng_b rng_i rng_p) as (G1 & _).
  exact (@compact_read_exactly pallas OR pallas_laws k c n to G1 K Z1 Z2 Z3).
Qed.

Lemma real_recovered :
  forall (R : Type) (rng_b : R -> nat -> bytes * R) (rng_i : R -> nat -> nat * R) (rng_p : R -> pallas_point * R),
  let OR := real_oracles R rng_b rng_i rng_p in
  forall (A : Type) (key : bytes) (a : @action pallas A) (n : @note pallas) (to : @address pallas) (memo : bytes) (k : ivk),
  action_ok a -> @try_output_recovery pallas OR A key a = Ret (Some (n, to, memo)) ->
  ivk_ok k -> @owned_by pallas OR k to -> @try_note_decryption pallas OR A k a = Ret (Some (n, to, memo)).
Proof.
  intros R rng_b rng_i rng_p OR A key a n to memo k O T K W.
  destruct (real_not_id R rng_b rng_i rng_p) as (G1 & _).
  exact (@recovered_is_readable pallas OR pallas_laws A key a n to memo k G1 O T K W).
Qed.

Lemma real_scan_balance :
  forall (R : Type) (rng_b : R -> nat -> bytes * R) (rng_i : R -> nat -> nat * R) (rng_p : R -> pallas_point * R),
  let OR := real_oracles R rng_b rng_i rng_p in
  forall (V : Type) (halo2_verify : bytes -> list (list Z) -> bool) (into : V -> Z)
    (extract : bytes -> list (list Z) -> list (@action_cells pallas)) (sx bx : pallas_point -> bytes -> signature -> Z),
  @finds_cells pallas OR halo2_verify extract -> @finds_keys pallas OR SpendAuth sx -> @finds_keys pallas OR Binding bx ->
  forall (f : @fvk pallas) (h : list (@tx pallas V)) (lg : ledger),
  @fvk_ok pallas OR f -> @reached pallas OR V halo2_verify into h lg ->
  value_of (wl_notes (@scan pallas OR V f wallet_new h)) = @balance pallas OR V f h \/
  (exists h1 t h2 a n, h = h1 ++ t :: h2 /\ In a (b_actions (fst t)) /\ @opens pallas OR _ f a = Some n /\
     ((exists x, In x (@acts pallas V extract (h1 ++ [t])) /\
         (@nullifier_relation pallas OR (@spent_secret pallas (snd x)) (@own_secret pallas OR f n) \/
          exists s, @foreign_opening pallas OR f s (snd x))) \/
      @break pallas OR V into extract bx (h1 ++ [t]))).
Proof.
  intros R rng_b rng_i rng_p OR V ver into ex sx bx X1 X2 X3 f h lg KF RE.
  destruct (real_not_id R rng_b rng_i rng_p) as (G1 & _).
  exact (@scan_balance pallas OR V pallas_laws ver into ex sx bx X1 X2 X3 f h lg G1 KF RE).
Qed.
