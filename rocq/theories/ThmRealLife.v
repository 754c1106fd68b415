(** C66 and C80 on Pallas with the crate's hash functions. *)
From Coq Require Import String ZArith List Bool.
From Coq Require Import Init.Byte.
From Verif Require Import Prelude Fields Curve Oracles RedPallas Value Keys KeysSpec Note NoteSpec Tree TreeSpec Action NoteEnc NoteEncSpec Bundle
  Batch Builder BuilderSpec Signing Circuit PipelineSpec LedgerSpec WalletSpec LifeSpec PallasCurve PallasLaws RealOracles RealLifeFacts.
Import ListNotations.
Open Scope Z_scope.

(** C66. The extractors that C62, C63 and C71 assume exist: every point has a discrete logarithm. *)
Theorem C66_key_extractors_exist :
  forall (R : Type) (rng_b : R -> nat -> bytes * R) (rng_i : R -> nat -> nat * R) (rng_p : R -> pallas_point * R),
  let OR := real_oracles R rng_b rng_i rng_p in
  exists sx bx, @finds_keys pallas OR SpendAuth sx /\ @finds_keys pallas OR Binding bx.
Proof. exact real_extractors. Qed.
Print Assumptions C66_key_extractors_exist.

(** C80 on Pallas. *)
Theorem C80_own_transactions_are_accepted_on_pallas :
  forall (R : Type) (rng_b : R -> nat -> bytes * R) (rng_i : R -> nat -> nat * R) (rng_p : R -> pallas_point * R),
  let OR := real_oracles R rng_b rng_i rng_p in
  forall (V : Type)
    (halo2_prove : list (@witness pallas) -> list (list Z) -> R -> option bytes * R) (halo2_verify : bytes -> list (list Z) -> bool)
    (try_from : Z -> option V) (into : V -> Z)
    (h : list (@tx pallas V)) (lg : ledger) (anchor : Z) (b : @builder pallas) (t : @tx pallas V) (meta : bundle_metadata) (ws : list (@witness pallas)),
    (forall i v, try_from i = Some v -> into v = i) -> @proofs_verify pallas OR halo2_prove halo2_verify ->
    @reached pallas OR V halo2_verify into h lg -> @known_anchor pallas OR lg anchor -> @made pallas OR V halo2_prove try_from anchor b t meta ws ->
    @unspent pallas OR lg b -> different_notes b -> Z.of_nat (length (lg_cmxs lg) + length (b_actions (fst t))) <= 2 ^ 32 ->
    @accepts pallas OR V halo2_verify into lg t \/ @undefined_merkle_hash pallas OR ws \/ padding_repeats lg t meta \/ @requests_collide pallas OR b.
Proof. exact real_accepted. Qed.
Print Assumptions C80_own_transactions_are_accepted_on_pallas.

(** C80 on Pallas. *)
Theorem C80_payments_arrive_and_can_be_spent_on_pallas :
  forall (R : Type) (rng_b : R -> nat -> bytes * R) (rng_i : R -> nat -> nat * R) (rng_p : R -> pallas_point * R),
  let OR := real_oracles R rng_b rng_i rng_p in
  forall (V : Type)
    (halo2_prove : list (@witness pallas) -> list (list Z) -> R -> option bytes * R) (halo2_verify : bytes -> list (list Z) -> bool)
    (try_from : Z -> option V) (into : V -> Z)
    (h : list (@tx pallas V)) (lg : ledger) (anchor : Z) (b : @builder pallas) (t : @tx pallas V) (meta : bundle_metadata) (ws : list (@witness pallas))
    (i : nat) (o : @output_info pallas) (f : @fvk pallas) (s : scope) (key : ivk),
    @made pallas OR V halo2_prove try_from anchor b t meta ws -> nth_error (bl_outputs b) i = Some o ->
    @fvk_ok pallas OR f -> @fvk_to_ivk pallas OR f s = Ret key -> @owned_by pallas OR key (o_recipient o) ->
    @reached pallas OR V halo2_verify into h lg ->
    exists k n, output_action_index meta i = Some k /\ n_recipient n = o_recipient o /\ n_value n = o_value o /\
      forall h' lg', @reached pallas OR V halo2_verify into (h ++ t :: h') lg' ->
        let pos := (length (lg_cmxs lg) + k)%nat in
        (exists a, nth_error (chain_actions (h ++ t :: h')) pos = Some a /\
           @try_note_decryption pallas OR _ key a = Ret (Some (n, o_recipient o, o_memo o))) /\
        forall b', spends_enabled (bt_flags (bl_type b')) = true -> bl_anchor b' = @tree_root pallas OR (leaves_of (lg_cmxs lg')) 32 ->
          exists path s', mp_from_position (Z.of_nat pos) (@auth_path pallas OR (leaves_of (lg_cmxs lg')) (Z.of_nat pos) 32) = Ret path /\
            @add_spend pallas OR b' f n path = Ret (Ok tt, with_spend b' (mk_spend None f s' n path)).
Proof. exact real_received. Qed.
Print Assumptions C80_payments_arrive_and_can_be_spent_on_pallas.

(** The start of a chain, with the root of the empty tree. *)
Example C80_pallas_ex : forall R rng_b rng_i rng_p (halo2_verify : bytes -> list (list Z) -> bool) (into : Z -> Z),
  let OR := real_oracles R rng_b rng_i rng_p in
  @reached pallas OR Z halo2_verify into [] genesis /\ @known_anchor pallas OR genesis (@tree_root pallas OR (leaves_of []) 32).
Proof. intros. split; [constructor|]. exists 0%nat. split; [apply Nat.le_refl|reflexivity]. Qed.
