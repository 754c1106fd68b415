(** The extractors of C62-C71 exist on Pallas, and C80 for the real instance. *)
From Coq Require Import String ZArith List Bool Lia ConstructiveEpsilon.
From Coq Require Import Init.Byte.
From Verif Require Import Prelude Fields Curve Oracles Spec RedPallas Sinsemilla Value Keys KeysSpec Note NoteSpec Tree TreeSpec Action NoteEnc NoteEncSpec
  Bundle Batch BundleSpec Builder BuilderSpec Signing SigningSpec Halo2 Circuit CircuitSpec PipelineSpec LedgerSpec WalletSpec LifeSpec
  PreludeFacts NumTheory FieldFacts CurveFacts LifeFacts PallasCurve PallasLaws PallasUse RealOracles RealFacts HidingSpec HidingFacts.
Import ListNotations.
Open Scope Z_scope.

#[local] Opaque pallas_generator pallas pmod qmod.

Lemma pallas_log_exists : forall G P : @point pallas, G <> pt_id -> exists n : nat, P = pt_mul (Z.of_nat n) G.
Proof.
  intros G P NG. destruct (unique_log G P NG) as (k & [RK EK] & _). exists (Z.to_nat k).
  rewrite Z2Nat.id by apply RK. symmetry. exact EK.
Qed.

Lemma pallas_log : forall G P : @point pallas, G <> pt_id -> {n : nat | P = pt_mul (Z.of_nat n) G}.
Proof.
  intros G P NG. apply constructive_indefinite_ground_description_nat; [|apply pallas_log_exists; exact NG].
  intro n. destruct (pt_eqb P (pt_mul (Z.of_nat n) G)) eqn:E.
  - left. apply (pt_eqb_spec _ pallas_laws). exact E.
  - right. intro X. apply (pt_eqb_spec _ pallas_laws) in X. congruence.
Qed.

Section Use.
  Variables (R : Type) (rng_b : R -> nat -> bytes * R) (rng_i : R -> nat -> nat * R) (rng_p : R -> pallas_point * R).
  Let OR : @Oracles pallas := real_oracles R rng_b rng_i rng_p.

  Lemma extractor_exists : forall t, @basepoint pallas OR t <> pt_id -> exists extract, @finds_keys pallas OR t extract.
  Proof.
    intros t NB. exists (fun vk _ _ => Z.of_nat (proj1_sig (pallas_log (@basepoint pallas OR t) vk NB))).
    intros vk m s _. exact (proj2_sig (pallas_log (@basepoint pallas OR t) vk NB)).
  Qed.
  Lemma real_extractors : exists sx bx, @finds_keys pallas OR SpendAuth sx /\ @finds_keys pallas OR Binding bx.
  Proof.
    destruct (real_bases R rng_b rng_i rng_p) as (_ & B1 & B2 & _).
    destruct (extractor_exists SpendAuth B1) as [sx S]. destruct (extractor_exists Binding B2) as [bx B].
    exists sx, bx. split; assumption.
  Qed.

  Lemma real_accepted : forall (V : Type)
    (halo2_prove : list (@witness pallas) -> list (list Z) -> R -> option bytes * R) (halo2_verify : bytes -> list (list Z) -> bool)
    (try_from : Z -> option V) (into : V -> Z)
    (h : list (@tx pallas V)) (lg : ledger) (anchor : Z) (b : @builder pallas) (t : @tx pallas V) (meta : bundle_metadata) (ws : list (@witness pallas)),
    (forall i v, try_from i = Some v -> into v = i) -> @proofs_verify pallas OR halo2_prove halo2_verify ->
    @reached pallas OR V halo2_verify into h lg -> @known_anchor pallas OR lg anchor -> @made pallas OR V halo2_prove try_from anchor b t meta ws ->
    @unspent pallas OR lg b -> different_notes b -> Z.of_nat (length (lg_cmxs lg) + length (b_actions (fst t))) <= 2 ^ 32 ->
    @accepts pallas OR V halo2_verify into lg t \/ @undefined_merkle_hash pallas OR ws \/ padding_repeats lg t meta \/ @requests_collide pallas OR b.
  Proof.
    intros V pr ve tf into h lg anchor b t meta ws H1 H2 H3 H4 H5 H6 H7 H8.
    destruct (real_not_id R rng_b rng_i rng_p) as (G1 & G2 & _).
    exact (@made_accepted pallas OR V pallas_laws pr ve tf into h lg anchor b t meta ws H1 H2 G1 G2 H3 H4 H5 H6 H7 H8).
  Qed.

  Lemma real_received : forall (V : Type)
    (halo2_prove : list (@witness pallas) -> list (list Z) -> R -> option bytes * R) (halo2_verify : bytes -> list (list Z) -> bool)
    (try_from : Z -> option V) (into : V -> Z)
    (h : list (@tx pallas V)) (lg : ledger) (anchor : Z) (b : @builder pallas) (t : @tx pallas V) (meta : bundle_metadata) (ws : list (@witness pallas))
    (i : nat) (o : @output_info pallas) (f : @fvk pallas) (s : scope) (key : ivk),
    @made pallas OR V halo2_prove try_from anchor b t meta ws -> nth_error (bl_outputs b) i = Some o ->
    @fvk_ok pallas OR f -> @fvk_to_ivk pallas OR f s = Ret key -> @owned_by pallas OR key (o_recipient o) ->
    @reached pallas OR V halo2_verify into h lg ->
    exists k n, output_action_index meta i = Some k /\ n_recipient n = o_recipient o /\ n_value n = o_value o /\
      forall h' lg', @reached pallas OR V halo2_verify into (h ++ t :: h') lg' ->
        let pos := (length (lg_cmxs lg) + k)%nat in
        (exists a, nth_error (chain_actions (h ++ t :: h')) pos = Some a /\
           @try_note_decryption pallas OR _ key a = Ret (Some (n, o_recipient o, o_memo o))) /\
        forall b', spends_enabled (bt_flags (bl_type b')) = true -> bl_anchor b' = @tree_root pallas OR (leaves_of (lg_cmxs lg')) 32 ->
          exists path s', mp_from_position (Z.of_nat pos) (@auth_path pallas OR (leaves_of (lg_cmxs lg')) (Z.of_nat pos) 32) = Ret path /\
            @add_spend pallas OR b' f n path = Ret (Ok tt, with_spend b' (mk_spend None f s' n path)).
  Proof.
    intros V pr ve tf into h lg anchor b t meta ws i o f s key H1 H2 H3 H4 H5 H6.
    destruct (real_not_id R rng_b rng_i rng_p) as (G1 & _).
    exact (@payment_received pallas OR V pallas_laws pr ve tf into h lg anchor b t meta ws i o f s key G1 H1 H2 H3 H4 H5 H6).
  Qed.
  Lemma real_ledger_sound : forall (V : Type) (halo2_verify : bytes -> list (list Z) -> bool) (into : V -> Z)
    (extract : bytes -> list (list Z) -> list (@action_cells pallas)) (bx : pallas_point -> bytes -> signature -> Z),
    @finds_cells pallas OR halo2_verify extract -> @finds_keys pallas OR Binding bx ->
    forall (h : list (@tx pallas V)) (lg : ledger), @reached pallas OR V halo2_verify into h lg ->
    @sound_ledger pallas OR V extract h lg \/ @break pallas OR V into extract bx h.
  Proof.
    intros V ver into ext bx XC XB h lg RE. destruct real_extractors as (sx & _ & XS & _).
    exact (real_ledger R rng_b rng_i rng_p V ver into ext sx bx XC XS XB h lg RE).
  Qed.
End Use.
