(** The external functions of [RealOracles] on the published vectors. *)
From Coq Require Import String ZArith List Bool Lia.
From Coq Require Import Init.Byte.
From Verif Require Import Prelude Fields Curve Oracles PallasCurve Keys Note NoteEnc RealOracles Poseidon PreludeFacts Vectors.
Import ListNotations.
Open Scope Z_scope.

(** * Poseidon: four full, 56 partial and four full rounds *)
#[local] Opaque poseidon_mix pow5 fadd.
Lemma full_rounds : forall l i s, (Nat.leb (i + length l) 4 || Nat.leb 60 i = true)%bool ->
  fold_left poseidon_round l (i, s) = ((i + length l)%nat, fold_left full_round l s).
Proof.
  induction l as [|[[c0 c1] c2] l IH]; intros i [[x y] z] H; [cbn [fold_left length]; rewrite Nat.add_0_r; reflexivity|].
  cbn [length] in *. rewrite Nat.add_succ_r in *. cbn [fold_left]. unfold poseidon_round at 2, full_round at 2.
  assert (F : (Nat.ltb i 4 || Nat.leb 60 i)%bool = true).
  { apply orb_true_iff in H. apply orb_true_iff. destruct H as [H|H]; [left|right; exact H]. apply Nat.leb_le in H. apply Nat.ltb_lt. lia. }
  rewrite F. rewrite IH; [reflexivity|]. apply orb_true_iff in H. apply orb_true_iff. destruct H as [H|H]; [left|right].
  - apply Nat.leb_le in H. apply Nat.leb_le. lia.
  - apply Nat.leb_le in H. apply Nat.leb_le. lia.
Qed.
Lemma partial_rounds : forall l i s, (4 <= i)%nat -> (i + length l <= 60)%nat ->
  fold_left poseidon_round l (i, s) = ((i + length l)%nat, fold_left partial_round l s).
Proof.
  induction l as [|[[c0 c1] c2] l IH]; intros i [[x y] z] H1 H2; [cbn [fold_left length]; rewrite Nat.add_0_r; reflexivity|].
  cbn [length] in *. rewrite Nat.add_succ_r in *. cbn [fold_left]. unfold poseidon_round at 2, partial_round at 2.
  assert (F : (Nat.ltb i 4 || Nat.leb 60 i)%bool = false).
  { apply orb_false_iff. split; [apply Nat.ltb_ge; exact H1|apply Nat.leb_gt; lia]. }
  rewrite F. apply IH; lia.
Qed.
Lemma rc_length : length poseidon_rc = 64%nat. Proof. reflexivity. Qed.
Lemma poseidon_schedule : forall (rc : list (Z * Z * Z)) s, length rc = 64%nat ->
  fold_left poseidon_round rc (0%nat, s) =
  (64%nat, fold_left full_round (skipn 60 rc) (fold_left partial_round (firstn 56 (skipn 4 rc)) (fold_left full_round (firstn 4 rc) s))).
Proof.
  intros rc s H. rewrite <- (firstn_skipn 4 rc) at 1. rewrite <- (firstn_skipn 56 (skipn 4 rc)) at 1. rewrite skipn_skipn. change (56 + 4)%nat with 60%nat.
  rewrite !fold_left_app. rewrite full_rounds, partial_rounds, full_rounds.
  - f_equal. rewrite !firstn_length, !skipn_length, H. reflexivity.
  - rewrite !firstn_length, !skipn_length, H. reflexivity.
  - rewrite firstn_length, H. cbn. lia.
  - rewrite !firstn_length, !skipn_length, H. cbn. lia.
  - rewrite firstn_length, H. reflexivity.
Qed.
Lemma poseidon_is_spec : forall a b, poseidon_real a b = poseidon_spec a b.
Proof.
  intros a b. unfold poseidon_real, poseidon_spec. rewrite (poseidon_schedule poseidon_rc _ rc_length).
  destruct (fold_left full_round _ _) as [[x y] z]. reflexivity.
Qed.

(** * The vectors *)
Section Vectors.
  Context (R : Type) (rng_b : R -> nat -> bytes * R) (rng_i : R -> nat -> nat * R) (rng_p : R -> pallas_point * R).
  Notation OR := (real_oracles R rng_b rng_i rng_p).

  Lemma prf_vectors :
    (@nk_from_sk pallas OR tv_sk =? le_val tv_nk) && (@rivk_from_sk pallas OR tv_sk =? le_val tv_rivk) = true.
  Proof. vm_compute. reflexivity. Qed.
  Lemma ff1_vector : bytes_eqb (@dk_get pallas OR tv_dk (div_index_of_u32 0)) tv_default_d = true.
  Proof. vm_compute. reflexivity. Qed.
  Lemma aead_vector : bytes_eqb (@aead_encrypt pallas OR ne_ock ne_op) ne_c_out = true.
  Proof. vm_compute. reflexivity. Qed.

  #[local] Opaque nk_from_sk rivk_from_sk dk_get aead_encrypt tv_sk tv_nk tv_rivk tv_dk tv_default_d ne_ock ne_op ne_c_out.
  Lemma published_vectors :
    @nk_from_sk pallas OR tv_sk = le_val tv_nk /\ @rivk_from_sk pallas OR tv_sk = le_val tv_rivk /\
    @dk_get pallas OR tv_dk (div_index_of_u32 0) = tv_default_d /\ @aead_encrypt pallas OR ne_ock ne_op = ne_c_out.
  Proof.
    pose proof prf_vectors as H. apply andb_true_iff in H as [H1 H2].
    split; [exact (proj1 (Z.eqb_eq _ _) H1)|]. split; [exact (proj1 (Z.eqb_eq _ _) H2)|].
    split; [exact (proj1 (bytes_eqb_eq _ _) ff1_vector)|]. exact (proj1 (bytes_eqb_eq _ _) aead_vector).
  Qed.
End Vectors.
