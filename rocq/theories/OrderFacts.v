(** Proofs about comparisons (C75). *)
From Coq Require Import String ZArith NArith List Bool Lia.
From Coq Require Import Init.Byte.
From Verif Require Import Prelude Fields Curve Oracles RedPallas Keys KeysSpec Zip32 Order OrderSpec PreludeFacts FieldFacts CurveFacts KeysFacts CodecFacts.
Import ListNotations.
Open Scope Z_scope.

#[local] Opaque to_repr pt_encode le_bytes le_val.

Lemma to_N_inj : forall x y, Byte.to_N x = Byte.to_N y -> x = y.
Proof. intros x y H. pose proof (Byte.of_to_N x) as A. rewrite H, Byte.of_to_N in A. congruence. Qed.

Lemma bytes_cmp_eq : forall a b, bytes_cmp a b = Eq <-> a = b.
Proof.
  induction a as [|x a IH]; intros [|y b]; cbn [bytes_cmp]; try (split; [discriminate|discriminate]); [split; reflexivity|].
  destruct (N.compare_spec (Byte.to_N x) (Byte.to_N y)) as [E|E|E].
  - apply to_N_inj in E. subst y. rewrite IH. split; [intros ->; reflexivity|intro H; injection H as ->; reflexivity].
  - split; [discriminate|]. intro H. injection H as -> _. lia.
  - split; [discriminate|]. intro H. injection H as -> _. lia.
Qed.
Lemma bytes_cmp_sym : forall a b, bytes_cmp b a = CompOpp (bytes_cmp a b).
Proof.
  induction a as [|x a IH]; intros [|y b]; cbn [bytes_cmp]; try reflexivity.
  rewrite (N.compare_antisym (Byte.to_N x)). destruct (N.compare (Byte.to_N x) (Byte.to_N y)); cbn [CompOpp]; [apply IH|reflexivity|reflexivity].
Qed.
Lemma bytes_cmp_trans : forall a b c, bytes_cmp a b = Lt -> bytes_cmp b c = Lt -> bytes_cmp a c = Lt.
Proof.
  induction a as [|x a IH]; intros [|y b] [|z c]; cbn [bytes_cmp]; try discriminate; try reflexivity.
  destruct (N.compare_spec (Byte.to_N x) (Byte.to_N y)) as [E|E|E]; destruct (N.compare_spec (Byte.to_N y) (Byte.to_N z)) as [F|F|F]; try discriminate;
    intros H1 H2.
  - rewrite E, F, N.compare_refl. apply (IH b); assumption.
  - rewrite (proj2 (N.compare_lt_iff _ _)) by lia. reflexivity.
  - rewrite (proj2 (N.compare_lt_iff _ _)) by lia. reflexivity.
  - rewrite (proj2 (N.compare_lt_iff _ _)) by lia. reflexivity.
Qed.

(** The order of field elements is that of the integers. *)
Lemma bytes_cmp_app : forall a b x y, length a = length b ->
  bytes_cmp (a ++ [x]) (b ++ [y]) = match bytes_cmp a b with Eq => N.compare (Byte.to_N x) (Byte.to_N y) | c => c end.
Proof.
  induction a as [|u a IH]; intros [|v b] x y LE; try discriminate LE; cbn [app bytes_cmp].
  - destruct (N.compare (Byte.to_N x) (Byte.to_N y)); reflexivity.
  - destruct (N.compare (Byte.to_N u) (Byte.to_N v)); [|reflexivity|reflexivity]. apply IH. cbn [length] in LE. congruence.
Qed.
#[local] Transparent le_val.
Lemma le_val_cons : forall x l, le_val (x :: l) = Z_of_byte x + 256 * le_val l.
Proof. reflexivity. Qed.
#[local] Opaque le_val.
Lemma Z_of_byte_N : forall x, Z_of_byte x = Z.of_N (Byte.to_N x).
Proof. reflexivity. Qed.
Lemma byte_lt : forall x, (Byte.to_N x < 256)%N.
Proof. intro x. pose proof (Byte.to_N_bounded x). lia. Qed.
Lemma rev_cmp : forall a b, length a = length b -> bytes_cmp (rev a) (rev b) = Z.compare (le_val a) (le_val b).
Proof.
  induction a as [|x a IH]; intros [|y b] LE; try discriminate LE; [reflexivity|]. cbn [length] in LE. injection LE as LE.
  cbn [rev]. rewrite bytes_cmp_app by (rewrite !rev_length; exact LE). rewrite (IH b LE), !le_val_cons, !Z_of_byte_N.
  pose proof (byte_lt x). pose proof (byte_lt y). destruct (Z.compare_spec (le_val a) (le_val b)) as [E|E|E].
  - rewrite E. destruct (N.compare_spec (Byte.to_N x) (Byte.to_N y)); symmetry; [apply Z.compare_eq_iff|apply Z.compare_lt_iff|apply Z.compare_gt_iff]; lia.
  - symmetry. apply Z.compare_lt_iff. lia.
  - symmetry. apply Z.compare_gt_iff. lia.
Qed.
Lemma repr_val : forall a, 0 <= a < 2 ^ 255 -> le_val (to_repr a) = a.
Proof. intros a H. change (to_repr a) with (le_bytes 32 a). apply le_val_le_bytes. rewrite pow256_32. lia. Qed.
Lemma field_cmp_int : forall a b, 0 <= a < 2 ^ 255 -> 0 <= b < 2 ^ 255 -> field_cmp a b = Z.compare a b.
Proof.
  intros a b Ha Hb. unfold field_cmp. rewrite rev_cmp by (rewrite !to_repr_length; reflexivity). rewrite !repr_val by assumption. reflexivity.
Qed.
Lemma field_eqb_eq : forall a b, 0 <= a < 2 ^ 255 -> 0 <= b < 2 ^ 255 -> (field_eqb a b = true <-> a = b).
Proof.
  intros a b Ha Hb. unfold field_eqb. rewrite bytes_eqb_eq. split; [|congruence]. intro H.
  rewrite <- (repr_val a Ha), H. apply repr_val. exact Hb.
Qed.
Lemma field_cmp_eq : forall a b, 0 <= a < 2 ^ 255 -> 0 <= b < 2 ^ 255 -> (field_cmp a b = Eq <-> a = b).
Proof. intros a b Ha Hb. rewrite field_cmp_int by assumption. apply Z.compare_eq_iff. Qed.
Lemma field_cmp_sym : forall a b, field_cmp b a = CompOpp (field_cmp a b).
Proof. intros. apply bytes_cmp_sym. Qed.
Lemma field_cmp_trans : forall a b c, field_cmp a b = Lt -> field_cmp b c = Lt -> field_cmp a c = Lt.
Proof. intros a b c. apply bytes_cmp_trans. Qed.

(** Lexicographic order. *)
Lemma then_eq : forall c d, cmp_then c d = Eq <-> c = Eq /\ d = Eq.
Proof. intros [] []; cbn [cmp_then]; split; try discriminate; try (intros [? ?]; discriminate); auto. Qed.
Lemma then_opp : forall c d, cmp_then (CompOpp c) (CompOpp d) = CompOpp (cmp_then c d).
Proof. intros [] []; reflexivity. Qed.
Lemma then_trans : forall a b c a' b' c',
  (a = Eq -> b = Eq -> c = Eq) -> (a = Eq -> b = Lt -> c = Lt) -> (a = Lt -> b = Eq -> c = Lt) -> (a = Lt -> b = Lt -> c = Lt) ->
  (a' = Lt -> b' = Lt -> c' = Lt) -> cmp_then a a' = Lt -> cmp_then b b' = Lt -> cmp_then c c' = Lt.
Proof.
  intros a b c a' b' c' H1 H2 H3 H4 H5 A B. destruct a; cbn [cmp_then] in A; try discriminate A; destruct b; cbn [cmp_then] in B; try discriminate B.
  - rewrite (H1 eq_refl eq_refl). apply H5; assumption.
  - rewrite (H2 eq_refl eq_refl). reflexivity.
  - rewrite (H3 eq_refl eq_refl). reflexivity.
  - rewrite (H4 eq_refl eq_refl). reflexivity.
Qed.
Lemma bytes_then_trans : forall a b c a' b' c', (a' = Lt -> b' = Lt -> c' = Lt) ->
  forall x y z, a = bytes_cmp x y -> b = bytes_cmp y z -> c = bytes_cmp x z -> cmp_then a a' = Lt -> cmp_then b b' = Lt -> cmp_then c c' = Lt.
Proof.
  intros a b c a' b' c' H x y z -> -> ->. apply then_trans; [| | |intros A B; apply (bytes_cmp_trans _ y); assumption|exact H].
  - intros A B. apply bytes_cmp_eq in A. apply bytes_cmp_eq in B. subst. apply bytes_cmp_eq. reflexivity.
  - intros A B. apply bytes_cmp_eq in A. subst. exact B.
  - intros A B. apply bytes_cmp_eq in B. subst. exact A.
Qed.

Lemma base_255 : forall a, is_base a -> 0 <= a < 2 ^ 255.
Proof. intros a [A B]. pose proof pmod_lt_pow255. lia. Qed.
Lemma scalar_255 : forall a, is_scalar a -> 0 <= a < 2 ^ 255.
Proof. intros a [A B]. pose proof qmod_lt_pow255. lia. Qed.

Theorem field_order : total_order is_base field_eqb field_cmp /\ total_order is_scalar field_eqb field_cmp /\
  (forall a b, is_base a -> is_base b -> field_cmp a b = Z.compare a b).
Proof.
  split; [|split].
  - constructor; [intros a b A B; apply field_eqb_eq; apply base_255; assumption|intros a b A B; apply field_cmp_eq; apply base_255; assumption|
      exact field_cmp_sym|exact field_cmp_trans].
  - constructor; [intros a b A B; apply field_eqb_eq; apply scalar_255; assumption|intros a b A B; apply field_cmp_eq; apply scalar_255; assumption|
      exact field_cmp_sym|exact field_cmp_trans].
  - intros a b A B. apply field_cmp_int; apply base_255; assumption.
Qed.

Section Keys.
  Context {C : Curve} {OR : @Oracles C} (L : CurveLaws C).

  Lemma vk_order : total_order (fun _ : point => True) vk_eqb vk_cmp.
  Proof.
    constructor; unfold vk_eqb, vk_cmp, vk_to_bytes.
    - intros a b _ _. rewrite bytes_eqb_eq. split; [apply (encode_inj L)|congruence].
    - intros a b _ _. rewrite bytes_cmp_eq. split; [apply (encode_inj L)|congruence].
    - intros a b. apply bytes_cmp_sym.
    - intros a b c. apply bytes_cmp_trans.
  Qed.

  Theorem fvk_order : total_order fvk_ok fvk_eqb fvk_cmp.
  Proof.
    constructor.
    - intros a b A B. unfold fvk_eqb. rewrite !andb_true_iff. unfold ak_eqb. rewrite (to_eqb _ _ _ vk_order _ _ I I).
      rewrite (field_eqb_eq _ _ (base_255 _ (fo_nk _ A)) (base_255 _ (fo_nk _ B))), (field_eqb_eq _ _ (scalar_255 _ (fo_rivk _ A)) (scalar_255 _ (fo_rivk _ B))).
      destruct a as [ak nk rivk], b as [ak' nk' rivk']. cbn [fvk_ak fvk_nk fvk_rivk]. split; [intros [[-> ->] ->]; reflexivity|intro H; injection H as -> -> ->; auto].
    - intros a b A B. unfold fvk_cmp. rewrite !then_eq. rewrite (to_eq _ _ _ vk_order _ _ I I).
      rewrite (field_cmp_eq _ _ (base_255 _ (fo_nk _ A)) (base_255 _ (fo_nk _ B))), (field_cmp_eq _ _ (scalar_255 _ (fo_rivk _ A)) (scalar_255 _ (fo_rivk _ B))).
      destruct a as [ak nk rivk], b as [ak' nk' rivk']. cbn [fvk_ak fvk_nk fvk_rivk]. split; [intros (-> & -> & ->); reflexivity|intro H; injection H as -> -> ->; auto].
    - intros a b. unfold fvk_cmp. rewrite (to_sym _ _ _ vk_order (fvk_ak a) (fvk_ak b)), (field_cmp_sym (fvk_nk a) (fvk_nk b)), (field_cmp_sym (fvk_rivk a) (fvk_rivk b)), !then_opp. reflexivity.
    - intros a b c. unfold fvk_cmp, vk_cmp. intros A B.
      refine (bytes_then_trans _ _ _ _ _ _ _ _ _ _ eq_refl eq_refl eq_refl A B). clear A B. intros A B.
      refine (bytes_then_trans _ _ _ _ _ _ (field_cmp_trans _ _ _) _ _ _ eq_refl eq_refl eq_refl A B).
  Qed.
  Theorem ivk_order : total_order ivk_ok ivk_eqb ivk_cmp.
  Proof.
    assert (K : forall k, ivk_ok k -> 0 <= ivk_ivk k < 2 ^ 255) by (intros k [_ K]; pose proof pmod_lt_pow255; lia).
    constructor.
    - intros a b A B. unfold ivk_eqb. rewrite andb_true_iff, bytes_eqb_eq, (field_eqb_eq _ _ (K _ A) (K _ B)).
      destruct a as [dk k], b as [dk' k']. cbn [ivk_dk ivk_ivk]. split; [intros [-> ->]; reflexivity|intro H; injection H as -> ->; auto].
    - intros a b A B. unfold ivk_cmp. rewrite then_eq, bytes_cmp_eq, (field_cmp_eq _ _ (K _ A) (K _ B)).
      destruct a as [dk k], b as [dk' k']. cbn [ivk_dk ivk_ivk]. split; [intros [-> ->]; reflexivity|intro H; injection H as -> ->; auto].
    - intros a b. unfold ivk_cmp. rewrite (bytes_cmp_sym (ivk_dk a) (ivk_dk b)), (field_cmp_sym (ivk_ivk a) (ivk_ivk b)), then_opp. reflexivity.
    - intros a b c. unfold ivk_cmp. intros A B.
      refine (bytes_then_trans _ _ _ _ _ _ (field_cmp_trans _ _ _) _ _ _ eq_refl eq_refl eq_refl A B).
  Qed.
  Theorem address_equality : forall a b : address, address_eqb a b = true <-> a = b.
  Proof.
    intros [d p] [d' p']. unfold address_eqb. cbn [ad_d ad_pk_d]. rewrite andb_true_iff, bytes_eqb_eq, (eqb_true L).
    split; [intros [-> ->]; reflexivity|intro H; injection H as -> ->; auto].
  Qed.
End Keys.

Theorem xsk_equality : forall a b : xsk, xsk_eqb a b = true <-> a = b.
Proof.
  assert (K : forall i j, key_index_eqb i j = true <-> i = j).
  { intros [i|] [j|]; cbn [key_index_eqb]; try (split; discriminate); [|split; reflexivity].
    rewrite Z.eqb_eq. split; [intros ->; reflexivity|intro H; injection H as ->; reflexivity]. }
  intros [d t i c s] [d' t' i' c' s']. unfold xsk_eqb. cbn [x_depth x_parent_tag x_child_index x_chain_code x_sk].
  rewrite !andb_true_iff, !bytes_eqb_eq, Z.eqb_eq, K.
  split; [intros [[[[-> ->] ->] ->] ->]; reflexivity|intro H; injection H as -> -> -> -> ->; auto].
Qed.
