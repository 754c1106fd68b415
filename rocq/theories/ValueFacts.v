(** Proofs about src/value.rs. *)
From Coq Require Import String ZArith List Bool Lia Permutation.
From Coq Require Import Init.Byte.
From Verif Require Import Prelude Fields Curve Oracles RedPallas Value PreludeFacts NumTheory CurveFacts Spec.
Import ListNotations.
Open Scope Z_scope.

Lemma in_range_true : forall v, in_value_sum_range v = true <-> value_sum_ok v.
Proof.
  intro v. unfold in_value_sum_range, value_sum_ok, max_note_value.
  rewrite andb_true_iff, !Z.leb_le. reflexivity.
Qed.
Lemma in_range_false : forall v, in_value_sum_range v = false <-> ~ value_sum_ok v.
Proof. intro v. rewrite <- in_range_true. destruct (in_value_sum_range v); split; congruence. Qed.

Lemma i128_small : forall v, - 2 ^ 127 <= v < 2 ^ 127 -> i128_checked v = Some v.
Proof.
  intros v H. unfold i128_checked.
  rewrite (proj2 (Z.leb_le _ _)), (proj2 (Z.ltb_lt _ _)) by lia. reflexivity.
Qed.

Lemma note_value_sub_exact : forall a b, is_u64 a -> is_u64 b ->
  note_value_sub a b = Ret (a - b) /\ value_sum_ok (a - b).
Proof.
  unfold is_u64, value_sum_ok. intros a b Ha Hb. unfold note_value_sub.
  assert (R : value_sum_ok (a - b)) by (unfold value_sum_ok; lia).
  rewrite i128_small by lia. cbn [opt_filter]. rewrite (proj2 (in_range_true _) R). split; [reflexivity|exact R].
Qed.

Lemma value_sum_add_spec : forall a b, value_sum_ok a -> value_sum_ok b ->
  (value_sum_ok (a + b) -> value_sum_add a b = Some (a + b)) /\
  (~ value_sum_ok (a + b) -> value_sum_add a b = None).
Proof.
  unfold value_sum_add. intros a b Ha Hb.
  rewrite i128_small by (unfold value_sum_ok in *; lia). cbn [opt_filter]. split; intro H.
  - rewrite (proj2 (in_range_true _) H). reflexivity.
  - rewrite (proj2 (in_range_false _) H). reflexivity.
Qed.

Definition vfold_step (acc : result overflow_error Z) (v : Z) : result overflow_error Z :=
  match acc with
  | Ok a => match value_sum_add a v with Some s => Ok s | None => Err OverflowError end
  | Err e => Err e
  end.

Lemma vfold_err : forall l e, fold_left vfold_step l (Err e) = Err e.
Proof. induction l as [|x l IH]; intro e; [reflexivity|apply IH]. Qed.

Lemma zsum_app : forall a b, zsum (a ++ b) = zsum a + zsum b.
Proof. induction a as [|x a IH]; intro b; cbn [app zsum]; [lia|]. rewrite IH. lia. Qed.

Lemma vfold_from : forall l a, value_sum_ok a -> Forall value_sum_ok l ->
  (forall s, fold_left vfold_step l (Ok a) = Ok s <->
     s = a + zsum l /\ forall n, (n <= length l)%nat -> value_sum_ok (a + zsum (firstn n l))) /\
  (forall e, fold_left vfold_step l (Ok a) = Err e <->
     exists n, (n <= length l)%nat /\ ~ value_sum_ok (a + zsum (firstn n l))).
Proof.
  induction l as [|x l IH]; intros a Ha Hl.
  - cbn [fold_left length zsum]. split.
    + intro s. split.
      * intro H. injection H as <-. split; [lia|]. intros n Hn.
        replace n with O by lia. cbn. rewrite Z.add_0_r. exact Ha.
      * intros [-> _]. f_equal. lia.
    + intro e. split; [intro H; discriminate H|]. intros [n [Hn HN]]. exfalso. apply HN.
      replace n with O by lia. cbn. rewrite Z.add_0_r. exact Ha.
  - pose proof (Forall_inv Hl) as Hx. pose proof (Forall_inv_tail Hl) as Hl'.
    destruct (value_sum_add_spec a x Ha Hx) as [HS HN].
    cbn [fold_left]. change (vfold_step (Ok a) x)
      with (match value_sum_add a x with Some s => Ok s | None => @Err overflow_error Z OverflowError end).
    assert (D : value_sum_ok (a + x) \/ ~ value_sum_ok (a + x)) by (unfold value_sum_ok; lia).
    destruct D as [D|D].
    + rewrite (HS D). destruct (IH (a + x) D Hl') as [I1 I2]. split.
      * intro s. rewrite I1. cbn [zsum length]. split.
        -- intros [-> H]. split; [lia|]. intros [|n] Hn.
           ++ cbn. rewrite Z.add_0_r. exact Ha.
           ++ cbn [firstn zsum]. rewrite Z.add_assoc. apply H. lia.
        -- intros [-> H]. split; [lia|]. intros n Hn.
           specialize (H (S n)). cbn [firstn zsum] in H. rewrite Z.add_assoc in H. apply H. lia.
      * intro e. rewrite I2. cbn [length]. split.
        -- intros [n [Hn H]]. exists (S n). cbn [firstn zsum]. rewrite Z.add_assoc. split; [lia|exact H].
        -- intros [[|n] [Hn H]].
           ++ cbn in H. rewrite Z.add_0_r in H. contradiction.
           ++ exists n. cbn [firstn zsum] in H. rewrite Z.add_assoc in H. split; [lia|exact H].
    + rewrite (HN D), vfold_err. split.
      * intro s. split; [intro H; discriminate H|]. intros [_ H]. exfalso. apply D.
        specialize (H 1%nat). cbn in H. rewrite Z.add_0_r in H. apply H. lia.
      * intros []. split; [|reflexivity]. intros _. exists 1%nat. cbn. rewrite Z.add_0_r. split; [lia|exact D].
Qed.

Lemma value_sum_fold_spec : forall l, Forall value_sum_ok l ->
  (forall s, value_sum_fold l = Ok s <->
     s = zsum l /\ forall n, (n <= length l)%nat -> value_sum_ok (zsum (firstn n l))) /\
  (value_sum_fold l = Err OverflowError <->
     exists n, (n <= length l)%nat /\ ~ value_sum_ok (zsum (firstn n l))).
Proof.
  intros l Hl. destruct (vfold_from l 0) as [A B]; [unfold value_sum_ok; lia|exact Hl|].
  split; [exact A|exact (B OverflowError)].
Qed.

Lemma i64_try_from_spec : forall v,
  (i64_ok v -> i64_try_from v = Ok v) /\ (~ i64_ok v -> i64_try_from v = Err OverflowError).
Proof.
  intro v. unfold i64_try_from, i64_ok.
  destruct (Z.leb_spec (- 2 ^ 63) v), (Z.ltb_spec v (2 ^ 63)); cbn [andb]; split; intro; try reflexivity; lia.
Qed.

Lemma magnitude_sign_spec : forall v, value_sum_ok v ->
  exists m s, magnitude_sign v = Ret (m, s) /\ is_u64 m /\ m * vsign_val s = v /\
              (m = 0 -> s = Positive).
Proof.
  unfold value_sum_ok. intros v H. unfold magnitude_sign, is_u64.
  destruct (Z.ltb_spec v 0) as [N|N].
  - rewrite (proj2 (Z.leb_le 0 (- v))), (proj2 (Z.ltb_lt (- v) (2 ^ 64))) by lia. cbn.
    exists (- v), Negative. cbn [vsign_val]. split; [reflexivity|]. split; [lia|]. split; [lia|]. intro; lia.
  - rewrite (proj2 (Z.leb_le 0 v)), (proj2 (Z.ltb_lt v (2 ^ 64))) by lia. cbn.
    exists v, Positive. cbn [vsign_val]. split; [reflexivity|]. split; [lia|]. split; [lia|reflexivity].
Qed.

Lemma note_value_codec : forall v, is_u64 v ->
  length (note_value_to_bytes v) = 8%nat /\ note_value_from_bytes (note_value_to_bytes v) = v.
Proof.
  intros v H. split; [apply le_bytes_length|]. apply le_val_le_bytes. exact H.
Qed.
Lemma note_value_codec_rev : forall b, length b = 8%nat ->
  is_u64 (note_value_from_bytes b) /\ note_value_to_bytes (note_value_from_bytes b) = b.
Proof.
  intros b H. unfold note_value_from_bytes, note_value_to_bytes, is_u64. split.
  - pose proof (le_val_range b) as R. rewrite H in R. exact R.
  - apply le_bytes_le_val. exact H.
Qed.

Section Commit.
  Context {C : Curve} {OR : @Oracles C}.
  Variable L : CurveLaws C.

  Definition cv_of (v r : Z) : point := pt_add (pt_mul v value_base_V) (pt_mul r value_base_R).

  Lemma derive_cv_ret : forall v r, value_sum_ok v -> derive_cv v r = Ret (cv_of v r).
  Proof.
    unfold value_sum_ok. intros v r H. unfold derive_cv, cv_of.
    rewrite (proj2 (Z.ltb_lt (Z.abs v) (2 ^ 64))) by lia. cbn [unwrap obind].
    destruct (Z.ltb_spec v 0) as [N|N].
    - rewrite (mul_mod L). replace (- Z.abs v) with v by lia. reflexivity.
    - replace (Z.abs v) with v by lia. reflexivity.
  Qed.

  Lemma derive_cv_panic : forall v r, 2 ^ 64 <= Z.abs v -> exists w, derive_cv v r = Panic w.
  Proof.
    intros v r H. unfold derive_cv. rewrite (proj2 (Z.ltb_ge (Z.abs v) (2 ^ 64))) by lia.
    eexists. reflexivity.
  Qed.

  Lemma cv_of_add : forall v r v' r',
    pt_add (cv_of v r) (cv_of v' r') = cv_of (v + v') (r + r').
  Proof. intros. unfold cv_of. rewrite (mul_add L), (mul_add L). apply (add_4 L). Qed.

  Lemma cv_of_mod : forall v r, cv_of v (r mod qmod) = cv_of v r.
  Proof. intros. unfold cv_of. rewrite (mul_mod L). reflexivity. Qed.

  Lemma cv_sum_of : forall l : list (Z * Z),
    cv_sum (map (fun vr => cv_of (fst vr) (snd vr)) l) =
    cv_of (zsum (map fst l)) (zsum (map snd l)).
  Proof.
    induction l as [|[v r] l IH].
    - cbn. unfold cv_of. rewrite !(mul_0). symmetry. apply (add_id_l L).
    - cbn [map fst snd zsum]. unfold cv_sum in *. cbn [fold_left].
      rewrite (fold_add_start L), IH, (add_id_l L). apply cv_of_add.
  Qed.

  Lemma trapdoor_sum_from : forall l a,
    fold_left trapdoor_add l (a mod qmod) = (a + zsum l) mod qmod.
  Proof.
    pose proof qmod_pos as Q.
    induction l as [|x l IH]; intro a; cbn [fold_left zsum].
    - rewrite Z.add_0_r. reflexivity.
    - unfold trapdoor_add at 2. rewrite Zplus_mod_idemp_l, IH. f_equal. lia.
  Qed.
  Lemma trapdoor_sum_spec : forall l, trapdoor_sum l = zsum l mod qmod.
  Proof.
    intro l. unfold trapdoor_sum. rewrite <- (Z.mod_0_l qmod) at 1 by (pose proof qmod_pos; lia).
    rewrite trapdoor_sum_from. reflexivity.
  Qed.

  Lemma into_bsk_ret : forall t, is_scalar t -> into_bsk t = Ret t.
  Proof.
    unfold is_scalar. intros t H. unfold into_bsk, signing_key_from_bytes, scalar_from_repr, to_repr.
    pose proof qmod_lt_pow255. rewrite le_val_le_bytes by (rewrite pow256_32; lia).
    rewrite (proj2 (Z.ltb_lt _ _)) by lia. reflexivity.
  Qed.
  Lemma into_bvk_ret : forall P, into_bvk P = Ret P.
  Proof. intro P. unfold into_bvk, vk_from_bytes. rewrite (decode_encode L). reflexivity. Qed.

  Lemma binding_key_algebra : forall (l : list (Z * Z)) (vb : Z),
    vb = zsum (map fst l) ->
    pt_sub (cv_sum (map (fun vr => cv_of (fst vr) (snd vr)) l)) (cv_of vb 0) =
    pt_mul (trapdoor_sum (map snd l)) value_base_R.
  Proof.
    intros l vb ->. rewrite cv_sum_of, trapdoor_sum_spec, (mul_mod L).
    unfold cv_of at 2. rewrite (mul_0), (add_id_r L). unfold cv_of. rewrite (add_comm L). apply (add_sub L).
  Qed.

  (** Extracting a list of derived commitments from individual successes. *)
  Lemma derive_all : forall l cvs,
    Forall (fun vr => value_sum_ok (fst vr)) l ->
    Forall2 (fun vr cv => derive_cv (fst vr) (snd vr) = Ret cv) l cvs ->
    cvs = map (fun vr => cv_of (fst vr) (snd vr)) l.
  Proof.
    intros l cvs HF H. induction H as [|vr cv l cvs E H IH]; [reflexivity|].
    cbn [map]. rewrite derive_cv_ret in E by exact (Forall_inv HF). injection E as <-.
    rewrite IH by exact (Forall_inv_tail HF). reflexivity.
  Qed.

  Lemma commitments_add_up : forall l cvs total cv0,
    Forall (fun vr => value_sum_ok (fst vr) /\ is_scalar (snd vr)) l ->
    Forall2 (fun vr cv => derive_cv (fst vr) (snd vr) = Ret cv) l cvs ->
    total = zsum (map fst l) -> value_sum_ok total -> derive_cv total 0 = Ret cv0 ->
    cv_sub (cv_sum cvs) cv0 = pt_mul (zsum (map snd l)) value_base_R /\
    exists bsk bvk, into_bsk (trapdoor_sum (map snd l)) = Ret bsk /\
                    into_bvk (cv_sub (cv_sum cvs) cv0) = Ret bvk /\ vk_of Binding bsk = bvk.
  Proof.
    intros l cvs total cv0 HF H2 HT HO HD.
    apply derive_all in H2; [|eapply Forall_impl; [|exact HF]; intros ? []; assumption]. subst cvs.
    rewrite derive_cv_ret in HD by exact HO. injection HD as <-.
    unfold cv_sub. rewrite binding_key_algebra by exact HT.
    rewrite trapdoor_sum_spec at 1. split; [apply (mul_mod L)|].
    pose proof qmod_pos.
    eexists. eexists. split; [|split].
    - apply into_bsk_ret. rewrite trapdoor_sum_spec. unfold is_scalar. apply Z.mod_pos_bound. lia.
    - apply into_bvk_ret.
    - unfold vk_of. reflexivity.
  Qed.
End Commit.
