(** Proofs about Batch.v. *)
From Coq Require Import String ZArith List Bool Lia.
From Coq Require Import Init.Byte.
From Verif Require Import Prelude Fields Curve Oracles RedPallas Value Keys Note Action NoteEnc Bundle Batch
  PreludeFacts CurveFacts CodecFacts ValueFacts FieldFacts KeysSpec KeysFacts NoteSpec NoteFacts NoteEncSpec BundleSpec BundleFacts.
Import ListNotations.
Open Scope Z_scope.

#[local] Opaque le_bytes le_val blake2b hstar.

Section Batch.
  Context {C : Curve} {OR : @Oracles C}.
  Variable L : CurveLaws C.

  Lemma coefficients_range : forall n r z, In z (coefficients n r) -> 0 <= z < 2 ^ 128.
  Proof.
    induction n as [|n IH]; intros r z H; cbn [coefficients] in H; [destruct H|].
    destruct (gen_128_bits r) as [z' r'] eqn:E. destruct H as [<- | H]; [|apply (IH _ _ H)].
    unfold gen_128_bits in E. pose proof (rng_bytes_length 16 r) as HL. destruct (rng_bytes 16 r) as [b r1]. cbn [fst] in HL.
    injection E as <- _. pose proof (le_val_range b) as R. rewrite HL in R. exact R.
  Qed.
  Lemma coefficients_length : forall n r, length (coefficients n r) = n.
  Proof.
    induction n as [|n IH]; intro r; cbn [coefficients]; [reflexivity|]. destruct (gen_128_bits r) as [z r']. cbn [length]. rewrite IH. reflexivity.
  Qed.

  Definition total (acc : Z * Z * point) : point :=
    let '(ps, pb, pt) := acc in
    pt_add (pt_add (pt_mul ps (basepoint SpendAuth)) (pt_mul pb (basepoint Binding))) pt.

  Lemma step_total : forall i ps pb pt s R z, let c := hstar (sig_r (it_sig i) ++ vk_to_bytes (it_vk i) ++ it_msg i) in
    total (match it_type i with SpendAuth => (ps - z * s) mod qmod | Binding => ps end,
           match it_type i with Binding => (pb - z * s) mod qmod | SpendAuth => pb end,
           pt_add pt (pt_add (pt_mul ((z * c) mod qmod) (it_vk i)) (pt_mul z R))) =
    pt_sub (total (ps, pb, pt)) (pt_mul z (pt_sub (pt_sub (pt_mul s (basepoint (it_type i))) (pt_mul c (it_vk i))) R)).
  Proof.
    intros i ps pb pt s R z c. unfold total, pt_sub.
    set (G := basepoint SpendAuth). set (B := basepoint Binding). set (VK := it_vk i).
    assert (E : pt_neg (pt_mul z (pt_add (pt_add (pt_mul s (basepoint (it_type i))) (pt_neg (pt_mul c VK))) (pt_neg R))) =
                pt_add (pt_mul (- (z * s)) (basepoint (it_type i))) (pt_add (pt_mul (z * c) VK) (pt_mul z R))).
    { rewrite !(mul_add_r L), !(mul_neg_r L), !(neg_add L), !(neg_neg L), (mul_opp L), !(mul_mul L), <- (add_assoc L). reflexivity. }
    rewrite E. rewrite (mul_mod L (z * c)).
    destruct (it_type i).
    - rewrite (mul_mod L). unfold Z.sub. rewrite (mul_add L). fold G.
      rewrite <- !(add_assoc L). f_equal. rewrite !(add_assoc L).
      rewrite <- (add_assoc L _ pt (pt_mul (- (z * s)) G)).
      rewrite (add_comm L (pt_mul (- (z * s)) G) (pt_mul pb B)). rewrite <- !(add_assoc L). f_equal. rewrite !(add_assoc L). f_equal. f_equal. apply (add_comm L).
    - rewrite (mul_mod L). unfold Z.sub. rewrite (mul_add L). fold B.
      rewrite <- !(add_assoc L). f_equal. f_equal. rewrite !(add_assoc L). f_equal. f_equal. apply (add_comm L).
  Qed.

  Lemma batch_loop_spec : forall l acc r,
    (forall es, Forall2 (fun i E => sig_error i = Some E) l es ->
       exists acc', batch_loop acc l r = Some acc' /\
         total acc' = pt_sub (total acc) (combination (coefficients (length l) r) es)) /\
    (forall acc', batch_loop acc l r = Some acc' -> exists es, Forall2 (fun i E => sig_error i = Some E) l es).
  Proof.
    induction l as [|i l IH]; intros acc r; cbn [batch_loop length coefficients].
    - split.
      + intros es H. inversion H; subst. exists acc. split; [reflexivity|]. cbn [combination]. unfold pt_sub. rewrite (neg_id L), (add_id_r L). reflexivity.
      + intros acc' _. exists []. constructor.
    - destruct (gen_128_bits r) as [z r'] eqn:EG. split.
      + intros es H. inversion H as [|i0 E l0 es' HE HF]; subst. unfold sig_error in HE.
        destruct (pt_decode (sig_r (it_sig i))) as [R|]; [|discriminate HE].
        destruct (scalar_from_repr (sig_s (it_sig i))) as [s|]; [|discriminate HE].
        assert (HE' : E = pt_sub (pt_sub (pt_mul s (basepoint (it_type i)))
            (pt_mul (hstar (sig_r (it_sig i) ++ vk_to_bytes (it_vk i) ++ it_msg i)) (it_vk i))) R) by congruence. clear HE.
        destruct acc as [[ps pb] pt].
        match goal with |- context [batch_loop ?a l r'] => destruct (proj1 (IH a r') _ HF) as (acc' & EA & ET) end.
        exists acc'. split; [exact EA|]. rewrite ET, step_total, <- HE'. cbn [combination].
        unfold pt_sub. rewrite (neg_add L), (add_assoc L). reflexivity.
      + intros acc' H. destruct (scalar_from_repr (sig_s (it_sig i))) as [s|] eqn:ES; [|discriminate H].
        destruct (pt_decode (sig_r (it_sig i))) as [R|] eqn:ER; [|discriminate H].
        destruct acc as [[ps pb] pt].
        destruct (proj2 (IH _ _) _ H) as [es HF]. eexists. constructor; [|exact HF]. unfold sig_error. rewrite ES, ER. reflexivity.
  Qed.

  Lemma verify_items_spec : forall l r, verify_items l r = true <->
    exists es, Forall2 (fun i E => sig_error i = Some E) l es /\ combination (coefficients (length l) r) es = pt_id.
  Proof.
    intros l r. unfold verify_items.
    assert (T0 : total (0, 0, pt_id) = pt_id) by (unfold total; rewrite !mul_0, !(add_id_l L); reflexivity).
    split.
    - intro H. destruct (batch_loop (0, 0, pt_id) l r) as [[[ps pb] pt]|] eqn:E; [|discriminate H].
      destruct (proj2 (batch_loop_spec l _ r) _ E) as [es HF]. exists es. split; [exact HF|].
      destruct (proj1 (batch_loop_spec l (0, 0, pt_id) r) es HF) as (acc' & E' & ET). rewrite E in E'. injection E' as <-.
      apply (is_id_true L) in H. change (total (ps, pb, pt) = pt_id) in H. rewrite H, T0 in ET.
      unfold pt_sub in ET. rewrite (add_id_l L) in ET. rewrite <- (neg_neg L (combination _ es)), <- ET. apply (neg_id L).
    - intros (es & HF & HC). destruct (proj1 (batch_loop_spec l (0, 0, pt_id) r) es HF) as ([[ps pb] pt] & E & ET).
      rewrite E. apply (is_id_true L). change (total (ps, pb, pt) = pt_id). rewrite ET, T0, HC. apply (sub_self L).
  Qed.

  Lemma verify_error : forall t vk m s, verify t vk m s = true <-> sig_error (mk_item t vk m s) = Some pt_id.
  Proof.
    intros t vk m s. unfold verify, sig_error. cbn [it_sig it_type it_vk it_msg].
    destruct (pt_decode (sig_r s)) as [R|]; [|split; intro H; discriminate H].
    destruct (scalar_from_repr (sig_s s)) as [sc|]; [|split; intro H; discriminate H].
    rewrite (is_id_true L). split; [intros ->; reflexivity|]. congruence.
  Qed.

  Lemma combination_ids : forall zs es, Forall (fun E => E = pt_id) es -> combination zs es = pt_id.
  Proof.
    induction zs as [|z zs IH]; intros es H; cbn [combination]; [reflexivity|].
    destruct H as [|E es -> H]; [reflexivity|]. rewrite (mul_id L), (add_id_l L). apply IH. exact H.
  Qed.

  (** * The calls *)
  Section Verify.
    Context {V : Type}.
    Variable halo2 : bytes -> list (list Z) -> bool.
    Variable into : V -> Z.
    Notation auth_bundle := (bundle authorized signature V).

    Definition items_of (b : auth_bundle) (sh : bytes) (bvk : point) : list batch_item :=
      map (fun a => mk_item SpendAuth (a_rk a) sh (a_auth a)) (b_actions b) ++
      [mk_item Binding bvk sh (au_binding_sig (b_auth b))].

    Lemma add_all_spec : forall l bt bt', add_all into bt l = Ret bt' ->
      exists info : list (point * list (list Z)),
        Forall2 (fun p q => binding_validating_key into (fst p) = Ret (fst q) /\
                            omap to_halo2_instance (to_instances (fst p)) = Ret (snd q)) l info /\
        bt_proofs bt' = bt_proofs bt ++ map (fun pq => (au_proof (b_auth (fst (fst pq))), snd (snd pq))) (List.combine l info) /\
        bt_signatures bt' = bt_signatures bt ++ flat_map (fun pq => items_of (fst (fst pq)) (snd (fst pq)) (fst (snd pq))) (List.combine l info).
    Proof.
      induction l as [|[b sh] l IH]; intros bt bt' H; cbn [add_all] in H.
      - injection H as <-. exists []. split; [constructor|]. cbn [List.combine map flat_map]. rewrite !app_nil_r. split; reflexivity.
      - unfold add_bundle in H.
        destruct (binding_validating_key into b) as [bvk|w|] eqn:EB; cbn [obind] in H; try discriminate H.
        destruct (omap to_halo2_instance (to_instances b)) as [is|w|] eqn:EI; cbn [obind] in H; try discriminate H.
        apply IH in H as (info & HF & HP & HS). exists ((bvk, is) :: info).
        split; [constructor; [split; assumption|exact HF]|]. rewrite HP, HS. cbn [bt_proofs bt_signatures List.combine map flat_map fst snd].
        rewrite <- !app_assoc. split; [reflexivity|]. f_equal. unfold items_of. rewrite <- !app_assoc. reflexivity.
    Qed.

    Lemma add_all_total : forall l bt,
      (forall b sh, In (b, sh) l -> Z.abs (into (b_value_balance b)) < 2 ^ 64 /\ forall a, In a (b_actions b) -> a_rk a <> pt_id) ->
      exists bt', add_all into bt l = Ret bt'.
    Proof.
      induction l as [|[b sh] l IH]; intros bt H; cbn [add_all]; [eexists; reflexivity|].
      destruct (H b sh (or_introl eq_refl)) as [HV HR]. unfold add_bundle.
      unfold binding_validating_key. rewrite (derive_cv_ret L) by (unfold Spec.value_sum_ok, value_sum_from_raw; lia). cbn [obind]. rewrite (into_bvk_ret L). cbn [obind].
      destruct (proj2 (verify_proof_total L (fun _ _ => true) _ b) HR) as [ok E]. unfold verify_proof, proof_verify in E.
      destruct (omap to_halo2_instance (to_instances b)) as [is|w|]; cbn [obind] in *; try discriminate E.
      apply IH. intros b' sh' Hb. apply (H b' sh'). right. exact Hb.
    Qed.

    Lemma items_nonempty : forall b sh bvk, items_of b sh bvk <> [].
    Proof. intros b sh bvk H. unfold items_of in H. apply app_eq_nil in H as [_ H]. discriminate H. Qed.

    Lemma validate_unfold : forall l bt r, add_all into batch_new l = Ret bt -> l <> [] ->
      validate halo2 bt r = verify_items (bt_signatures bt) r && finalize_proofs halo2 (bt_proofs bt).
    Proof.
      intros l bt r H NE. destruct (add_all_spec _ _ _ H) as (info & HF & HP & HS). unfold validate.
      destruct (bt_signatures bt) as [|x xs] eqn:E; [|destruct (verify_items (x :: xs) r); reflexivity].
      exfalso. destruct HF as [|[b sh] q l info _ _]; [apply NE; reflexivity|].
      cbn [batch_new bt_signatures app List.combine flat_map fst snd] in HS. symmetry in HS. apply app_eq_nil in HS as [HS _].
      apply (items_nonempty _ _ _ HS).
    Qed.

    Lemma items_valid : forall b sh bvk, Forall (fun i => sig_error i = Some pt_id) (items_of b sh bvk) <->
      (forall a, In a (b_actions b) -> verify SpendAuth (a_rk a) sh (a_auth a) = true) /\
      verify Binding bvk sh (au_binding_sig (b_auth b)) = true.
    Proof.
      intros b sh bvk. unfold items_of. rewrite Forall_app, Forall_map, Forall_forall. split.
      - intros [H1 H2]. split; [intros a Ha; apply verify_error, H1, Ha|]. apply Forall_inv in H2. apply verify_error. exact H2.
      - intros [H1 H2]. split; [intros a Ha; apply verify_error, H1, Ha|]. constructor; [apply verify_error; exact H2|constructor].
    Qed.

    Lemma batch_valid_iff : forall l bt, add_all into batch_new l = Ret bt ->
      ((forall b sh, In (b, sh) l -> bundle_valid halo2 into b sh) <->
       (Forall (fun i => sig_error i = Some pt_id) (bt_signatures bt) /\ finalize_proofs halo2 (bt_proofs bt) = true)).
    Proof.
      intros l bt H. destruct (add_all_spec _ _ _ H) as (info & HF & HP & HS). cbn [batch_new bt_proofs bt_signatures app] in *.
      rewrite HP, HS. clear H HP HS bt. induction HF as [|[b sh] [bvk is] l info [HB HI] HF IH].
      - split; [intros _; split; [constructor|reflexivity]|]. intros _ b sh [].
      - cbn [List.combine flat_map map fst snd] in *. rewrite Forall_app, items_valid.
        unfold finalize_proofs in *. cbn [forallb fst snd]. rewrite andb_true_iff.
        assert (BV : bundle_valid halo2 into b sh <->
           ((forall a, In a (b_actions b) -> verify SpendAuth (a_rk a) sh (a_auth a) = true) /\
            verify Binding bvk sh (au_binding_sig (b_auth b)) = true) /\ halo2 (au_proof (b_auth b)) is = true).
        { unfold bundle_valid, verify_proof, proof_verify. rewrite HI. cbn [obind]. split.
          - intros (H1 & (bvk' & E & H2) & H3). assert (bvk' = bvk) by congruence. subst bvk'.
            split; [split; assumption|]. congruence.
          - intros [[H1 H2] H3]. split; [exact H1|]. split; [exists bvk; split; [exact HB|exact H2]|]. congruence. }
        split.
        + intro H. destruct (proj1 BV (H b sh (or_introl eq_refl))) as [X Y].
          destruct (proj1 IH (fun b' sh' H' => H b' sh' (or_intror H'))) as [Z W]. repeat split; try assumption; apply X.
        + intros [[X Z] [Y W]] b' sh' [H | H].
          * assert (b' = b) by congruence. assert (sh' = sh) by congruence. subst. apply BV. split; assumption.
          * apply (proj2 IH); [split; assumption|exact H].
    Qed.

    Lemma errors_ids : forall l, Forall (fun i => sig_error i = Some pt_id) l ->
      Forall2 (fun i E => sig_error i = Some E) l (repeat pt_id (length l)).
    Proof. induction 1 as [|i l H _ IH]; cbn [length repeat]; constructor; assumption. Qed.

    Lemma complete : forall l bt r, add_all into batch_new l = Ret bt ->
      (forall b sh, In (b, sh) l -> bundle_valid halo2 into b sh) -> validate halo2 bt r = true.
    Proof.
      intros l bt r H HV. destruct l as [|p l].
      - cbn [add_all] in H. injection H as <-. reflexivity.
      - rewrite (validate_unfold _ _ _ H) by discriminate. apply (batch_valid_iff _ _ H) in HV as [H1 H2].
        rewrite H2, andb_true_r. apply verify_items_spec. exists (repeat pt_id (length (bt_signatures bt))).
        split; [apply errors_ids; exact H1|]. apply combination_ids. apply Forall_forall. intros E HE. apply (repeat_spec _ _ _ HE).
    Qed.

    Lemma sound : forall l bt r, add_all into batch_new l = Ret bt -> validate halo2 bt r = true ->
      (forall b sh, In (b, sh) l -> verify_proof halo2 b = Ret true) /\
      ((forall b sh, In (b, sh) l -> bundle_valid halo2 into b sh) \/
       exists es, Forall2 (fun i E => sig_error i = Some E) (bt_signatures bt) es /\
         combination (coefficients (length (bt_signatures bt)) r) es = pt_id /\ exists E, In E es /\ E <> pt_id).
    Proof.
      intros l bt r H HV. destruct l as [|p l].
      { split; [intros b sh []|left; intros b sh []]. }
      rewrite (validate_unfold _ _ _ H) in HV by discriminate. apply andb_true_iff in HV as [H1 H2].
      split.
      - destruct (add_all_spec _ _ _ H) as (info & HF & HP & _). cbn [batch_new bt_proofs app] in HP. rewrite HP in H2.
        clear H1 H HP. intros b sh HI. remember (p :: l) as q. clear Heqq p l. induction HF as [|[b' sh'] [bvk is] q info [HB HO] HF IH]; [destruct HI|].
        cbn [List.combine map fst snd] in H2. unfold finalize_proofs in H2. cbn [forallb fst snd] in H2. apply andb_true_iff in H2 as [H2 H3].
        cbn [fst snd] in *. destruct HI as [E | HI]; [|apply IH; assumption]. assert (b' = b) by congruence. subst b'.
        unfold verify_proof, proof_verify. rewrite HO. cbn [obind]. rewrite H2. reflexivity.
      - apply verify_items_spec in H1 as (es & HF & HC).
        assert (D : (exists E, In E es /\ E <> pt_id) \/ Forall (fun E => E = pt_id) es).
        { clear -L. induction es as [|E es IH]; [right; constructor|]. destruct (pt_eq_dec L E pt_id) as [->|N].
          - destruct IH as [(E & H1 & H2)|H]; [left; exists E; split; [right; exact H1|exact H2]|right; constructor; [reflexivity|exact H]].
          - left. exists E. split; [left; reflexivity|exact N]. }
        destruct D as [D|D]; [right; exists es; split; [exact HF|split; [exact HC|exact D]]|].
        left. apply (batch_valid_iff _ _ H). split; [|exact H2].
        clear -HF D. induction HF as [|i E l es HE HF IH]; [constructor|].
        pose proof (Forall_inv D) as DE. apply Forall_inv_tail in D. cbn beta in DE. subst E. constructor; [exact HE|apply IH; exact D].
    Qed.
  End Verify.

  (** * How unlikely a wrong acceptance is *)

  Lemma combination_change : forall k zs zs' es E, length zs = length zs' ->
    nth_error es k = Some E -> (forall j, j <> k -> nth_error zs j = nth_error zs' j) ->
    forall z z', nth_error zs k = Some z -> nth_error zs' k = Some z' ->
    pt_add (combination zs es) (pt_mul z' E) = pt_add (combination zs' es) (pt_mul z E).
  Proof.
    induction k as [|k IH]; intros [|z zs] [|z' zs'] [|E es] E0 HL HE HJ x x' HX HX'; cbn [nth_error length] in *; try discriminate.
    - assert (E0 = E) by congruence. assert (x = z) by congruence. assert (x' = z') by congruence. subst.
      assert (zs = zs').
      { clear -HJ HL. assert (G : forall j, nth_error zs j = nth_error zs' j) by (intro j; apply (HJ (S j)); discriminate).
        clear HJ. revert zs' HL G. induction zs as [|a zs IH]; intros [|b zs'] HL G; cbn [length] in HL; try discriminate; [reflexivity|].
        f_equal; [specialize (G 0%nat); cbn [nth_error] in G; congruence|]. apply IH; [lia|]. intro j. apply (G (S j)). }
      subst zs'. cbn [combination]. rewrite (add_comm L (pt_mul z E)), (add_comm L (pt_mul z' E)), <- !(add_assoc L). f_equal. apply (add_comm L).
    - assert (z = z') by (specialize (HJ 0%nat ltac:(lia)); cbn [nth_error] in HJ; congruence). subst z'.
      cbn [combination]. rewrite <- !(add_assoc L). f_equal. apply (IH zs zs' es E0); try assumption; [lia|].
      intros j Hj. apply (HJ (S j)). lia.
  Qed.

  (** With the other coefficients fixed, at most one coefficient for a bad signature is accepted. *)
  Lemma one_coefficient : forall l k i r r' z z',
    nth_error l k = Some i -> sig_error i <> Some pt_id ->
    verify_items l r = true -> verify_items l r' = true ->
    (forall j, j <> k -> nth_error (coefficients (length l) r) j = nth_error (coefficients (length l) r') j) ->
    nth_error (coefficients (length l) r) k = Some z -> nth_error (coefficients (length l) r') k = Some z' -> z = z'.
  Proof.
    intros l k i r r' z z' HI HB H H' HJ HZ HZ'. apply verify_items_spec in H as (es & HF & HC). apply verify_items_spec in H' as (es' & HF' & HC').
    assert (es' = es).
    { clear -HF HF'. revert es' HF'. induction HF as [|i E l es HE HF IH]; intros es' HF'; inversion HF' as [|i' E' l' es2 HE' HF2]; subst; [reflexivity|].
      f_equal; [congruence|]. apply IH. exact HF2. }
    subst es'.
    assert (KE : exists E, nth_error es k = Some E /\ sig_error i = Some E).
    { clear -HF HI. revert k HI. induction HF as [|i' E l es HE HF IH]; intros [|k] HI; cbn [nth_error] in HI; try discriminate HI.
      - exists E. split; [reflexivity|congruence].
      - apply (IH k HI). }
    destruct KE as (E & KE & SE).
    pose proof (combination_change k _ _ es E (eq_trans (coefficients_length _ _) (eq_sym (coefficients_length _ _))) KE HJ z z' HZ HZ') as X.
    rewrite HC, HC', !(add_id_l L) in X.
    assert (NE : E <> pt_id) by congruence.
    apply (mul_inj L) in X; [|exact NE].
    pose proof (coefficients_range _ _ _ (nth_error_In _ _ HZ)). pose proof (coefficients_range _ _ _ (nth_error_In _ _ HZ')).
    assert (2 ^ 128 < qmod) by (vm_compute; reflexivity).
    rewrite !Z.mod_small in X by lia. lia.
  Qed.

  (** A batch with exactly one bad signature is rejected unless its coefficient is zero. *)
  Lemma one_bad : forall l1 i l2 r, Forall (fun i => sig_error i = Some pt_id) (l1 ++ l2) -> sig_error i <> Some pt_id ->
    nth_error (coefficients (length (l1 ++ i :: l2)) r) (length l1) <> Some 0 -> verify_items (l1 ++ i :: l2) r = false.
  Proof.
    intros l1 i l2 r HG HB HZ. destruct (verify_items (l1 ++ i :: l2) r) eqn:H; [|reflexivity]. exfalso.
    apply verify_items_spec in H as (es & HF & HC). apply Forall2_app_inv_l in HF as (es1 & es' & F1 & F2 & ->).
    inversion F2 as [|i0 E l0 es2 HE F3]; subst. apply Forall_app in HG as [G1 G2].
    assert (I1 : forall l es, Forall (fun i => sig_error i = Some pt_id) l -> Forall2 (fun i E => sig_error i = Some E) l es -> Forall (fun E => E = pt_id) es).
    { clear. intros l es G F. induction F as [|i E l es HE F IH]; [constructor|]. pose proof (Forall_inv G) as X. cbn beta in X.
      constructor; [congruence|]. apply IH. apply (Forall_inv_tail G). }
    pose proof (I1 _ _ G1 F1) as D1. pose proof (I1 _ _ G2 F3) as D2.
    assert (LE : length es1 = length l1) by (clear -F1; induction F1; cbn [length]; congruence).
    pose proof (coefficients_length (length (l1 ++ i :: l2)) r) as LC. pose proof (coefficients_range (length (l1 ++ i :: l2)) r) as RC.
    remember (coefficients (length (l1 ++ i :: l2)) r) as zs. clear Heqzs.
    rewrite app_length in LC. cbn [length] in LC.
    assert (X : forall zs es1, Forall (fun E => E = pt_id) es1 -> (length es1 < length zs)%nat -> combination zs (es1 ++ E :: es2) = pt_mul (nth (length es1) zs 0) E).
    { clear -D2 L. induction zs as [|z zs IH]; intros es1 D H; cbn [length] in H; [lia|]. destruct D as [|P es1 -> D].
      - cbn [app combination length nth]. rewrite (combination_ids zs es2 D2), (add_id_r L). reflexivity.
      - cbn [app combination length nth] in *. rewrite (mul_id L), (add_id_l L). apply IH; [exact D|lia]. }
    rewrite (X zs es1 D1) in HC by lia. rewrite LE in HC.
    assert (N : nth_error zs (length l1) = Some (nth (length l1) zs 0)) by (apply nth_error_nth'; lia).
    pose proof (RC _ (nth_error_In _ _ N)) as R. rewrite N in HZ.
    assert (E <> pt_id) by congruence. assert (2 ^ 128 < qmod) by (vm_compute; reflexivity).
    apply (mul_nonid L (nth (length l1) zs 0) E); [|assumption|exact HC].
    assert (nth (length l1) zs 0 <> 0) by congruence. lia.
  Qed.
End Batch.
