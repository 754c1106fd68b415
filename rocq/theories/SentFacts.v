(** Proofs for C97. *)
From Coq Require Import String ZArith List Bool Lia Permutation.
From Coq Require Import Init.Byte.
From Verif Require Import Prelude PreludeFacts Fields Curve CurveFacts Oracles RedPallas Value Keys KeysSpec Note NoteSpec Tree Action NoteEnc NoteEncSpec NoteEncFacts SealedSpec SealedFacts
  Bundle BundleSpec Builder Signing BuilderSpec BuilderFacts BuildFacts RngSpec RandomSpec RandomFacts LifeSpec BalanceSpec BalanceFacts SentSpec.
Import ListNotations.
Open Scope Z_scope.

Section Lists.
  Lemma flat_map_pointwise : forall A B X (f : A -> list X) (g : B -> list X) (l : list A) (m : list B), length l = length m ->
    (forall k a b, nth_error l k = Some a -> nth_error m k = Some b -> f a = g b) -> flat_map f l = flat_map g m.
  Proof.
    intros A B X f g l. induction l as [|a l IH]; intros [|b m] E H; try discriminate E; [reflexivity|]. cbn [flat_map].
    rewrite (H 0%nat a b eq_refl eq_refl). f_equal. apply IH; [cbn [length] in E; lia|]. intros k x y H1 H2. exact (H (S k) x y H1 H2).
  Qed.
  Lemma flat_map_filter : forall A X (p : A -> bool) (f : A -> X) l, flat_map (fun a => if p a then [f a] else []) l = map f (filter p l).
  Proof. intros A X p f l. induction l as [|a l IH]; [reflexivity|]. cbn [flat_map filter]. destruct (p a); cbn [app map]; rewrite IH; reflexivity. Qed.
  Lemma filter_permutation : forall A (p : A -> bool) l m, Permutation l m -> Permutation (filter p l) (filter p m).
  Proof.
    intros A p l m H. induction H as [|x l m H IH|x y l|l m n H1 IH1 H2 IH2]; cbn [filter].
    - constructor.
    - destruct (p x); [constructor|]; exact IH.
    - destruct (p x), (p y); try apply Permutation_refl. apply perm_swap.
    - exact (Permutation_trans IH1 IH2).
  Qed.
End Lists.

Section Sent.
  Context {C : Curve} {OR : @Oracles C} (L : CurveLaws C).
  #[local] Opaque try_output_recovery_with_ock prf_ock commitment diversify_hash note_esk.

  Lemma recovered_effects : forall A B key (a : action A) (b : action B), action_effects a = action_effects b -> recovered key a = recovered key b.
  Proof.
    intros A B key a b H. change (recovered key a) with (recovered key (action_effects a)). change (recovered key b) with (recovered key (action_effects b)).
    rewrite H. reflexivity.
  Qed.
  Lemma one_tag_effects : forall A B (a : action A) (b : action B) k k', action_effects a = action_effects b -> one_tag b k k' -> one_tag a k k'.
  Proof.
    intros A B a b k k' H T. change (one_tag (action_effects a) k k'). rewrite H. exact T.
  Qed.
  Lemma out_key_effects : forall A B key (a : action A) (b : action B), action_effects a = action_effects b -> out_key key a = out_key key b.
  Proof.
    intros A B key a b H. change (out_key key a) with (out_key key (action_effects a)). rewrite H. reflexivity.
  Qed.

  Transparent try_output_recovery_with_ock.
  Lemma recovery_tag : forall A key (a : action A) p l, recovered key a = p :: l ->
    skipn 64 (ct_out (a_ct a)) = poly_tag (out_key key a) (firstn 64 (ct_out (a_ct a))).
  Proof.
    intros A key a p l H. unfold recovered, try_output_recovery, try_output_recovery_with_ock, out_plaintext_size in H. fold (out_key key a) in H.
    destruct (aead_decrypt 64 (out_key key a) (ct_out (a_ct a))) as [pt|] eqn:E; [|discriminate H].
    exact (proj2 (aead_decrypt_some _ _ _ _ E)).
  Qed.
  #[local] Opaque try_output_recovery_with_ock.

  Lemma encrypt_tag : forall k pt, length pt = 64%nat ->
    skipn 64 (aead_encrypt k pt) = poly_tag k (firstn 64 (aead_encrypt k pt)).
  Proof.
    intros k pt E. pose proof (aead_roundtrip 64 k pt E) as R. exact (proj2 (aead_decrypt_some _ _ _ _ R)).
  Qed.

  Lemma sent_history : forall V (try_from : Z -> option V) t anchor b fuel r (bd : @unauthorized_bundle C V) meta r',
    gd_fallback_ok -> reachable t anchor b -> build try_from fuel b r = Ret (Ok (Some (bd, meta)), r') ->
    exists ds, draws r (flat_map draws_of ds) r' /\ length ds = length (b_actions bd) /\
      forall T S (fin : bundle T S V) key, effects fin = effects bd ->
        Permutation (sent key (b_actions fin)) (requested key b) \/ misread key b (b_actions fin) ds.
  Proof using L.
    intros V tf t anchor b fuel r bd meta r' GD RB E.
    destruct (reachable_legal L _ _ _ RB) as ((_ & LO) & _).
    destruct (build_draws L tf t anchor b fuel r bd meta r' GD RB E) as (plan & ds & B & LD & DR & EACH).
    exists ds. split; [exact DR|]. split; [rewrite LD; symmetry; exact (bu_actions _ _ _ _ B)|].
    intros T S fin key EF.
    assert (EA : map action_effects (b_actions fin) = map action_effects (b_actions bd)) by exact (f_equal b_actions EF).
    assert (LA : length (b_actions fin) = length plan).
    { rewrite <- (map_length action_effects (b_actions fin)), EA, map_length. exact (bu_actions _ _ _ _ B). }
    destruct (bu_outputs _ _ _ _ B) as (os & PO & DO).
    assert (W : (forall k, In k (seq 0 (length plan)) -> forall a so, nth_error (b_actions fin) k = Some a -> nth_error plan k = Some so ->
        recovered key a = (if with_key key (snd so) then [payment_of (snd so)] else [])) \/ misread key b (b_actions fin) ds).
    { apply or_all. intros k _. destruct (nth_error plan k) as [[s o]|] eqn:EP; [|left; intros a so _ X; discriminate X].
      destruct (nth_error (b_actions fin) k) as [a|] eqn:EN; [|left; intros a so X; discriminate X].
      destruct (EACH k s o EP) as (a0 & w & d & A1 & _ & D1 & _ & _ & DF).
      destruct (bu_each _ _ _ _ B k s o EP) as (a1 & w1 & n & alpha & rcv & A2 & _ & AO). assert (a1 = a0) by congruence. subst a1.
      assert (EQ : action_effects a = action_effects a0).
      { apply (map_nth_error action_effects) in EN. apply (map_nth_error action_effects) in A1. rewrite EA in EN. congruence. }
      assert (IO : In o (bl_outputs b) \/ o_ovk o = None).
      { assert (X : In o (map snd plan)) by (apply in_map_iff; exists (s, o); split; [reflexivity|exact (nth_error_In _ _ EP)]).
        apply (Permutation_in _ PO) in X. apply in_app_iff in X as [X|X]; [left; exact X|right; exact (do_ovk _ (proj1 (Forall_forall _ _) DO o X))]. }
      destruct (ac_encrypts _ _ _ _ _ _ _ AO) as (r0 & EN0).
      destruct (with_key key o) eqn:WK.
      - left. intros a' so X Y. assert (a' = a) by congruence. assert (so = (s, o)) by congruence. subst a' so. cbn [snd]. rewrite WK.
        unfold with_key in WK. destruct (o_ovk o) as [ovk|] eqn:OV; [|discriminate WK]. apply bytes_eqb_eq in WK. subst ovk.
        destruct IO as [IO|IO]; [|discriminate IO].
        pose proof (ol_memo _ _ (proj1 (Forall_forall _ _) LO o IO)) as ML.
        destruct (encrypts_roundtrip L _ _ _ _ _ _ GD (ac_note _ _ _ _ _ _ _ AO) ML EN0) as (_ & _ & RC). specialize (RC key eq_refl).
        rewrite (recovered_effects _ _ key a a0 EQ). unfold recovered. rewrite RC. unfold payment_of.
        rewrite (ac_recipient _ _ _ _ _ _ _ AO), (ac_value _ _ _ _ _ _ _ AO). reflexivity.
      - destruct (recovered key a) as [|p l] eqn:RE.
        { left. intros a' so X Y. assert (a' = a) by congruence. assert (so = (s, o)) by congruence. subst a' so. cbn [snd]. rewrite WK. exact RE. }
        right. pose proof (recovery_tag _ _ _ _ _ RE) as TG.
        pose proof (df_out _ _ _ _ DF) as DO1. unfold with_key in WK. destruct (o_ovk o) as [ovk|] eqn:OV.
        + destruct IO as [IO|IO]; [|discriminate IO]. apply (M_other _ _ _ _ k a o ovk EN IO OV).
          * intro X. subst ovk. assert (Y : bytes_eqb key key = true) by (apply bytes_eqb_eq; reflexivity). congruence.
          * pose proof (ol_memo _ _ (proj1 (Forall_forall _ _) LO o IO)) as ML.
            destruct (encrypts_roundtrip L _ _ _ _ _ _ GD (ac_note _ _ _ _ _ _ _ AO) ML EN0) as (_ & _ & RC). specialize (RC ovk eq_refl).
            assert (R1 : recovered ovk a = [(n_recipient n, n_value n, o_memo o)]).
            { rewrite (recovered_effects _ _ ovk a a0 EQ). unfold recovered. rewrite RC. reflexivity. }
            pose proof (recovery_tag _ _ _ _ _ R1) as T1. split; [exact T1|]. rewrite <- T1. exact TG.
        + destruct (dr_out d) as [[x p0]|] eqn:DD; [|destruct DO1]. destruct DO1 as (_ & LP & CT).
          apply (M_none _ _ _ _ k a d x p0 EN D1 DD).
          assert (CTA : ct_out (a_ct a) = aead_encrypt x p0).
          { rewrite <- CT. exact (f_equal (fun y => ct_out (a_ct y)) EQ). }
          assert (T1 : skipn 64 (ct_out (a_ct a)) = poly_tag x (firstn 64 (ct_out (a_ct a)))) by (rewrite CTA; exact (encrypt_tag x p0 LP)).
          split; [exact T1|]. rewrite <- T1. exact TG. }
    destruct W as [W|W]; [left|right; exact W].
    unfold sent, requested.
    rewrite (flat_map_pointwise _ _ _ (recovered key) (fun so => if with_key key (snd so) then [payment_of (snd so)] else []) (b_actions fin) plan LA).
    - rewrite (flat_map_pointwise _ _ _ _ (fun o => if with_key key o then [payment_of o] else []) plan (map snd plan)).
      + rewrite flat_map_filter. apply Permutation_map. apply (Permutation_trans (filter_permutation _ _ _ _ PO)).
        rewrite filter_app.
        assert (X : filter (with_key key) os = []).
        { clear PO. induction DO as [|o os D DO IH]; [reflexivity|]. cbn [filter]. unfold with_key at 1. rewrite (do_ovk _ D). exact IH. }
        rewrite X, app_nil_r. apply Permutation_refl.
      + rewrite map_length. reflexivity.
      + intros k so o H1 H2. apply (map_nth_error snd) in H1. assert (o = snd so) by congruence. subst o. reflexivity.
    - intros k a so H1 H2. apply (W k); [|exact H1|exact H2]. apply in_seq. split; [lia|]. cbn. apply nth_error_Some. congruence.
  Qed.

  Lemma recovered_is_readable : forall A key (a : action A) n to memo k, gd_fallback_ok -> action_ok a ->
    try_output_recovery key a = Ret (Some (n, to, memo)) -> ivk_ok k -> owned_by k to -> try_note_decryption k a = Ret (Some (n, to, memo)).
  Proof using L.
    intros A key a n to memo k GD AO H K O. apply (recover_exactly L _ key a n to memo GD AO) in H as (S & T & _).
    apply (read_exactly L _ k a n to memo GD K AO). split; [exact S|]. split; [exact T|exact O].
  Qed.
End Sent.
