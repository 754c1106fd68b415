(** Proofs for C103. *)
From Coq Require Import String ZArith List Bool Lia Permutation.
From Coq Require Import Init.Byte.
From Verif Require Import Prelude PreludeFacts Fields Curve CurveFacts Oracles Spec Sinsemilla SinsSpec RedPallas Value Keys KeysSpec KeysFacts Note NoteSpec NoteFacts
  Tree TreeSpec Action NoteEnc NoteEncSpec NoteEncFacts SealedSpec SealedFacts Bundle BundleSpec Batch Builder Signing BuilderSpec BuilderFacts BuildFacts SigningSpec
  SigningFacts Circuit CircuitSpec PipelineSpec PipelineFacts LedgerSpec LedgerFacts WalletSpec WalletFacts BackedSpec BackedFacts LifeSpec LifeFacts BalanceSpec
  BalanceFacts LightSpec LightFacts SentSpec SentFacts ReceivedSpec.
Import ListNotations.
Open Scope Z_scope.

#[local] Opaque try_note_decryption try_compact_note_decryption commitment diversify_hash note_esk sins_commit sins_Q commit_R msg_words build.

Section Received.
  Context {C : Curve} {OR : @Oracles C} (L : CurveLaws C).

  Lemma read_effects : forall A B k (a : action A) (b : action B), action_effects a = action_effects b -> try_note_decryption k a = try_note_decryption k b.
  Proof.
    intros A B k a b H. Transparent try_note_decryption.
    change (try_note_decryption k a) with (try_note_decryption k (action_effects a)).
    change (try_note_decryption k b) with (try_note_decryption k (action_effects b)). rewrite H. reflexivity.
    Opaque try_note_decryption.
  Qed.
  Lemma for_key_owned : forall k ad, address_eqb (ivk_address k (ad_d ad)) ad = true <-> owned_by k ad.
  Proof using L.
    intros k [d p]. rewrite (address_eqb_eq L). unfold owned_by. cbn [ad_d ad_pk_d]. split; intro H.
    - apply (f_equal ad_pk_d) in H. symmetry. exact H.
    - rewrite H. reflexivity.
  Qed.

  Lemma key_reads_created : forall s o n0 alpha rcv (a : action signing_metadata) w k n to memo,
    gd_fallback_ok -> ivk_ok k -> action_ok a -> action_of s o n0 alpha rcv a w -> try_note_decryption k a = Ret (Some (n, to, memo)) ->
    owned_by k (n_recipient n0) \/
    two_openings (sins_Q "z.cash:Orchard-NoteCommit-M") (commit_R "z.cash:Orchard-NoteCommit") (own_opening n)
      (note_opening (mk_plain (w_g_d_new w) (w_pk_d_new w) (w_v_new w) (a_nf a) (w_psi_new w)) (w_rcm_new w)).
  Proof using L.
    intros s o n0 alpha rcv a w k n to memo GD K KA AO TD.
    apply (read_exactly L _ k a n to memo GD K KA) in TD as ((KN & _ & (_ & (cm & HC & EX) & _) & _) & -> & OW).
    destruct (ac_encrypts _ _ _ _ _ _ _ AO) as (r & e & cm0 & _ & HC0 & _ & EC & _).
    assert (EW : note_opening (mk_plain (w_g_d_new w) (w_pk_d_new w) (w_v_new w) (a_nf a) (w_psi_new w)) (w_rcm_new w) = own_opening n0).
    { destruct (ac_witness _ _ _ _ _ _ _ AO) as (c & rv & _ & _ & ->). cbn [w_g_d_new w_pk_d_new w_v_new w_psi_new w_rcm_new].
      unfold own_opening. rewrite (ac_rho _ _ _ _ _ _ _ AO). reflexivity. }
    rewrite EW. pose proof (ac_note _ _ _ _ _ _ _ AO) as KN0.
    destruct (openings_agree L (own_opening n) (own_opening n0) cm cm0) as [E|E].
    - cbn [own_opening note_opening fst]. rewrite !note_msg_length. reflexivity.
    - cbn [own_opening note_opening fst]. rewrite note_msg_length. lia.
    - apply rcm_range.
    - apply rcm_range.
    - apply note_opening_commits. exact HC.
    - apply note_opening_commits. exact HC0.
    - rewrite EX, EC. reflexivity.
    - left. apply (f_equal fst) in E. cbn [own_opening note_opening fst pn_g_d pn_pk_d pn_value pn_rho pn_psi] in E.
      apply (note_msg_inj L) in E; [|apply (no_value _ KN)|apply (no_value _ KN0)|apply (no_rho _ KN)|apply (no_rho _ KN0)|apply psi_range|apply psi_range].
      destruct E as (E1 & E2 & _). unfold owned_by in *. rewrite <- E1, <- E2. exact OW.
    - right. exact E.
  Qed.

  Theorem received_of_bundle : forall V (try_from : Z -> option V) t anchor b fuel r (bd : @unauthorized_bundle C V) meta r'
      T S (fin : bundle T S V) k,
    gd_fallback_ok -> ivk_ok k -> reachable t anchor b -> build try_from fuel b r = Ret (Ok (Some (bd, meta)), r') ->
    effects fin = effects bd ->
    Permutation (received k (b_actions fin)) (owed k b) \/ two_readings k (b_actions fin) (up_circuits (ip_proof (b_auth bd))).
  Proof using L.
    intros V tf t anchor b fuel r bd meta r' T S fin k GD K RB E EF.
    destruct (reachable_legal L _ _ _ RB) as ((_ & LO) & _).
    destruct (build_plan L _ _ _ _ _ _ _ _ _ GD RB E) as [plan B].
    pose proof (built_actions_ok L _ _ _ _ _ _ GD RB B) as AK.
    set (ws := up_circuits (ip_proof (b_auth bd))) in *.
    assert (EA : map action_effects (b_actions fin) = map action_effects (b_actions bd)) by exact (f_equal b_actions EF).
    assert (LA : length (b_actions fin) = length plan).
    { rewrite <- (map_length action_effects (b_actions fin)), EA, map_length. exact (bu_actions _ _ _ _ B). }
    destruct (bu_outputs _ _ _ _ B) as (os & PO & DO).
    assert (OOK : forall o, In o (map snd plan) -> length (o_memo o) = 512%nat).
    { intros o HI. apply (Permutation_in _ PO) in HI. apply in_app_iff in HI as [HI|HI].
      - apply (ol_memo _ _ (proj1 (Forall_forall _ _) LO o HI)).
      - rewrite (do_memo _ (proj1 (Forall_forall _ _) DO o HI)). cbn [length]. rewrite repeat_length. reflexivity. }
    assert (W : (forall i, In i (seq 0 (length plan)) -> forall a so, nth_error (b_actions fin) i = Some a -> nth_error plan i = Some so ->
        read_payment k a = (if for_key k (snd so) then [payment_of (snd so)] else [])) \/ two_readings k (b_actions fin) ws).
    { apply or_all. intros i _. destruct (nth_error plan i) as [[s o]|] eqn:EP; [|left; intros a so _ X; discriminate X].
      destruct (nth_error (b_actions fin) i) as [a|] eqn:EN; [|left; intros a so X; discriminate X].
      destruct (bu_each _ _ _ _ B i s o EP) as (a0 & w & n & alpha & rcv & A1 & A2 & AO).
      assert (EQ : action_effects a = action_effects a0).
      { pose proof EN as Y. apply (map_nth_error action_effects) in Y. apply (map_nth_error action_effects) in A1. rewrite EA in Y. congruence. }
      pose proof (proj1 (Forall_forall _ _) AK a0 (nth_error_In _ _ A1)) as KA.
      assert (IO : In o (map snd plan)) by (apply in_map_iff; exists (s, o); split; [reflexivity|exact (nth_error_In _ _ EP)]).
      destruct (ac_encrypts _ _ _ _ _ _ _ AO) as (r0 & EN0).
      destruct (address_eqb (ivk_address k (ad_d (o_recipient o))) (o_recipient o)) eqn:OW.
      - left. intros a' so X Y. assert (a' = a) by congruence. assert (so = (s, o)) by congruence. subst a' so. cbn [snd].
        unfold for_key. rewrite OW. cbn [andb]. apply for_key_owned in OW. rewrite <- (ac_recipient _ _ _ _ _ _ _ AO) in OW.
        destruct (encrypts_roundtrip L _ _ _ _ _ _ GD (ac_note _ _ _ _ _ _ _ AO) (OOK o IO) EN0) as (_ & RD & _).
        destruct (RD k K OW) as [TD _]. unfold read_payment. rewrite (read_effects _ _ k a a0 EQ), TD.
        rewrite (ac_value _ _ _ _ _ _ _ AO). unfold payment_of. rewrite (ac_recipient _ _ _ _ _ _ _ AO). destruct (o_value o =? 0); reflexivity.
      - destruct (try_note_decryption k a) as [[[[n' to] memo]|]|y|] eqn:TD.
        + right. pose proof TD as TD0. rewrite (read_effects _ _ k a a0 EQ) in TD0.
          destruct (key_reads_created s o n alpha rcv a0 w k n' to memo GD K KA AO TD0) as [X|X].
          * exfalso. rewrite (ac_recipient _ _ _ _ _ _ _ AO) in X. apply for_key_owned in X. congruence.
          * exists i, a, w, n', to, memo. split; [exact EN|]. split; [exact A2|]. split; [exact TD|].
            assert (NF : a_nf a = a_nf a0) by exact (f_equal a_nf EQ). rewrite NF. exact X.
        + left. intros a' so X Y. assert (a' = a) by congruence. assert (so = (s, o)) by congruence. subst a' so. cbn [snd].
          unfold for_key, read_payment. rewrite OW, TD. reflexivity.
        + left. intros a' so X Y. assert (a' = a) by congruence. assert (so = (s, o)) by congruence. subst a' so. cbn [snd].
          unfold for_key, read_payment. rewrite OW, TD. reflexivity.
        + left. intros a' so X Y. assert (a' = a) by congruence. assert (so = (s, o)) by congruence. subst a' so. cbn [snd].
          unfold for_key, read_payment. rewrite OW, TD. reflexivity. }
    destruct W as [W|W]; [left|right; exact W].
    unfold received, owed.
    rewrite (flat_map_pointwise _ _ _ (read_payment k) (fun so => if for_key k (snd so) then [payment_of (snd so)] else []) (b_actions fin) plan LA).
    - rewrite (flat_map_pointwise _ _ _ _ (fun o => if for_key k o then [payment_of o] else []) plan (map snd plan)).
      + rewrite flat_map_filter. apply Permutation_map. apply (Permutation_trans (filter_permutation _ _ _ _ PO)).
        rewrite filter_app.
        assert (X : filter (for_key k) os = []).
        { clear PO. induction DO as [|o os D DO IH]; [reflexivity|]. cbn [filter]. unfold for_key at 1. rewrite (do_zero _ D), andb_false_r. exact IH. }
        rewrite X, app_nil_r. apply Permutation_refl.
      + rewrite map_length. reflexivity.
      + intros i so o H1 H2. apply (map_nth_error snd) in H1. assert (o = snd so) by congruence. subst o. reflexivity.
    - intros i a so H1 H2. apply (W i); [|exact H1|exact H2]. apply in_seq. split; [lia|]. cbn. apply nth_error_Some. congruence.
  Qed.

  Theorem received_on_chain : forall V (halo2_prove : list witness -> list (list Z) -> rng -> option bytes * rng) (try_from : Z -> option V)
      k (es : list (entry C V)),
    gd_fallback_ok -> ivk_ok k -> Forall (entry_made halo2_prove try_from) es ->
    Permutation (received k (chain_actions (map en_tx es))) (flat_map (fun e => owed k (en_builder e)) es) \/
    exists e, In e es /\ two_readings k (b_actions (fst (en_tx e))) (en_witnesses e).
  Proof using L.
    intros V prove tf k es GD K F. induction F as [|e es M F IH]; [left; constructor|].
    destruct IH as [IH|(e' & I & X)]; [|right; exists e'; split; [right; exact I|exact X]].
    destruct M as (anchor & ty & fuel & r & b0 & r' & b1 & RB & E & H & FI & EW).
    destruct (history_final_effects prove b0 (snd (en_tx e)) b1 (fst (en_tx e)) (fun _ => 0) H FI) as (EF & _).
    destruct (received_of_bundle _ _ _ _ _ _ _ _ _ _ _ _ (fst (en_tx e)) k GD K RB E EF) as [X|X].
    - left. cbn [map flat_map]. change (chain_actions (en_tx e :: map en_tx es)) with (b_actions (fst (en_tx e)) ++ chain_actions (map en_tx es)).
      unfold received. rewrite flat_map_app. apply Permutation_app; [exact X|exact IH].
    - right. exists e. split; [left; reflexivity|]. rewrite EW. exact X.
  Qed.
  Lemma flat_map_map_fst : forall A X Y (f : A -> list (X * Y)) l, map fst (flat_map f l) = flat_map (fun a => map fst (f a)) l.
  Proof. intros A X Y f l. induction l as [|a l IH]; [reflexivity|]. cbn [flat_map]. rewrite map_app, IH. reflexivity. Qed.

  Theorem light_of_bundle : forall V (try_from : Z -> option V) t anchor b fuel r (bd : @unauthorized_bundle C V) meta r'
      T S (fin : bundle T S V) k,
    gd_fallback_ok -> ivk_ok k -> reachable t anchor b -> build try_from fuel b r = Ret (Ok (Some (bd, meta)), r') ->
    effects fin = effects bd ->
    light_received k (map compact_of_action (b_actions fin)) = map fst (received k (b_actions fin)) \/
    two_light_readings k (b_actions fin) (up_circuits (ip_proof (b_auth bd))).
  Proof using L.
    intros V tf t anchor b fuel r bd meta r' T S fin k GD K RB E EF.
    destruct (reachable_legal L _ _ _ RB) as ((_ & LO) & _).
    destruct (build_plan L _ _ _ _ _ _ _ _ _ GD RB E) as [plan B].
    set (ws := up_circuits (ip_proof (b_auth bd))) in *.
    assert (EA : map action_effects (b_actions fin) = map action_effects (b_actions bd)) by exact (f_equal b_actions EF).
    assert (LA : length (b_actions fin) = length plan).
    { rewrite <- (map_length action_effects (b_actions fin)), EA, map_length. exact (bu_actions _ _ _ _ B). }
    destruct (bu_outputs _ _ _ _ B) as (os & PO & DO).
    assert (OOK : forall o, In o (map snd plan) -> length (o_memo o) = 512%nat).
    { intros o HI. apply (Permutation_in _ PO) in HI. apply in_app_iff in HI as [HI|HI].
      - apply (ol_memo _ _ (proj1 (Forall_forall _ _) LO o HI)).
      - rewrite (do_memo _ (proj1 (Forall_forall _ _) DO o HI)). cbn [length]. rewrite repeat_length. reflexivity. }
    assert (W : (forall i, In i (seq 0 (length plan)) -> forall a, nth_error (b_actions fin) i = Some a ->
        read_light k (compact_of_action a) = map fst (read_payment k a)) \/ two_light_readings k (b_actions fin) ws).
    { apply or_all. intros i HI. destruct (nth_error (b_actions fin) i) as [a|] eqn:EN; [|left; intros a X; discriminate X].
      destruct (nth_error plan i) as [[s o]|] eqn:EP.
      2:{ exfalso. apply nth_error_None in EP. apply in_seq in HI. cbn in HI. lia. }
      destruct (bu_each _ _ _ _ B i s o EP) as (a0 & w & n & alpha & rcv & A1 & A2 & AO).
      assert (EQ : action_effects a = action_effects a0).
      { pose proof EN as Y. apply (map_nth_error action_effects) in Y. apply (map_nth_error action_effects) in A1. rewrite EA in Y. congruence. }
      assert (CE : compact_of_action a = compact_of_action a0).
      { change (compact_of_action a) with (compact_of_action (action_effects a)). rewrite EQ. reflexivity. }
      assert (IO : In o (map snd plan)) by (apply in_map_iff; exists (s, o); split; [reflexivity|exact (nth_error_In _ _ EP)]).
      destruct (ac_encrypts _ _ _ _ _ _ _ AO) as (r0 & EN0).
      pose proof (light_reads L _ k _ _ _ _ a0 GD K (ac_note _ _ _ _ _ _ _ AO) (OOK o IO) EN0) as LR. rewrite <- CE in LR.
      rewrite <- (read_effects _ _ k a a0 EQ) in LR.
      destruct (try_compact_note_decryption k (compact_of_action a)) as [[[n' to]|]|y|] eqn:TC; [| |destruct LR|destruct LR].
      - destruct LR as [(m & TD)|LR].
        + left. intros a' X. assert (a' = a) by congruence. subst a'. unfold read_light, read_payment. rewrite TC, TD. destruct (n_value n' =? 0); reflexivity.
        + right. exists i, a, w, n', to. split; [exact EN|]. split; [exact A2|]. split; [exact TC|].
          assert (EW : note_opening (mk_plain (w_g_d_new w) (w_pk_d_new w) (w_v_new w) (a_nf a) (w_psi_new w)) (w_rcm_new w) = own_opening n).
          { assert (NF : a_nf a = a_nf a0) by exact (f_equal a_nf EQ). rewrite NF.
            destruct (ac_witness _ _ _ _ _ _ _ AO) as (c & rv & _ & _ & ->). cbn [w_g_d_new w_pk_d_new w_v_new w_psi_new w_rcm_new].
            unfold own_opening. rewrite (ac_rho _ _ _ _ _ _ _ AO). reflexivity. }
          rewrite EW. exact LR.
      - left. intros a' X. assert (a' = a) by congruence. subst a'. unfold read_light, read_payment. rewrite TC, LR. reflexivity. }
    destruct W as [W|W]; [left|right; exact W].
    unfold light_received, received. rewrite flat_map_map_fst.
    apply flat_map_pointwise; [apply map_length|].
    intros i c a H1 H2. pose proof H2 as H3. apply (map_nth_error compact_of_action) in H3. assert (c = compact_of_action a) by congruence. subst c.
    apply (W i); [|exact H2]. apply in_seq. split; [lia|]. cbn. rewrite <- LA. apply nth_error_Some. congruence.
  Qed.

  Theorem light_received_on_chain : forall V (halo2_prove : list witness -> list (list Z) -> rng -> option bytes * rng) (try_from : Z -> option V)
      k (es : list (entry C V)),
    gd_fallback_ok -> ivk_ok k -> Forall (entry_made halo2_prove try_from) es ->
    Permutation (light_received k (compact_chain (map en_tx es))) (map fst (flat_map (fun e => owed k (en_builder e)) es)) \/
    exists e, In e es /\ (two_readings k (b_actions (fst (en_tx e))) (en_witnesses e) \/ two_light_readings k (b_actions (fst (en_tx e))) (en_witnesses e)).
  Proof using L.
    intros V prove tf k es GD K F. induction F as [|e es M F IH]; [left; constructor|].
    destruct IH as [IH|(e' & I & X)]; [|right; exists e'; split; [right; exact I|exact X]].
    destruct M as (anchor & ty & fuel & r & b0 & r' & b1 & RB & E & H & FI & EW).
    destruct (history_final_effects prove b0 (snd (en_tx e)) b1 (fst (en_tx e)) (fun _ => 0) H FI) as (EF & _).
    destruct (light_of_bundle _ _ _ _ _ _ _ _ _ _ _ _ (fst (en_tx e)) k GD K RB E EF) as [Y|Y];
      [|right; exists e; split; [left; reflexivity|right; rewrite EW; exact Y]].
    destruct (received_of_bundle _ _ _ _ _ _ _ _ _ _ _ _ (fst (en_tx e)) k GD K RB E EF) as [X|X];
      [|right; exists e; split; [left; reflexivity|left; rewrite EW; exact X]].
    left. cbn [map flat_map]. unfold compact_chain in *.
    change (chain_actions (en_tx e :: map en_tx es)) with (b_actions (fst (en_tx e)) ++ chain_actions (map en_tx es)).
    unfold light_received in *. rewrite map_app, flat_map_app, map_app. apply Permutation_app; [|exact IH].
    rewrite Y. apply Permutation_map. exact X.
  Qed.
End Received.
