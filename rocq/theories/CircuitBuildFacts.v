(** Every witness the builder stores satisfies the circuit (C50); value conservation (C51);
    one nullifier per note (C54). *)
From Coq Require Import String ZArith List Bool Lia Permutation.
From Verif Require Import Prelude PreludeFacts Spec NumTheory Fields FieldFacts Curve CurveFacts Oracles Sinsemilla SinsSpec
  SinsFacts RedPallas Value ValueFacts Keys KeysSpec KeysFacts Note NoteSpec NoteFacts Tree TreeFacts TreeSpec Action NoteEnc NoteEncSpec
  Bundle BundleFacts Builder BuilderSpec BuilderFacts BuildFacts Halo2 Halo2Facts Circuit CircuitSpec CircuitFacts.
Import ListNotations.
Open Scope Z_scope.

Section Facts.
  Context {C : Curve} {OR : @Oracles C} (L : CurveLaws C).
  #[local] Opaque sins_hash_words sins_Q msg_words.

  Lemma canonical_bits : forall x, is_base x -> bits_val (le_bits 255 x) mod pmod = x.
  Proof.
    intros x H. pose proof pmod_lt_pow255. unfold is_base in H.
    rewrite bits_val_le_bits by (change (Z.of_nat 255) with 255; lia). apply Z.mod_small. exact H.
  Qed.

  Lemma native_path : forall sibs pos l node, is_base node -> Forall is_base sibs ->
    path_valid l node (List.combine sibs (le_bits (length sibs) (pos / 2 ^ Z.of_nat l))) (root_loop pos l node sibs) \/
    (exists h a b, In (h, a, b) (root_inputs pos l node sibs) /\
       sins_hash "z.cash:Orchard-MerkleCRH" (merkle_msg h a b) = None).
  Proof.
    induction sibs as [|s sibs IH]; intros pos l node Hn Hs.
    - left. reflexivity.
    - apply Forall_cons_iff in Hs as [Hs HS]. cbn [length le_bits List.combine root_inputs root_loop].
      assert (HD : pos / 2 ^ Z.of_nat l / 2 = pos / 2 ^ Z.of_nat (S l)).
      { pose proof (pow2_pos l). rewrite Z.div_div by lia. f_equal. rewrite pow2_S. ring. }
      rewrite HD. cbv zeta. rewrite land_even. rewrite <- Z.negb_even.
      set (ev := Z.even (pos / 2 ^ Z.of_nat l)).
      set (lt := if negb ev then s else node). set (rt := if negb ev then node else s).
      assert (HL : is_base lt) by (unfold lt; destruct ev; assumption).
      assert (HR : is_base rt) by (unfold rt; destruct ev; assumption).
      assert (E1 : (if ev then (node, s) else (s, node)) = (lt, rt)) by (unfold lt, rt; destruct ev; reflexivity).
      assert (E2 : (if ev then combine l node s else combine l s node) = combine l lt rt)
        by (unfold lt, rt; destruct ev; reflexivity).
      rewrite E1, E2. cbn [fst snd path_valid]. fold lt rt.
      destruct (sins_hash "z.cash:Orchard-MerkleCRH" (merkle_msg l lt rt)) as [y|] eqn:E.
      + assert (EC : combine l lt rt = y) by (unfold combine; rewrite E; reflexivity). rewrite EC.
        assert (Hy : is_base y).
        { unfold sins_hash in E. destruct (sins_hash_to_point _ _) as [P|]; [|discriminate E]. cbn [option_map] in E.
          assert (X : y = pt_x P) by (unfold extract_p in E; congruence). rewrite X. apply (x_range L). }
        destruct (IH pos (S l) y Hy HS) as [X|(h & a & b & I & X)].
        * left. exists (le_bits 255 lt), (le_bits 255 rt), y. split; [apply le_bits_length|]. split; [apply le_bits_length|].
          split; [apply canonical_bits; exact HL|]. split; [apply canonical_bits; exact HR|]. split; [exact E|exact X].
        * right. exists h, a, b. split; [right; exact I|exact X].
      + right. exists l, lt, rt. split; [left; reflexivity|exact E].
  Qed.

  Lemma owner_ivk : forall f s a, fvk_ok f -> derives f s a ->
    exists rivk ivk, fvk_rivk_scope f s = Ret rivk /\ is_scalar rivk /\
      commit_ivk (pt_x (fvk_ak f)) (fvk_nk f) rivk = Some ivk /\ ad_pk_d a = pt_mul ivk (diversify_hash (ad_d a)).
  Proof.
    intros f s a HF (j & HJ & E). unfold fvk_address_at in E.
    destruct s.
    - destruct (fvk_ok_ext f HF) as [k Hk]. destruct (kapk_from_fvk_ret L f k Hk) as [HK _].
      cbn [fvk_to_ivk] in E. unfold ivk_from_fvk in E. rewrite HK in E. cbn [obind] in E.
      exists (fvk_rivk f), k. split; [reflexivity|]. split; [apply (fo_rivk f HF)|].
      apply ivk_derive_inner_spec in Hk as [Hk _]. split; [exact Hk|].
      assert (X : a = kapk_address k (dk_get (fst (derive_dk_ovk f)) j)) by (unfold ivk_address_at, ivk_address in E; cbn [ivk_ivk ivk_dk] in E; congruence).
      rewrite X. reflexivity.
    - destruct (fvk_ok_int L f HF) as (fi & k & HD & HA & HN & HR & HS & Hk). destruct (kapk_from_fvk_ret L fi k Hk) as [HK _].
      cbn [fvk_to_ivk] in E. rewrite HD in E. cbn [obind] in E. unfold ivk_from_fvk in E. rewrite HK in E. cbn [obind] in E.
      exists (fvk_rivk fi), k. split; [exact HR|]. split; [exact HS|].
      apply ivk_derive_inner_spec in Hk as [Hk _]. rewrite HA, HN in Hk. split; [exact Hk|].
      assert (X : a = kapk_address k (dk_get (fst (derive_dk_ovk fi)) j)) by (unfold ivk_address_at, ivk_address in E; cbn [ivk_ivk ivk_dk] in E; congruence).
      rewrite X. reflexivity.
  Qed.

  (** A spend the circuit can handle. *)
  Record provable (f : flags) (anchor : Z) (s : spend_info) : Prop := {
    pv_fvk : fvk_ok (s_fvk s);
    pv_note : note_ok (s_note s);
    pv_path : path_ok (s_path s);
    pv_owner : derives (s_fvk s) (s_scope s) (n_recipient (s_note s));
    pv_witnessed : witnessed (s_note s) (s_path s) anchor;
    pv_enabled : n_value (s_note s) = 0 \/ spends_enabled f = true
  }.

  Lemma legal_provable : forall t anchor s, spend_legal t anchor s -> provable (bt_flags t) anchor s.
  Proof.
    intros t anchor s H. constructor.
    - apply (sl_fvk _ _ _ H).
    - apply (sl_note _ _ _ H).
    - apply (sl_path _ _ _ H).
    - pose proof (sl_owner _ _ _ H) as O. destruct (s_scope s); [exact O|exact (proj1 O)].
    - apply (sl_witnessed _ _ _ H).
    - right. apply (sl_enabled _ _ _ H).
  Qed.

  Lemma dummy_provable : forall f anchor s, basepoint SpendAuth <> pt_id -> dummy_spend s -> provable f anchor s.
  Proof.
    intros f anchor s G H. destruct (ds_fresh _ H) as (sk & _ & (FS & _) & FV). constructor.
    - apply (sk_fvk_ok L sk sk); assumption.
    - apply (ds_note _ H).
    - apply (ds_path _ H).
    - rewrite (ds_scope _ H). exists (div_index_of_u32 0). split; [reflexivity|apply (ds_recipient _ H)].
    - left. apply (ds_zero _ H).
    - left. apply (ds_zero _ H).
  Qed.

  (** The instance and the stored witness of an action are in the Action statement. *)
  Lemma action_in_statement : forall f anchor s o n alpha rcv a w,
    gd_fallback_ok -> provable f anchor s -> (o_value o = 0 \/ outputs_enabled f = true) ->
    action_of s o n alpha rcv a w ->
    (action_statement (to_instance a f anchor) w /\
     (w_v_old w = 0 \/ mp_root (mk_path (w_pos w) (w_path w)) (pt_x (w_cm_old w)) = anchor)) \/
    (exists h x y, In (h, x, y) (root_inputs (w_pos w) 0 (pt_x (w_cm_old w)) (w_path w)) /\
       sins_hash "z.cash:Orchard-MerkleCRH" (merkle_msg h x y) = None).
  Proof.
    intros f anchor s o n alpha rcv a w GD [F1 F2 F3 F4 F5 F6] HO A.
    destruct A as [A1 A2 A3 A4 A5 A6 A7 A8 A9 (r & e & cmn & _ & CN & _ & CX & _) _ _ (cm & rivk & CM & RV & ->)].
    destruct (owner_ivk _ _ _ F1 F4) as (rivk' & ivk & RV' & SR & CI & PK).
    assert (rivk' = rivk) by congruence. subst rivk'.
    cbn [w_path w_pos w_g_d_old w_pk_d_old w_v_old w_rho_old w_psi_old w_rcm_old w_cm_old
      w_alpha w_ak w_nk w_rivk w_g_d_new w_pk_d_new w_v_new w_psi_new w_rcm_new w_rcv].
    destruct (native_path (mp_auth_path (s_path s)) (mp_position (s_path s)) 0 (pt_x cm) (x_range L cm) (po_elems _ F3))
      as [PV|X]; [|right; exact X].
    change (2 ^ Z.of_nat 0) with 1 in PV. rewrite Z.div_1_r, (po_length _ F3) in PV.
    assert (RT : n_value (s_note s) = 0 \/ mp_root (mk_path (mp_position (s_path s)) (mp_auth_path (s_path s))) (pt_x cm) = anchor).
    { destruct F5 as [F5|(cm' & CM' & RT)]; [left; exact F5|right]. assert (cm' = cm) by congruence. subst cm'. exact RT. }
    left. split; [|exact RT].
    assert (CM' : commitment_inner (s_note s) = Some cm).
    { unfold commitment in CM. destruct (commitment_inner (s_note s)) as [P|]; [|discriminate CM]. cbn [unwrap] in CM. congruence. }
    assert (CN' : commitment_inner n = Some cmn).
    { unfold commitment in CN. destruct (commitment_inner n) as [P|]; [|discriminate CN]. cbn [unwrap] in CN. congruence. }
    assert (NF : nf_derive (fvk_nk (s_fvk s)) (n_rho (s_note s)) (rseed_psi (n_rseed (s_note s)) (n_rho (s_note s))) cm = Ret (a_nf a)).
    { unfold note_nullifier in A1. rewrite CM in A1. exact A1. }
    constructor; cbn [w_path w_pos w_g_d_old w_pk_d_old w_v_old w_rho_old w_psi_old w_rcm_old w_cm_old
      w_alpha w_ak w_nk w_rivk w_g_d_new w_pk_d_new w_v_new w_psi_new w_rcm_new w_rcv
      to_instance i_anchor i_cv_net i_nf_old i_rk i_cmx i_enable_spend i_enable_output].
    - split; [apply (diversify_hash_nonid L); exact GD|]. split; [apply (no_recipient _ F2)|]. split; [apply (no_rho _ F2)|].
      split; [apply psi_range|apply rcm_range].
    - split; [apply (fo_ak _ F1)|]. split; [apply (fo_nk _ F1)|]. split; [exact SR|]. split; [exact A4|exact A5].
    - split; [apply (diversify_hash_nonid L); exact GD|]. split; [apply (no_recipient _ A6)|].
      split; [apply psi_range|apply rcm_range].
    - split; [apply (po_length _ F3)|]. split; [apply (po_elems _ F3)|apply (po_position _ F3)].
    - split; [apply (no_value _ F2)|apply (no_value _ A6)].
    - exact CM'.
    - destruct RT as [RT|RT]; [left; exact RT|right]. rewrite <- RT. exact PV.
    - rewrite (derive_cv_ret L).
      + unfold cv_of. rewrite A8, <- A3. reflexivity.
      + pose proof (no_value _ F2) as U1. pose proof (no_value _ A6) as U2. unfold is_u64, value_sum_ok in *. lia.
    - exact NF.
    - exact A2.
    - exists ivk. split; [exact CI|exact PK].
    - exists cmn. split; [|exact CX]. rewrite <- A9. exact CN'.
    - exact F6.
    - rewrite A8. exact HO.
  Qed.

  Section V.
    Context {V : Type} (try_from : Z -> option V).

    Lemma planned_provable : forall t anchor b plan (bd : @unauthorized_bundle C V) meta k s o,
      basepoint SpendAuth <> pt_id -> reachable t anchor b -> built b plan bd meta -> nth_error plan k = Some (s, o) ->
      provable (bt_flags t) anchor s /\ (o_value o = 0 \/ outputs_enabled (bt_flags t) = true).
    Proof.
      intros t anchor b plan bd meta k s o G RB B HK. destruct (reachable_legal L _ _ _ RB) as ((LS & LO) & TB & AB).
      rewrite TB in LS, LO. rewrite AB in LS. apply nth_error_In in HK. split.
      - destruct (bu_spends _ _ _ _ B) as (ds & PM & DS).
        assert (I : In s (bl_spends b ++ ds)).
        { apply (Permutation_in _ PM). apply in_map_iff. exists (s, o). auto. }
        apply in_app_or in I as [I|I].
        + apply legal_provable. exact (proj1 (Forall_forall _ _) LS s I).
        + apply dummy_provable; [exact G|]. exact (proj1 (Forall_forall _ _) DS s I).
      - destruct (bu_outputs _ _ _ _ B) as (os & PM & DS).
        assert (I : In o (bl_outputs b ++ os)).
        { apply (Permutation_in _ PM). apply in_map_iff. exists (s, o). auto. }
        apply in_app_or in I as [I|I].
        + right. apply (ol_enabled _ _ (proj1 (Forall_forall _ _) LO o I)).
        + left. apply (do_zero _ (proj1 (Forall_forall _ _) DS o I)).
    Qed.

    Theorem builder_complete : forall t anchor b fuel r bd meta r' k a w inst,
      gd_fallback_ok -> basepoint SpendAuth <> pt_id -> is_base anchor -> reachable t anchor b ->
      build try_from fuel b r = Ret (Ok (Some (bd, meta)), r') ->
      nth_error (b_actions bd) k = Some a -> nth_error (up_circuits (ip_proof (b_auth bd))) k = Some w ->
      to_halo2_instance (to_instance a (b_flags bd) (b_anchor bd)) = Ret inst ->
      (action_statement (to_instance a (b_flags bd) (b_anchor bd)) w /\
       exists c, synthesize w = Some c /\ circuit_sat inst c /\ cells_witness c = w) \/
      (exists h x y, In (h, x, y) (root_inputs (w_pos w) 0 (pt_x (w_cm_old w)) (w_path w)) /\
         sins_hash "z.cash:Orchard-MerkleCRH" (merkle_msg h x y) = None).
    Proof.
      intros t anchor b fuel r bd meta r' k a w inst GD G HA RB E KA KW HI.
      destruct (build_shape L try_from _ _ _ _ _ _ _ GD RB E) as (n & _ & _ & SH).
      destruct (SH bd meta eq_refl) as (_ & FL & AN). rewrite FL, AN in *.
      destruct (build_plan L try_from _ _ _ _ _ _ _ _ GD RB E) as [plan B].
      destruct (each_action _ _ _ _ _ _ B KA) as (s & o & w' & n' & alpha & rcv & P1 & P2 & A).
      assert (w' = w) by congruence. subst w'.
      destruct (planned_provable _ _ _ _ _ _ _ _ _ G RB B P1) as (PV & OV).
      destruct (action_in_statement _ _ _ _ _ _ _ _ _ GD PV OV A) as [(ST & RT)|X]; [|right; exact X].
      destruct (circuit_complete L (to_instance a (bt_flags t) anchor) inst w HA HI ST RT) as [(c & X)|X]; [left|right; exact X].
      split; [exact ST|]. exists c. exact X.
    Qed.
  End V.
End Facts.

Section Consequences.
  Context {C : Curve} {OR : @Oracles C} (L : CurveLaws C).
  #[local] Opaque sins_hash_words sins_Q msg_words.

  (** * Membership: what a satisfied circuit says about a real tree (C49) *)

  Definition MQ := sins_Q "z.cash:Orchard-MerkleCRH".

  Lemma base_255 : forall x, is_base x -> 0 <= x < 2 ^ Z.of_nat 255.
  Proof. intros x H. pose proof pmod_lt_pow255. unfold is_base in H. change (Z.of_nat 255) with 255. lia. Qed.

  Lemma chip_binds : forall layers sibs pos l node x root, is_base node -> is_base x -> Forall is_base sibs ->
    length sibs = length layers -> map ml_swap layers = le_bits (length layers) (pos / 2 ^ Z.of_nat l) ->
    merkle_chip "z.cash:Orchard-MerkleCRH" (Z.of_nat l) node layers root -> root_loop pos l x sibs = root ->
    node = x \/
    (exists Q ws, In (Q, ws) (layer_hashes (Z.of_nat l) layers) /\ sins_exception Q ws) \/
    (exists h m a b, nth_error layers h = Some m /\ In ((l + h)%nat, a, b) (root_inputs pos l x sibs) /\
       (sins_relation MQ (layer_words (Z.of_nat (l + h)) m) (msg_words (merkle_msg (l + h) a b)) \/
        sins_exception MQ (msg_words (merkle_msg (l + h) a b)))).
  Proof.
    induction layers as [|m layers IH]; intros [|s sibs] pos l node x root Hn Hx Hs LS MS MC RL; try discriminate LS.
    - left. cbn [merkle_chip root_loop] in *. congruence.
    - apply Forall_cons_iff in Hs as [Hs HS]. cbn [length map le_bits] in MS, LS.
      assert (HD : pos / 2 ^ Z.of_nat l / 2 = pos / 2 ^ Z.of_nat (S l)).
      { pose proof (pow2_pos l). rewrite Z.div_div by lia. f_equal. rewrite pow2_S. ring. }
      rewrite HD in MS. assert (MS1 : ml_swap m = Z.odd (pos / 2 ^ Z.of_nat l)) by congruence.
      assert (MS2 : map ml_swap layers = le_bits (length layers) (pos / 2 ^ Z.of_nat (S l))) by congruence. clear MS.
      cbn [merkle_chip] in MC. destruct MC as (Hsib & (RP1 & RP2 & P & HP & HO) & MC).
      replace (Z.of_nat l + 1) with (Z.of_nat (S l)) in MC by lia.
      cbn [layer_hashes root_loop root_inputs] in *. replace (Z.of_nat l + 1) with (Z.of_nat (S l)) by lia.
      cbv zeta. rewrite land_even in RL. rewrite MS1 in RP1, RP2. rewrite <- Z.negb_even in RP1, RP2.
      set (ev := Z.even (pos / 2 ^ Z.of_nat l)) in *.
      set (lt := if ev then x else s) in *. set (rt := if ev then s else x) in *.
      assert (HL : is_base lt) by (unfold lt; destruct ev; assumption).
      assert (HR : is_base rt) by (unfold rt; destruct ev; assumption).
      assert (E1 : (if ev then (x, s) else (s, x)) = (lt, rt)) by (unfold lt, rt; destruct ev; reflexivity).
      assert (E2 : (if ev then combine l x s else combine l s x) = combine l lt rt)
        by (unfold lt, rt; destruct ev; reflexivity).
      rewrite E2 in RL. rewrite E1. cbn [fst snd].
      assert (HC : is_base (combine l lt rt)).
      { unfold combine, sins_hash. destruct (sins_hash_to_point _ _) as [P0|]; cbn [option_map].
        - apply (x_range L).
        - pose proof pmod_pos. unfold is_base. lia. }
      assert (Ho : is_base (ml_out m)) by (rewrite HO; apply (x_range L)).
      destruct (IH sibs pos (S l) (ml_out m) (combine l lt rt) root Ho HC HS (eq_add_S _ _ LS) MS2 MC RL)
        as [X|[(Q & ws & I & X)|(h & m' & a & b & N & I & X)]].
      + unfold hash_chip in HP. fold MQ in HP.
        destruct (sins_hash_words MQ (layer_words (Z.of_nat l) m)) as [P'|] eqn:E.
        2:{ right. left. eexists _, _. split; [left; reflexivity|]. apply (hash_words_none L); [apply msg_words_range|exact E]. }
        specialize (HP P' eq_refl). subst P'.
        assert (E0 : sins_hash "z.cash:Orchard-MerkleCRH" (merkle_msg l (ml_left m) (ml_right m)) = Some (ml_out m)).
        { unfold sins_hash, sins_hash_to_point, merkle_msg. fold MQ. unfold layer_words in E. rewrite E, HO. reflexivity. }
        destruct (list_eq_dec bool_dec (merkle_msg l (ml_left m) (ml_right m)) (merkle_msg l lt rt)) as [EQ|NE].
        * left. unfold merkle_msg in EQ. apply app_inv_head in EQ.
          apply app_inj_len in EQ as [Q1 Q2]; [|rewrite !le_bits_length; reflexivity].
          apply (le_bits_inj 255) in Q1; [|apply RP1|exact (base_255 _ HL)].
          apply (le_bits_inj 255) in Q2; [|apply RP2|exact (base_255 _ HR)].
          destruct RP1 as [_ V1]. destruct RP2 as [_ V2]. rewrite Q1 in V1. rewrite Q2 in V2.
          unfold lt, rt in V1, V2. destruct ev; cbn [negb] in V1, V2.
          -- symmetry. apply vanishes_eq; assumption.
          -- symmetry. apply vanishes_eq; assumption.
        * right. right. exists 0%nat, m, lt, rt. split; [reflexivity|]. rewrite Nat.add_0_r. split; [left; reflexivity|].
          destruct (sins_hash "z.cash:Orchard-MerkleCRH" (merkle_msg l lt rt)) as [y|] eqn:EN.
          -- left. assert (y = ml_out m) by (rewrite X; unfold combine; rewrite EN; reflexivity). subst y.
             change (layer_words (Z.of_nat l) m) with (msg_words (merkle_msg l (ml_left m) (ml_right m))).
             apply (hash_collision L "z.cash:Orchard-MerkleCRH" _ _ (ml_out m)); try assumption.
             ++ unfold merkle_msg. rewrite !app_length, !le_bits_length. reflexivity.
             ++ unfold merkle_msg. rewrite !app_length, !le_bits_length. lia.
          -- right. apply (hash_undefined L). exact EN.
      + right. left. exists Q, ws. split; [right; exact I|exact X].
      + right. right. exists (S h), m', a, b. rewrite Nat.add_succ_r. split; [exact N|]. split; [right; exact I|exact X].
  Qed.

  Lemma node_base : forall leaves, (forall p, is_base (leaves p)) -> forall h j, is_base (node leaves h j).
  Proof.
    intros leaves HB. induction h as [|h IH]; intro j; [apply HB|]. cbn [node]. unfold combine, sins_hash.
    destruct (sins_hash_to_point _ _) as [P0|]; cbn [option_map]; [apply (x_range L)|pose proof pmod_pos; unfold is_base; lia].
  Qed.
  Lemma auth_path_base : forall leaves, (forall p, is_base (leaves p)) -> forall pos n, Forall is_base (auth_path leaves pos n).
  Proof.
    intros leaves HB pos n. unfold auth_path. apply Forall_forall. intros y I. apply in_map_iff in I as (h & <- & _).
    apply node_base. exact HB.
  Qed.
  Lemma auth_path_length : forall leaves pos n, length (auth_path leaves pos n) = n.
  Proof. intros. unfold auth_path. rewrite map_length, seq_length. reflexivity. Qed.

  #[local] Opaque node tree_root auth_path root_loop root_inputs.

  Theorem membership : forall i inst k leaves, is_base (i_anchor i) -> to_halo2_instance i = Ret inst ->
    circuit_sat inst k -> k_v_old k <> 0 -> (forall p, is_base (leaves p)) -> i_anchor i = tree_root leaves 32 ->
    let pos := bits_val (map ml_swap (k_layers k)) in
    0 <= pos < 2 ^ 32 /\
    (pt_x (k_cm_old k) = leaves pos \/ undefined_hash k \/
     exists h m a b, nth_error (k_layers k) h = Some m /\
       In (h, a, b) (root_inputs pos 0 (leaves pos) (auth_path leaves pos 32)) /\
       (sins_relation (sins_Q "z.cash:Orchard-MerkleCRH") (layer_words (Z.of_nat h) m) (msg_words (merkle_msg h a b)) \/
        sins_exception (sins_Q "z.cash:Orchard-MerkleCRH") (msg_words (merkle_msg h a b)))).
  Proof.
    intros i inst k leaves Ha HI S NV HB HA pos.
    pose proof (cs_depth _ _ S) as LEN. change merkle_depth with 32%nat in LEN.
    assert (RP : 0 <= pos < 2 ^ 32).
    { pose proof (bits_val_range (map ml_swap (k_layers k))) as R. rewrite map_length, LEN in R. exact R. }
    split; [exact RP|].
    assert (RT : k_root k = i_anchor i).
    { rewrite (halo2_instance_ret L) in HI. destruct (pt_is_id (i_rk i)); [discriminate HI|].
      assert (E : inst = [i_anchor i; pt_x (i_cv_net i); pt_y (i_cv_net i); i_nf_old i; pt_x (i_rk i); pt_y (i_rk i);
              i_cmx i; Z.b2z (i_enable_spend i); Z.b2z (i_enable_output i)]) by congruence. clear HI. subst inst.
      pose proof (cs_checks _ _ S) as G. unfold orchard_gate, orchard_region in G.
      cbn [query at_cell fst snd Nat.eqb andb nth ANCHOR ENABLE_SPEND ENABLE_OUTPUT] in G. cbv zeta in G.
      rewrite !gate_cons in G. destruct G as (_ & G & _).
      apply (vanishes_prod _ _ (cs_v_old _ _ S)) in G as [G|G]; [contradiction|].
      apply vanishes_eq; [|exact Ha|exact G]. exact (merkle_root_base L _ _ _ _ _ (x_range L _) (cs_merkle _ _ S)). }
    pose proof (path_gives_root leaves pos RP) as PG. rewrite <- HA, <- RT in PG. unfold mp_root in PG.
    cbn [mp_position mp_auth_path] in PG.
    destruct (chip_binds (k_layers k) (auth_path leaves pos 32) pos 0 (pt_x (k_cm_old k)) (leaves pos) (k_root k))
      as [X|[X|X]].
    - apply (x_range L).
    - apply HB.
    - apply auth_path_base. exact HB.
    - rewrite auth_path_length, LEN. reflexivity.
    - change (2 ^ Z.of_nat 0) with 1. rewrite Z.div_1_r. unfold pos. rewrite le_bits_bits_val; [reflexivity|apply map_length].
    - apply (cs_merkle _ _ S).
    - exact PG.
    - left. exact X.
    - right. left. destruct X as (Q & ws & I & X). exists Q, ws. split; [|exact X]. unfold circuit_hashes.
      apply in_or_app. left. exact I.
    - right. right. destruct X as (h & m & a & b & N & I & X). exists h, m, a, b. split; [exact N|]. split; [exact I|exact X].
  Qed.

  (** * Value conservation (C51) *)

  Definition net (w : witness) : Z := w_v_old w - w_v_new w.

  Lemma statement_cvs : forall {A} (l : list (action A)) f anchor ws,
    Forall2 action_statement (map (fun a => to_instance a f anchor) l) ws ->
    map a_cv l = map (fun vr => cv_of (fst vr) (snd vr)) (map (fun w => (net w, w_rcv w)) ws) /\
    Forall (fun w => is_u64 (w_v_old w) /\ is_u64 (w_v_new w)) ws /\ length ws = length l.
  Proof.
    induction l as [|a l IH]; intros f anchor ws H; inversion H as [|x w l1 ws' S H']; subst; clear H.
    - split; [reflexivity|]. split; [constructor|reflexivity].
    - destruct (IH _ _ _ H') as (E & F & LE). cbn [map fst snd length]. rewrite E, LE.
      destruct (st_values _ _ S) as (U1 & U2).
      split; [|split; [constructor; [split; assumption|exact F]|reflexivity]]. f_equal.
      pose proof (st_cv _ _ S) as CV. rewrite (derive_cv_ret L) in CV.
      + cbn [to_instance i_cv_net] in CV. unfold net. congruence.
      + unfold is_u64, value_sum_ok in *. lia.
  Qed.

  Lemma net_bound : forall ws, Forall (fun w : witness => is_u64 (w_v_old w) /\ is_u64 (w_v_new w)) ws ->
    - (Z.of_nat (length ws) * 2 ^ 64) <= zsum (map net ws) <= Z.of_nat (length ws) * 2 ^ 64.
  Proof.
    induction ws as [|w ws IH]; intro F; [cbn; lia|]. apply Forall_cons_iff in F as [[U1 U2] F].
    specialize (IH F). cbn [map zsum length]. 
    assert (- 2 ^ 64 <= net w <= 2 ^ 64) by (unfold net, is_u64 in *; lia). clear -IH H. lia.
  Qed.

  Lemma q_big : 2 ^ 250 < qmod. Proof. vm_compute. reflexivity. Qed.

  Theorem value_conserved : forall {T S V} (into : V -> Z) (b : bundle T S V) ws bsk,
    Forall2 action_statement (to_instances b) ws ->
    i64_ok (into (b_value_balance b)) -> Z.of_nat (length (b_actions b)) < 2 ^ 180 ->
    binding_validating_key into b = Ret (vk_of Binding bsk) ->
    let surplus := zsum (map w_v_old ws) - zsum (map w_v_new ws) - into (b_value_balance b) in
    surplus = 0 \/
    (surplus mod qmod <> 0 /\ pt_mul surplus value_base_V = pt_mul (bsk - zsum (map w_rcv ws)) value_base_R).
  Proof.
    intros T S V into b ws bsk H VB LB BK surplus. unfold to_instances in H.
    destruct (statement_cvs _ _ _ _ H) as (E & F & LE). clear H.
    pose proof (net_bound ws F) as NB. rewrite LE in NB.
    assert (ES : zsum (map net ws) = zsum (map w_v_old ws) - zsum (map w_v_new ws)).
    { clear. induction ws as [|w ws IH]; [reflexivity|]. cbn [map zsum]. unfold net at 1. lia. }
    destruct (Z.eq_dec surplus 0) as [Z0|NZ]; [left; exact Z0|right]. split.
    - intro M. apply NZ. apply Z.mod_divide in M as [c M]; [|pose proof qmod_pos; lia].
      pose proof q_big as QB. unfold i64_ok in VB.
      assert (BD : - 2 ^ 246 < surplus < 2 ^ 246).
      { assert (2 ^ 180 * 2 ^ 64 = 2 ^ 244) by reflexivity. subst surplus. rewrite <- ES. clear -NB VB LB H. nia. }
      assert (c = 0) by (clear -M BD QB; nia). subst c. lia.
    - unfold binding_validating_key, value_sum_from_raw in BK.
      rewrite (derive_cv_ret L) in BK by (unfold i64_ok, value_sum_ok in *; lia). cbn [obind] in BK.
      rewrite (into_bvk_ret L), E, (cv_sum_of L), !map_map in BK. cbn [fst snd] in BK.
      assert (BK' : cv_sub (cv_of (zsum (map net ws)) (zsum (map w_rcv ws))) (cv_of (into (b_value_balance b)) 0) = vk_of Binding bsk).
      { assert (RI : forall X Y : point, Ret X = Ret Y -> X = Y) by (intros; congruence). exact (RI _ _ BK). }
      change (vk_of Binding bsk) with (pt_mul bsk value_base_R) in BK'.
      clear BK. unfold cv_sub, cv_of in BK'. rewrite mul_0, (add_id_r L), ES in BK'. subst surplus.
      set (D := zsum (map w_v_old ws) - zsum (map w_v_new ws)) in *. set (vb := into (b_value_balance b)) in *.
      set (R := value_base_R) in *. set (VV := value_base_V) in *. set (rs := zsum (map w_rcv ws)) in *.
      rewrite (mul_sub L D vb), (mul_sub L bsk rs), <- BK'. unfold pt_sub.
      rewrite (add_comm L (pt_mul D VV) (pt_mul rs R)).
      rewrite <- !(add_assoc L). rewrite (add_comm L (pt_mul rs R)).
      rewrite <- !(add_assoc L), (add_neg_l L), (add_id_r L). reflexivity.
  Qed.

  Theorem disabled_side_is_empty : forall {T S V} (b : bundle T S V) ws,
    Forall2 action_statement (to_instances b) ws ->
    (spends_enabled (b_flags b) = false -> Forall (fun w => w_v_old w = 0) ws) /\
    (outputs_enabled (b_flags b) = false -> Forall (fun w => w_v_new w = 0) ws).
  Proof.
    intros T S V b ws. unfold to_instances. generalize (b_actions b). intros l H. revert ws H.
    induction l as [|a l IH]; intros ws H; inversion H as [|x w l1 ws' ST H']; subst; clear H.
    - split; intro; constructor.
    - destruct (IH _ H') as [I1 I2].
      pose proof (st_enable_spend _ _ ST) as E1. pose proof (st_enable_output _ _ ST) as E2.
      cbn [to_instance i_enable_spend i_enable_output] in E1, E2.
      split; intro F; [specialize (I1 F)|specialize (I2 F)]; (constructor; [|assumption]).
      + destruct E1 as [E1|E1]; [exact E1|rewrite E1 in F; discriminate F].
      + destruct E2 as [E2|E2]; [exact E2|rewrite E2 in F; discriminate F].
  Qed.

  (** * Nullifiers (C54) *)

  Theorem nullifier_unique : forall i1 w1 i2 w2, action_statement i1 w1 -> action_statement i2 w2 ->
    pt_x (w_cm_old w1) = pt_x (w_cm_old w2) ->
    let m w := note_commit_msg (pt_encode (w_g_d_old w)) (pt_encode (w_pk_d_old w)) (w_v_old w) (w_rho_old w) (w_psi_old w) in
    let mk w := commit_ivk_msg (pt_x (w_ak w)) (w_nk w) in
    i_nf_old i1 = i_nf_old i2 \/
    sins_relation_R (sins_Q "z.cash:Orchard-NoteCommit-M") (commit_R "z.cash:Orchard-NoteCommit")
      (msg_words (m w1)) (msg_words (m w2)) (w_rcm_old w1) (w_rcm_old w2) \/
    sins_relation_R (sins_Q "z.cash:Orchard-CommitIvk-M") (commit_R "z.cash:Orchard-CommitIvk")
      (msg_words (mk w1)) (msg_words (mk w2)) (w_rivk w1) (w_rivk w2).
  Proof.
    intros i1 w1 i2 w2 S1 S2 HX m mk.
    destruct (st_old_types _ _ S1) as (G1 & K1 & R1 & P1 & C1). destruct (st_old_types _ _ S2) as (G2 & K2 & R2 & P2 & C2).
    destruct (st_key_types _ _ S1) as (A1 & N1 & I1 & _). destruct (st_key_types _ _ S2) as (A2 & N2 & I2 & _).
    destruct (st_values _ _ S1) as (V1 & _). destruct (st_values _ _ S2) as (V2 & _).
    pose proof (st_cm_old _ _ S1) as CM1. pose proof (st_cm_old _ _ S2) as CM2. unfold note_commitment_derive in CM1, CM2.
    destruct (list_eq_dec bool_dec (m w1) (m w2)) as [EM|NM].
    2:{ right. left. apply (commit_collision L "z.cash:Orchard-NoteCommit" _ _ _ _ (w_cm_old w1) (w_cm_old w2)); try assumption.
        - unfold m. rewrite !note_msg_length. reflexivity.
        - unfold m. rewrite note_msg_length. lia.
        - intro X. apply NM. congruence. }
    destruct (Z.eq_dec (w_rcm_old w1 mod qmod) (w_rcm_old w2 mod qmod)) as [ER|NR].
    2:{ right. left. apply (commit_collision L "z.cash:Orchard-NoteCommit" _ _ _ _ (w_cm_old w1) (w_cm_old w2)); try assumption.
        - unfold m. rewrite !note_msg_length. reflexivity.
        - unfold m. rewrite note_msg_length. lia.
        - intro X. apply NR. congruence. }
    assert (ER' : w_rcm_old w1 = w_rcm_old w2).
    { unfold is_scalar in C1, C2. rewrite !Z.mod_small in ER by assumption. exact ER. }
    assert (EC : w_cm_old w1 = w_cm_old w2).
    { fold (m w1) in CM1. fold (m w2) in CM2. rewrite EM, ER' in CM1. congruence. }
    unfold m in EM. apply (note_msg_inj L) in EM; try assumption. destruct EM as (EG & EK & EV & EH & EP).
    destruct (st_pk_d _ _ S1) as (k1 & HK1 & D1). destruct (st_pk_d _ _ S2) as (k2 & HK2 & D2).
    assert (EI : k1 = k2).
    { pose proof (commit_ivk_range L _ _ _ _ HK1) as B1. pose proof (commit_ivk_range L _ _ _ _ HK2) as B2.
      rewrite EK, EG in D1. rewrite D2 in D1. apply (mul_inj L) in D1; [|exact G2].
      pose proof pmod_lt_qmod. unfold is_base in B1, B2. rewrite !Z.mod_small in D1 by lia. symmetry. exact D1. }
    subst k2. unfold commit_ivk, sins_short_commit in HK1, HK2. fold (mk w1) in HK1. fold (mk w2) in HK2.
    destruct (sins_commit "z.cash:Orchard-CommitIvk" (mk w1) (w_rivk w1)) as [Q1|] eqn:E1; [|discriminate HK1].
    destruct (sins_commit "z.cash:Orchard-CommitIvk" (mk w2) (w_rivk w2)) as [Q2|] eqn:E2; [|discriminate HK2].
    cbn [option_map] in HK1, HK2. unfold extract_p in HK1, HK2.
    destruct (list_eq_dec bool_dec (mk w1) (mk w2)) as [EM|NM].
    - left. unfold mk, commit_ivk_msg in EM. apply app_inj_len in EM as [_ EN]; [|rewrite !base_bits_length; reflexivity].
      apply base_bits_inj in EN; try assumption.
      pose proof (st_nf _ _ S1) as F1. pose proof (st_nf _ _ S2) as F2. rewrite EN, EH, EP, EC in F1. congruence.
    - right. right. apply (commit_collision L "z.cash:Orchard-CommitIvk" _ _ _ _ Q1 Q2); try assumption.
      + unfold mk, commit_ivk_msg. rewrite !app_length, !base_bits_length. reflexivity.
      + unfold mk, commit_ivk_msg. rewrite !app_length, !base_bits_length. lia.
      + intro X. apply NM. congruence.
      + congruence.
  Qed.

  (** Actions with different nullifiers create notes with different commitments. *)
  Theorem new_notes_distinct : forall i1 w1 i2 w2, action_statement i1 w1 -> action_statement i2 w2 ->
    is_base (i_nf_old i1) -> is_base (i_nf_old i2) ->
    i_nf_old i1 <> i_nf_old i2 -> i_cmx i1 = i_cmx i2 ->
    let m i w := note_commit_msg (pt_encode (w_g_d_new w)) (pt_encode (w_pk_d_new w)) (w_v_new w) (i_nf_old i) (w_psi_new w) in
    sins_relation_R (sins_Q "z.cash:Orchard-NoteCommit-M") (commit_R "z.cash:Orchard-NoteCommit")
      (msg_words (m i1 w1)) (msg_words (m i2 w2)) (w_rcm_new w1) (w_rcm_new w2).
  Proof.
    intros i1 w1 i2 w2 S1 S2 B1 B2 NE HX m.
    destruct (st_new_types _ _ S1) as (G1 & K1 & P1 & C1). destruct (st_new_types _ _ S2) as (G2 & K2 & P2 & C2).
    destruct (st_values _ _ S1) as (_ & V1). destruct (st_values _ _ S2) as (_ & V2).
    destruct (st_cmx _ _ S1) as (c1 & D1 & X1). destruct (st_cmx _ _ S2) as (c2 & D2 & X2).
    unfold cmx_of, extract_p in X1, X2.
    apply (commit_collision L "z.cash:Orchard-NoteCommit" _ _ _ _ c1 c2).
    - unfold m. rewrite !note_msg_length. reflexivity.
    - unfold m. rewrite note_msg_length. lia.
    - intro X. apply NE. assert (EM : m i1 w1 = m i2 w2) by congruence. unfold m in EM.
      apply (note_msg_inj L) in EM; try assumption. apply EM.
    - exact D1.
    - exact D2.
    - congruence.
  Qed.
End Consequences.
