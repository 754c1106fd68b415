(** Facts about the life of a payment (C80). *)
From Coq Require Import String ZArith List Bool Lia.
From Coq Require Import Init.Byte.
From Verif Require Import Prelude Fields Curve Oracles Spec Sinsemilla SinsSpec RedPallas Value Keys KeysSpec Note NoteSpec Tree TreeSpec
  Action NoteEnc NoteEncSpec Bundle Batch Builder Signing BundleSpec BuilderSpec SigningSpec Halo2 Circuit CircuitSpec PipelineSpec LedgerSpec
  WalletSpec LifeSpec PreludeFacts NumTheory CurveFacts CodecFacts NoteFacts KeysFacts NoteEncFacts TreeFacts BuilderFacts BuildFacts SigningFacts
  PipelineFacts LedgerFacts WalletFacts.
Import ListNotations.
Open Scope Z_scope.

#[local] Opaque sins_commit prf_expand to_scalar to_base le_bits bytes_bits msg_words sins_Q commit_R lin.
#[local] Opaque node tree_root auth_path root_loop root_inputs commitment build.

Lemma nodup_or_index : forall l l' : list Z, NoDup l -> NoDup (l ++ l') \/
  exists k x, nth_error l' k = Some x /\ (In x l \/ exists j, (j < k)%nat /\ nth_error l' j = Some x).
Proof.
  intros l l' N. induction l' as [|x l' IH] using rev_ind; [left; rewrite app_nil_r; exact N|].
  destruct IH as [IH|(k & y & H1 & H2)].
  - destruct (in_dec Z.eq_dec x (l ++ l')) as [I|NI].
    + right. exists (length l'), x. split; [rewrite nth_error_app2 by lia; rewrite Nat.sub_diag; reflexivity|].
      apply in_app_iff in I as [I|I]; [left; exact I|right]. apply In_nth_error in I as [j J]. exists j.
      assert (j < length l')%nat by (apply nth_error_Some; congruence). split; [assumption|]. rewrite nth_error_app1 by assumption. exact J.
    + left. rewrite app_assoc. apply NoDup_rev in IH. rewrite <- (rev_involutive ((l ++ l') ++ [x])). apply NoDup_rev.
      rewrite rev_app_distr. cbn [rev app]. constructor; [|exact IH]. rewrite <- in_rev. exact NI.
  - right. assert (K : (k < length l')%nat) by (apply nth_error_Some; congruence).
    exists k, y. split; [rewrite nth_error_app1 by assumption; exact H1|].
    destruct H2 as [I|(j & J & E)]; [left; exact I|right]. exists j. split; [exact J|]. rewrite nth_error_app1 by lia. exact E.
Qed.

Section Life.
  Context {C : Curve} {OR : @Oracles C} {V : Type}.
  Variable L : CurveLaws C.

  (** Whether an index belongs to a request. *)
  Lemma requested_dec : forall b plan (bd : @unauthorized_bundle C V) meta, built b plan bd meta -> forall k,
    (exists i s o, nth_error (bl_spends b) i = Some s /\ spend_action_index meta i = Some k /\ nth_error plan k = Some (s, o)) \/
    (forall i, spend_action_index meta i <> Some k).
  Proof.
    intros b plan bd meta B k.
    assert (D : forall m, (exists i, (i < m)%nat /\ spend_action_index meta i = Some k) \/ (forall i, (i < m)%nat -> spend_action_index meta i <> Some k)).
    { induction m as [|m [(i & I1 & I2)|IH]].
      - right. intros i Hi. lia.
      - left. exists i. split; [lia|exact I2].
      - destruct (spend_action_index meta m) as [x|] eqn:E.
        + destruct (Nat.eq_dec x k) as [->|N]; [left; exists m; split; [lia|exact E]|].
          right. intros i Hi. destruct (Nat.eq_dec i m) as [->|NE]; [congruence|apply IH; lia].
        + right. intros i Hi. destruct (Nat.eq_dec i m) as [->|NE]; [congruence|apply IH; lia]. }
    destruct (D (length (bl_spends b))) as [(i & I1 & I2)|H].
    - left. destruct (nth_error (bl_spends b) i) as [s|] eqn:E; [|apply nth_error_None in E; lia].
      destruct (bu_spend_index _ _ _ _ B i s E) as (k' & o & K1 & K2). assert (k' = k) by congruence. subst k'.
      exists i, s, o. split; [exact E|]. split; assumption.
    - right. intros i. destruct (Nat.lt_ge_cases i (length (bl_spends b))) as [I|I]; [apply H; exact I|].
      rewrite (bu_spend_past _ _ _ _ B i I). discriminate.
  Qed.

  (** Built bundles fit the types. *)
  Lemma built_actions_ok : forall t anchor b plan (bd : @unauthorized_bundle C V) meta, gd_fallback_ok -> reachable t anchor b ->
    built b plan bd meta -> Forall action_ok (b_actions bd).
  Proof.
    intros t anchor b plan bd meta GD RB B. apply Forall_forall. intros a HA. apply In_nth_error in HA as [k HK].
    assert (K : (k < length plan)%nat).
    { rewrite <- (bu_actions _ _ _ _ B). apply nth_error_Some. congruence. }
    destruct (nth_error plan k) as [[s o]|] eqn:EP; [|apply nth_error_None in EP; lia].
    destruct (bu_each _ _ _ _ B k s o EP) as (a' & w & n & alpha & rcv & A1 & _ & A3). assert (a' = a) by congruence. subst a'.
    destruct (reachable_legal L _ _ _ RB) as ((_ & LO) & _).
    assert (ML : length (o_memo o) = 512%nat).
    { destruct (bu_outputs _ _ _ _ B) as (os & P & DO).
      assert (I : In o (bl_outputs b ++ os)).
      { apply (Permutation.Permutation_in _ P). apply in_map_iff. exists (s, o). split; [reflexivity|apply (nth_error_In _ _ EP)]. }
      apply in_app_iff in I as [I|I].
      - apply (ol_memo _ _ (proj1 (Forall_forall _ _) LO o I)).
      - rewrite (do_memo _ (proj1 (Forall_forall _ _) DO o I)). cbn [length]. rewrite repeat_length. reflexivity. }
    destruct (ac_encrypts _ _ _ _ _ _ _ A3) as (r & EN).
    destruct (encrypts_roundtrip L _ _ _ _ _ _ GD (ac_note _ _ _ _ _ _ _ A3) ML EN) as (CT & _).
    constructor; [| |exact CT].
    - rewrite <- (ac_rho _ _ _ _ _ _ _ A3). apply (no_rho _ (ac_note _ _ _ _ _ _ _ A3)).
    - destruct EN as (e & cm & _ & _ & _ & EC & _). rewrite EC. apply (x_range L).
  Qed.

  Lemma effects_ok : forall T S T' S' (into : V -> Z) (b : bundle T S V) (b' : bundle T' S' V), effects b = effects b' -> bundle_ok into b -> bundle_ok into b'.
  Proof.
    intros T S T' S' into b b' E K. unfold effects in E.
    pose proof (f_equal b_actions E) as EA. pose proof (f_equal b_value_balance E) as EV. pose proof (f_equal b_anchor E) as EN.
    cbn [b_actions b_value_balance b_anchor] in EA, EV, EN. constructor.
    - apply Forall_forall. intros a HA. apply In_nth_error in HA as [k HK].
      destruct (effects_nth _ _ _ _ b' b k a (eq_sym E) HK) as (a' & N & X).
      pose proof (proj1 (Forall_forall _ _) (bo_actions _ _ K) a' (nth_error_In _ _ N)) as KA.
      assert (KX : action_ok (action_effects a)) by (rewrite <- X; destruct KA; constructor; assumption).
      destruct KX. constructor; assumption.
    - intro X. rewrite X in EA. cbn [map] in EA. apply map_eq_nil in EA. apply (bo_nonempty _ _ K EA).
    - rewrite <- EV. apply (bo_balance _ _ K).
    - rewrite <- EN. apply (bo_anchor _ _ K).
  Qed.

  Variables (halo2_prove : list witness -> list (list Z) -> rng -> option bytes * rng) (halo2_verify : bytes -> list (list Z) -> bool)
    (try_from : Z -> option V) (into : V -> Z).

  Lemma known_base : forall h lg anchor, reached halo2_verify into h lg -> known_anchor lg anchor -> is_base anchor.
  Proof.
    intros h lg anchor RE (n & _ & ->). apply (root_base L). apply leaves_base.
    destruct (chain_lists halo2_verify into h lg RE) as (E1 & _ & AO & _). apply Forall_forall. intros x Hx.
    assert (I : In x (lg_cmxs lg)) by (rewrite <- (firstn_skipn n (lg_cmxs lg)); apply in_app_iff; left; exact Hx).
    rewrite E1 in I. apply in_map_iff in I as (a & <- & Ha). apply (ao_cmx _ (proj1 (Forall_forall _ _) AO a Ha)).
  Qed.

  Theorem made_accepted : forall h lg anchor b t meta ws,
    (forall i v, try_from i = Some v -> into v = i) -> proofs_verify halo2_prove halo2_verify ->
    gd_fallback_ok -> basepoint SpendAuth <> pt_id ->
    reached halo2_verify into h lg -> known_anchor lg anchor -> made halo2_prove try_from anchor b t meta ws ->
    unspent lg b -> different_notes b -> Z.of_nat (length (lg_cmxs lg) + length (b_actions (fst t))) <= 2 ^ 32 ->
    accepts halo2_verify into lg t \/ undefined_merkle_hash ws \/ padding_repeats lg t meta \/ requests_collide b.
  Proof.
    intros h lg anchor b t meta ws LAW PV GD G RE KA (ty & fuel & r & b0 & r' & b1 & RB & E & H & F & ->) UN DN SP.
    pose proof (known_base h lg anchor RE KA) as HA.
    destruct (reachable_legal L _ _ _ RB) as ((LS & _) & _ & AB).
    destruct (build_plan L _ _ _ _ _ _ _ _ _ GD RB E) as [plan B].
    destruct (history_final_effects halo2_prove b0 (snd t) b1 (fst t) into H F) as (EF & _).
    destruct (pipeline_valid L halo2_prove halo2_verify try_from into ty anchor b fuel r b0 meta r' (snd t) b1 (fst t) LAW PV GD G HA RB E H F)
      as [VA|X]; [|right; left; exact X].
    destruct (nodup_or_index (lg_nfs lg) (map a_nf (b_actions (fst t)))) as [ND|(k & x & K1 & K2)].
    { destruct (chain_lists halo2_verify into h lg RE) as (_ & _ & _ & N & _). exact N. }
    - left. destruct (build_shape L try_from _ _ _ _ _ _ _ GD RB E) as (n & _ & N0 & SH). destruct (SH _ _ eq_refl) as (LN & _ & AN).
      assert (OK : bundle_ok into (fst t)).
      { apply (effects_ok _ _ _ _ into b0 (fst t) (eq_sym EF)). constructor.
        - exact (built_actions_ok _ _ _ _ _ _ GD RB B).
        - intro X. rewrite X in LN. pose proof (proj2 N0 (eq_sym LN)) as Y. discriminate Y.
        - destruct (build_spec L try_from _ _ _ _ _ GD (proj1 (reachable_legal L _ _ _ RB)) E) as (m & _ & I64 & v & TV & _ & _ & _ & _ & EV & _).
          rewrite EV, (LAW _ _ TV). unfold i64_ok in I64. unfold is_i64. lia.
        - rewrite AN. exact HA. }
      constructor; [exact OK|exact VA| |exact ND|exact SP].
      destruct KA as (m & M1 & M2). exists m. split; [exact M1|]. rewrite <- M2, <- AN.
      pose proof (f_equal b_anchor EF) as X. exact X.
    - right. right.
      assert (ACT : forall j y, nth_error (map a_nf (b_actions (fst t))) j = Some y -> exists a a0,
        nth_error (b_actions (fst t)) j = Some a /\ a_nf a = y /\ nth_error (b_actions b0) j = Some a0 /\ a_nf a0 = y).
      { intros j y Hj. rewrite nth_error_map in Hj. destruct (nth_error (b_actions (fst t)) j) as [a|] eqn:EA; [|discriminate Hj].
        cbn [option_map] in Hj. assert (EY : a_nf a = y) by congruence.
        destruct (effects_nth _ _ _ _ _ b0 j a EF EA) as (a0 & A1 & A2). exists a, a0. split; [reflexivity|]. split; [exact EY|]. split; [exact A1|].
        apply (f_equal a_nf) in A2. cbn [action_effects a_map a_nf] in A2. congruence. }
      assert (REQ : forall j i s o y, nth_error (bl_spends b) i = Some s -> nth_error plan j = Some (s, o) ->
        nth_error (map a_nf (b_actions (fst t))) j = Some y -> note_nullifier (s_note s) (s_fvk s) = Ret y).
      { intros j i s o y S1 S2 S3. destruct (ACT j y S3) as (_ & a0 & _ & _ & A3 & A4).
        destruct (bu_each _ _ _ _ B j s o S2) as (a' & w & n & alpha & rcv & B1 & _ & B3). assert (a' = a0) by congruence. subst a'.
        rewrite (ac_nf _ _ _ _ _ _ _ B3), A4. reflexivity. }
      destruct (ACT k x K1) as (a & _ & A1 & A2 & _).
      destruct (requested_dec b plan b0 meta B k) as [(i & s & o & I1 & I2 & I3)|NK].
      + pose proof (REQ k i s o x I1 I3 K1) as NFK.
        destruct K2 as [K2|(j & J1 & J2)]; [elim (UN s x (nth_error_In _ _ I1) NFK K2)|].
        destruct (requested_dec b plan b0 meta B j) as [(i' & s' & o' & I1' & I2' & I3')|NJ].
        * right. pose proof (REQ j i' s' o' x I1' I3' J2) as NFJ.
          assert (NI : i <> i') by (intros ->; rewrite I2 in I2'; assert (k = j) by congruence; lia).
          exists i, i', s, s'. split; [exact NI|]. split; [exact I1|]. split; [exact I1'|].
          assert (NR : n_rho (s_note s) <> n_rho (s_note s')).
          { intro X. apply NI. apply (proj1 (NoDup_nth_error _) DN).
            - rewrite map_length. apply nth_error_Some. congruence.
            - rewrite !nth_error_map, I1, I1'. cbn [option_map]. congruence. }
          destruct (distinct_nullifiers L _ _ _ _ _ _ (sl_note _ _ _ (proj1 (Forall_forall _ _) LS s (nth_error_In _ _ I1)))
            (sl_note _ _ _ (proj1 (Forall_forall _ _) LS s' (nth_error_In _ _ I1'))) NR NFK NFJ) as [X|X]; [elim X; reflexivity|exact X].
        * left. destruct (ACT j x J2) as (a' & _ & A1' & A2' & _). exists j, a'. split; [exact NJ|]. split; [exact A1'|]. right.
          exists k, a. split; [lia|]. split; [exact A1|]. congruence.
      + left. exists k, a. split; [exact NK|]. split; [exact A1|]. destruct K2 as [K2|(j & J1 & J2)].
        * left. rewrite A2. exact K2.
        * right. destruct (ACT j x J2) as (a' & _ & A1' & A2' & _). exists j, a'. split; [lia|]. split; [exact A1'|]. congruence.
  Qed.

  Theorem payment_received : forall h lg anchor b t meta ws i o f s key,
    gd_fallback_ok -> made halo2_prove try_from anchor b t meta ws -> nth_error (bl_outputs b) i = Some o ->
    fvk_ok f -> fvk_to_ivk f s = Ret key -> owned_by key (o_recipient o) ->
    reached halo2_verify into h lg ->
    exists k n, output_action_index meta i = Some k /\ n_recipient n = o_recipient o /\ n_value n = o_value o /\
      forall h' lg', reached halo2_verify into (h ++ t :: h') lg' ->
        let pos := (length (lg_cmxs lg) + k)%nat in
        (exists a, nth_error (chain_actions (h ++ t :: h')) pos = Some a /\
           try_note_decryption key a = Ret (Some (n, o_recipient o, o_memo o))) /\
        forall b', spends_enabled (bt_flags (bl_type b')) = true -> bl_anchor b' = tree_root (leaves_of (lg_cmxs lg')) 32 ->
          exists path s', mp_from_position (Z.of_nat pos) (auth_path (leaves_of (lg_cmxs lg')) (Z.of_nat pos) 32) = Ret path /\
            add_spend b' f n path = Ret (Ok tt, with_spend b' (mk_spend None f s' n path)).
  Proof.
    intros h lg anchor b t meta ws i o f s key GD (ty & fuel & r & b0 & r' & b1 & RB & E & H & F & ->) HO KF HK OW RE.
    destruct (final_readable L halo2_prove try_from ty anchor b fuel r b0 meta r' (snd t) b1 (fst t) i o GD RB E H F HO)
      as (k & a & n & K1 & K2 & K3 & K4 & K5 & _).
    exists k, n. split; [exact K1|]. split; [exact K3|]. split; [exact K4|]. intros h' lg' RE' pos.
    destruct (fvk_ok_to_ivk L f s KF) as (key' & HK' & KK). assert (key' = key) by congruence. subst key'.
    destruct (K5 key KK OW) as [TD _]. unfold decrypt_output_with_key in TD. rewrite K2 in TD.
    assert (EP : pos = (length (chain_actions h) + k)%nat).
    { destruct (chain_lists halo2_verify into h lg RE) as (E1 & _). unfold pos. rewrite E1, map_length. reflexivity. }
    assert (NA : nth_error (chain_actions (h ++ t :: h')) pos = Some a).
    { rewrite EP, chain_app. rewrite nth_error_app2 by lia. replace (length (chain_actions h) + k - length (chain_actions h))%nat with k by lia.
      change (t :: h') with ([t] ++ h'). rewrite chain_app, chain_one. rewrite nth_error_app1; [exact K2|]. apply nth_error_Some. congruence. }
    split; [exists a; split; assumption|]. intros b' SE AN.
    destruct (received_can_be_spent L halo2_verify into f s (h ++ t :: h') lg' pos n b' GD KF RE') as (path & s' & P1 & _ & _ & P4); [|exact SE|exact AN|].
    - exists a, key, (o_recipient o), (o_memo o). split; [exact NA|]. split; assumption.
    - exists path, s'. split; assumption.
  Qed.
End Life.
