(** Facts about the balances of wallets (C81). *)
From Coq Require Import String ZArith List Bool Lia.
From Coq Require Import Init.Byte.
From Verif Require Import Prelude Fields Curve Oracles Spec Sinsemilla SinsSpec RedPallas Value Keys KeysSpec Note NoteSpec Tree TreeSpec
  Action NoteEnc NoteEncSpec Bundle Batch Builder BundleSpec BuilderSpec Halo2 Circuit CircuitSpec PipelineSpec LedgerSpec WalletSpec BackedSpec
  PreludeFacts NumTheory CurveFacts CodecFacts SinsFacts NoteFacts KeysFacts NoteEncFacts TreeFacts BuilderFacts CircuitBuildFacts PipelineFacts
  LedgerFacts WalletFacts.
Import ListNotations.
Open Scope Z_scope.

#[local] Opaque sins_commit prf_expand to_scalar to_base le_bits bytes_bits msg_words sins_Q commit_R lin.
#[local] Opaque node tree_root auth_path root_loop root_inputs commitment.

Lemma holdings_bound : forall A (pos old new : A -> Z) (p : A -> bool) l B (at_ : B -> nat) (val : B -> Z) (hs : list B),
  (forall a, In a l -> 0 <= pos a) -> (forall a, In a l -> 0 <= new a) ->
  (forall a, In a l -> p a = false -> old a = 0) ->
  (forall a, In a l -> p a = true -> exists a', nth_error l (Z.to_nat (pos a)) = Some a' /\ old a = new a') ->
  NoDup (map pos (filter p l)) ->
  (forall x, In x hs -> exists a', nth_error l (at_ x) = Some a' /\ val x = new a') ->
  (forall x a, In x hs -> In a l -> p a = true -> Z.to_nat (pos a) <> at_ x) -> NoDup (map at_ hs) ->
  zsum (map val hs) <= zsum (map new l) - zsum (map old l).
Proof.
  intros A pos old new p l B at_ val hs P0 N0 F0 FD ND HV HD HN. rewrite <- (zsum_filter _ old p l F0).
  set (f := fun n => match nth_error l n with Some a => new a | None => 0 end).
  assert (E1 : map old (filter p l) = map f (map (fun a => Z.to_nat (pos a)) (filter p l))).
  { rewrite map_map. apply map_ext_in. intros a Ha. apply filter_In in Ha as [Ha Pa].
    destruct (FD a Ha Pa) as (a' & E & EV). unfold f. rewrite E. exact EV. }
  assert (E2 : map val hs = map f (map at_ hs)).
  { rewrite map_map. apply map_ext_in. intros x Hx. destruct (HV x Hx) as (a' & E & EV). unfold f. rewrite E. exact EV. }
  assert (X : zsum (map f (map (fun a => Z.to_nat (pos a)) (filter p l) ++ map at_ hs)) <= zsum (map new l)).
  { rewrite <- (zsum_nth _ new l). fold f. apply zsum_incl.
    - intro n. unfold f. destruct (nth_error l n) as [a|] eqn:E; [|lia]. apply N0. apply nth_error_In in E. exact E.
    - assert (N1 : NoDup (map (fun a => Z.to_nat (pos a)) (filter p l))).
      { apply nodup_map_inj; [|reflexivity|exact ND]. intros a Ha. apply filter_In in Ha as [Ha _]. apply P0. exact Ha. }
      assert (N2 : forall n, In n (map (fun a => Z.to_nat (pos a)) (filter p l)) -> ~ In n (map at_ hs)).
      { intros n Hn Hm. apply in_map_iff in Hn as (a & Ea & Ha). apply filter_In in Ha as [Ha Pa].
        apply in_map_iff in Hm as (x & Ex & Hx). apply (HD x a Hx Ha Pa). congruence. }
      revert N1 N2. generalize (map (fun a => Z.to_nat (pos a)) (filter p l)). intros m. induction m as [|n m IH]; intros N1 N2; [exact HN|].
      apply NoDup_cons_iff in N1 as [N1 N1']. cbn [app]. constructor.
      + intro X. apply in_app_iff in X as [X|X]; [exact (N1 X)|]. exact (N2 n (or_introl eq_refl) X).
      + apply IH; [exact N1'|]. intros k Hk. apply N2. right. exact Hk.
    - intros n Hn. apply in_seq. split; [lia|]. cbn [Nat.add]. apply in_app_iff in Hn as [Hn|Hn].
      + apply in_map_iff in Hn as (a & <- & Ha). apply filter_In in Ha as [Ha Pa]. destruct (FD a Ha Pa) as (a' & E & _).
        apply nth_error_Some. congruence.
      + apply in_map_iff in Hn as (x & <- & Hx). destruct (HV x Hx) as (a' & E & _). apply nth_error_Some. congruence. }
  rewrite map_app, zsum_app, <- E1, <- E2 in X. lia.
Qed.

Section Backed.
  Context {C : Curve} {OR : @Oracles C} (L : CurveLaws C) {V : Type}.
  Variables (halo2_verify : bytes -> list (list Z) -> bool) (into : V -> Z).
  Variables (extract : bytes -> list (list Z) -> list action_cells) (sx bx : point -> bytes -> signature -> Z).
  Notation tx := (@tx C V).
  Notation acts := (acts extract).
  Notation break := (break into extract bx).
  Notation reached := (reached halo2_verify into).

  Lemma note_opening_commits : forall n cm, commitment n = Ret cm ->
    sins_commit "z.cash:Orchard-NoteCommit" (fst (own_opening n)) (snd (own_opening n)) = Some cm.
  Proof.
    intros n cm H. rewrite commitment_spec in H. change (fst (own_opening n)) with (note_msg n).
    change (snd (own_opening n)) with (rseed_rcm (n_rseed n) (n_rho n)).
    destruct (sins_commit _ (note_msg n) _) as [x|]; [|discriminate H]. congruence.
  Qed.

  (** Two openings with the same x-coordinate are the same, or give a relation. *)
  Lemma openings_agree : forall (o o' : list bool * Z) P P', length (fst o) = length (fst o') -> (length (fst o) <= 2530)%nat ->
    is_scalar (snd o) -> is_scalar (snd o') ->
    sins_commit "z.cash:Orchard-NoteCommit" (fst o) (snd o) = Some P -> sins_commit "z.cash:Orchard-NoteCommit" (fst o') (snd o') = Some P' ->
    pt_x P = pt_x P' ->
    o = o' \/ two_openings (sins_Q "z.cash:Orchard-NoteCommit-M") (commit_R "z.cash:Orchard-NoteCommit") o o'.
  Proof.
    intros [m r] [m' r'] P P' EL LB R R' H H' HX. cbn [fst snd] in *.
    destruct (list_eq_dec bool_dec m m') as [EM|NM]; [destruct (Z.eq_dec r r') as [ER|NR]|].
    - left. congruence.
    - right. apply (commit_collision L "z.cash:Orchard-NoteCommit" m m' r r' P P'); try assumption.
      intro X. apply NR. unfold is_scalar in R, R'. rewrite !Z.mod_small in X by assumption. congruence.
    - right. apply (commit_collision L "z.cash:Orchard-NoteCommit" m m' r r' P P'); try assumption.
      intro X. apply NM. congruence.
  Qed.

  Lemma created_matches : forall n cm a, note_ok n -> commitment n = Ret cm -> action_statement (fst a) (snd a) -> is_base (i_nf_old (fst a)) ->
    pt_x cm = i_cmx (fst a) -> n_value n = pn_value (created_note a) \/
    two_openings (sins_Q "z.cash:Orchard-NoteCommit-M") (commit_R "z.cash:Orchard-NoteCommit") (own_opening n)
      (note_opening (created_note a) (w_rcm_new (snd a))).
  Proof.
    intros n cm [i w] KN HC S B HX. cbn [fst snd] in *.
    destruct (st_new_types _ _ S) as (_ & _ & P2 & C2). destruct (st_values _ _ S) as (_ & V2).
    destruct (st_cmx _ _ S) as (c2 & CM2 & X2). unfold note_commitment_derive in CM2. unfold cmx_of, extract_p in X2.
    destruct (openings_agree (own_opening n) (note_opening (created_note (i, w)) (w_rcm_new w)) cm c2) as [E|E].
    - cbn [own_opening note_opening fst]. rewrite !note_msg_length. reflexivity.
    - cbn [own_opening note_opening fst]. rewrite note_msg_length. lia.
    - apply rcm_range.
    - exact C2.
    - apply note_opening_commits. exact HC.
    - exact CM2.
    - congruence.
    - left. unfold own_opening, note_opening, created_note in E. cbn [fst snd pn_g_d pn_pk_d pn_value pn_rho pn_psi] in E.
      apply (f_equal fst) in E. cbn [fst] in E. apply (note_msg_inj L) in E; [|apply KN|exact V2|apply KN|exact B|apply psi_range|exact P2].
      destruct E as (_ & _ & E & _). exact E.
    - right. exact E.
  Qed.

  (** A consumed position reveals the nullifier that the wallet knows. *)
  Lemma consumed_reveals : forall f s n k cm a, fvk_ok f -> note_ok n -> fvk_to_ivk f s = Ret k -> owned_by k (n_recipient n) -> commitment n = Ret cm ->
    action_statement (fst a) (snd a) -> pt_x (w_cm_old (snd a)) = pt_x cm ->
    note_nullifier n f = Ret (i_nf_old (fst a)) \/
    two_openings (sins_Q "z.cash:Orchard-NoteCommit-M") (commit_R "z.cash:Orchard-NoteCommit") (own_opening n)
      (note_opening (spent_note a) (w_rcm_old (snd a))) \/
    foreign_opening f s (snd a).
  Proof.
    intros f s n k cm [i w] KF KN HK OW HC S HX. cbn [fst snd] in *.
    destruct (st_old_types _ _ S) as (NG & _ & R1 & P1 & C1). destruct (st_values _ _ S) as (V1 & _).
    pose proof (st_cm_old _ _ S) as CM. unfold note_commitment_derive in CM.
    destruct (openings_agree (own_opening n) (note_opening (spent_note (i, w)) (w_rcm_old w)) cm (w_cm_old w)) as [E|E];
      [cbn [own_opening note_opening fst]; rewrite !note_msg_length; reflexivity
      |cbn [own_opening note_opening fst]; rewrite note_msg_length; lia
      |apply rcm_range|exact C1|apply note_opening_commits; exact HC|exact CM|congruence| |right; left; exact E].
    assert (EC : cm = w_cm_old w).
    { pose proof (note_opening_commits n cm HC) as X. rewrite E in X. cbn [note_opening fst snd spent_note pn_g_d pn_pk_d pn_value pn_rho pn_psi] in X. congruence. }
    unfold own_opening, note_opening, spent_note in E. cbn [fst snd pn_g_d pn_pk_d pn_value pn_rho pn_psi] in E.
    apply (f_equal fst) in E. cbn [fst] in E. apply (note_msg_inj L) in E; [|apply KN|exact V1|apply KN|exact R1|apply psi_range|exact P1].
    destruct E as (G1 & G2 & G3 & G4 & G5).
    destruct (owner_ivk L f s (n_recipient n) KF (owned_derives L f s n k KN HK OW)) as (rivk & ivk & HR & BR & HI & PK).
    destruct (st_pk_d _ _ S) as (k1 & HK1 & D1). destruct (st_key_types _ _ S) as (_ & N1 & _).
    assert (EI : k1 = ivk).
    { pose proof (commit_ivk_range L _ _ _ _ HK1) as B1. pose proof (commit_ivk_range L _ _ _ _ HI) as B2.
      rewrite <- G2, PK, G1 in D1. apply (mul_inj L) in D1; [|exact NG].
      pose proof pmod_lt_qmod. unfold is_base in B1, B2. rewrite !Z.mod_small in D1 by lia. symmetry. exact D1. }
    subst k1. unfold commit_ivk, sins_short_commit in HK1, HI.
    destruct (sins_commit "z.cash:Orchard-CommitIvk" (commit_ivk_msg (pt_x (w_ak w)) (w_nk w)) (w_rivk w)) as [Q1|] eqn:E1; [|discriminate HK1].
    destruct (sins_commit "z.cash:Orchard-CommitIvk" (commit_ivk_msg (pt_x (fvk_ak f)) (fvk_nk f)) rivk) as [Q2|] eqn:E2; [|discriminate HI].
    cbn [option_map] in HK1, HI. unfold extract_p in HK1, HI.
    destruct (list_eq_dec bool_dec (commit_ivk_msg (pt_x (w_ak w)) (w_nk w)) (commit_ivk_msg (pt_x (fvk_ak f)) (fvk_nk f))) as [EM|NM].
    - left. unfold commit_ivk_msg in EM. apply app_inj_len in EM as [EA EK]; [|rewrite !base_bits_length; reflexivity].
      apply base_bits_inj in EK; [|exact N1|apply KF].
      unfold note_nullifier. rewrite HC. cbn [obind]. rewrite EC, G5, G4, <- EK. exact (st_nf _ _ S).
    - right. right. exists rivk. split; [exact HR|].
      apply (commit_collision L "z.cash:Orchard-CommitIvk" _ _ _ _ Q1 Q2); try assumption.
      + unfold commit_ivk_msg. rewrite !app_length, !base_bits_length. reflexivity.
      + unfold commit_ivk_msg. rewrite !app_length, !base_bits_length. lia.
      + intro X'. apply NM. congruence.
      + congruence.
  Qed.

  Hypotheses (XC : finds_cells halo2_verify extract) (XS : finds_keys SpendAuth sx) (XB : finds_keys Binding bx).

  Lemma own_value : forall h lg x, gd_fallback_ok -> reached h lg -> inv extract h lg -> found h x ->
    exists a, nth_error (acts h) (hd_pos x) = Some a /\
      (n_value (hd_note x) = pn_value (created_note a) \/ other_opening x a).
  Proof.
    intros h lg x GD RE I (KF & RC).
    destruct (received_note L halo2_verify into _ _ _ _ _ _ GD KF RE RC) as ((KN & _) & (cm & HC & NC) & _ & _ & _).
    rewrite (iv_cmxs _ _ _ I), nth_error_map in NC. destruct (nth_error (acts h) (hd_pos x)) as [a|] eqn:NA; [|discriminate NC].
    cbn [option_map] in NC. exists a. split; [reflexivity|]. apply nth_error_In in NA as HA.
    pose proof (proj1 (Forall_forall _ _) (iv_st _ _ _ I) a HA) as S.
    assert (B : is_base (i_nf_old (fst a))).
    { apply (proj1 (Forall_forall _ _) (iv_nb _ _ _ I)). rewrite (iv_nfs _ _ _ I). apply in_map_iff. exists a. split; [reflexivity|exact HA]. }
    destruct (created_matches _ cm a KN HC S B) as [E|E]; [congruence|left; exact E|].
    right. left. eexists. split; [apply openings_created|exact E].
  Qed.

  Lemma forall_or : forall A (l : list A) (P Q : A -> Prop), (forall x, In x l -> P x \/ Q x) ->
    (forall x, In x l -> P x) \/ exists x, In x l /\ Q x.
  Proof.
    intros A l P Q. induction l as [|y l IH]; intros H; [left; intros x []|].
    destruct (H y (or_introl eq_refl)) as [Y|Y]; [|right; exists y; split; [left; reflexivity|exact Y]].
    destruct IH as [K|(x & Hx & K)]; [intros x Hx; apply H; right; exact Hx| |right; exists x; split; [right; exact Hx|exact K]].
    left. intros x [<-|Hx]; [exact Y|exact (K x Hx)].
  Qed.

  Theorem consumed_is_seen : forall h lg x, gd_fallback_ok -> reached h lg -> found h x -> consumed (acts h) (hd_pos x) ->
    (exists nf, note_nullifier (hd_note x) (hd_fvk x) = Ret nf /\ In nf (lg_nfs lg)) \/
    (exists a, In a (acts h) /\ other_opening x a) \/ break h.
  Proof.
    intros h lg x GD RE (KF & RC) (a & HA & SV & EP).
    destruct (reached_inv L halo2_verify into extract sx bx XC XS XB h lg RE) as [I|B]; [|right; right; exact B].
    destruct (received_note L halo2_verify into _ _ _ _ _ _ GD KF RE RC) as ((KN & k & HK & OW) & (cm & HC & NC) & _ & _ & _).
    destruct (found_anywhere extract h lg I a HA SV) as (a' & N & _ & X).
    rewrite EP in N. rewrite (iv_cmxs _ _ _ I), nth_error_map, N in NC. cbn [option_map] in NC.
    assert (HX : pt_x (w_cm_old (snd a)) = pt_x cm) by congruence.
    pose proof (proj1 (Forall_forall _ _) (iv_st _ _ _ I) a HA) as S.
    destruct (consumed_reveals _ _ _ k cm a KF KN HK OW HC S HX) as [NF|[T|F]].
    - left. exists (i_nf_old (fst a)). split; [exact NF|]. rewrite (iv_nfs _ _ _ I). apply in_map_iff. exists a. split; [reflexivity|exact HA].
    - right. left. exists a. split; [exact HA|]. left. eexists. split; [apply openings_spent|exact T].
    - right. left. exists a. split; [exact HA|]. right. exact F.
  Qed.

  Theorem holdings_backed : forall h lg l, gd_fallback_ok -> reached h lg -> Forall (found h) l -> Forall (seems_unspent lg) l ->
    NoDup (map hd_pos l) ->
    0 <= total l <= lg_pool lg \/ (exists x a, In x l /\ In a (acts h) /\ other_opening x a) \/ break h.
  Proof.
    intros h lg l GD RE FO UN ND.
    destruct (reached_inv L halo2_verify into extract sx bx XC XS XB h lg RE) as [I|B]; [|right; right; exact B].
    destruct (ledger_sound L halo2_verify into extract sx bx XC XS XB h lg RE) as [SL|B]; [|right; right; exact B].
    rewrite Forall_forall in FO, UN.
    destruct (forall_or _ l (fun x => exists a, nth_error (acts h) (hd_pos x) = Some a /\ n_value (hd_note x) = pn_value (created_note a))
                (fun x => exists a, In a (acts h) /\ other_opening x a)) as [VL|(x & Hx & a & Ha & OA)].
    { intros x Hx. destruct (own_value h lg x GD RE I (FO x Hx)) as (a & NA & [E|E]).
      - left. exists a. split; assumption.
      - right. exists a. split; [exact (nth_error_In _ _ NA)|exact E]. }
    2:{ right. left. exists x, a. split; [exact Hx|]. split; assumption. }
    destruct (forall_or _ (list_prod l (acts h)) (fun p => spends_value (snd p) = true -> Z.to_nat (position (snd p)) <> hd_pos (fst p))
                (fun p => (exists a, In a (acts h) /\ other_opening (fst p) a) \/ break h)) as [DJ|([x b] & Hp & X)].
    { intros [x b] Hp. cbn [fst snd]. apply in_prod_iff in Hp as [Hx Hb].
      destruct (spends_value b) eqn:SV; [|left; discriminate].
      destruct (Nat.eq_dec (Z.to_nat (position b)) (hd_pos x)) as [EP|NP]; [|left; intros _; exact NP].
      right. destruct (consumed_is_seen h lg x GD RE (FO x Hx)) as [(nf & EN & IN)|X]; [|destruct (UN x Hx nf EN IN)|exact X].
      exists b. split; [exact Hb|]. split; assumption. }
    2:{ cbn [fst] in X. apply in_prod_iff in Hp as [Hx _]. right. destruct X as [(a & Ha & OA)|B]; [|right; exact B].
        left. exists x, a. split; [exact Hx|]. split; assumption. }
    left. pose proof (proj1 (Forall_forall _ _) (sl_statements _ _ _ SL)) as ST. split.
    - apply zsum_nonneg. intros v Hv. apply in_map_iff in Hv as (x & <- & Hx). destruct (VL x Hx) as (a & NA & ->).
      apply nth_error_In in NA. destruct (st_values _ _ (ST a NA)) as (_ & U). exact (proj1 U).
    - rewrite (iv_pool _ _ _ I). unfold total.
      apply (holdings_bound _ position (fun a => pn_value (spent_note a)) (fun a => pn_value (created_note a)) spends_value (acts h)
               _ hd_pos (fun x => n_value (hd_note x)) l).
      + intros a Ha. destruct (st_path_types _ _ (ST a Ha)) as (_ & _ & P). exact (proj1 P).
      + intros a Ha. destruct (st_values _ _ (ST a Ha)) as (_ & U). exact (proj1 U).
      + intros a Ha SV. unfold spends_value in SV. apply negb_false_iff in SV. apply Z.eqb_eq in SV. exact SV.
      + intros a Ha SV. destruct (found_anywhere extract h lg I a Ha SV) as (a' & N & E & _). exists a'. split; [exact N|]. congruence.
      + exact (sl_once _ _ _ SL).
      + exact VL.
      + intros x a Hx Ha SV. apply (DJ (x, a)); [apply in_prod_iff; split; assumption|exact SV].
      + exact ND.
  Qed.
End Backed.
