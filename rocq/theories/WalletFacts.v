(** Facts about a wallet's notes (C69-C71). *)
From Coq Require Import String ZArith List Bool Lia.
From Coq Require Import Init.Byte.
From Verif Require Import Prelude Fields Curve Oracles Spec Sinsemilla SinsSpec RedPallas Value Keys KeysSpec Note NoteSpec Tree TreeSpec
  Action NoteEnc NoteEncSpec Bundle Batch Builder BundleSpec BuilderSpec Halo2 Circuit CircuitSpec PipelineSpec LedgerSpec WalletSpec
  PreludeFacts NumTheory CurveFacts CodecFacts SinsFacts NoteFacts KeysFacts NoteEncFacts TreeFacts BuilderFacts CircuitBuildFacts PipelineFacts LedgerFacts.
Import ListNotations.
Open Scope Z_scope.

#[local] Opaque sins_commit prf_expand to_scalar to_base le_bits bytes_bits msg_words sins_Q commit_R lin.
#[local] Opaque node tree_root auth_path root_loop root_inputs commitment.

Section Nullifiers.
  Context {C : Curve} {OR : @Oracles C}.
  Variable L : CurveLaws C.

  Record secret_ok (s : note_secret) : Prop := {
    so_value : is_u64 (se_value s); so_rho : is_base (se_rho s); so_psi : is_base (se_psi s); so_rcm : is_scalar (se_rcm s)
  }.
  Definition se_msg (s : note_secret) : list bool :=
    note_commit_msg (pt_encode (se_g_d s)) (pt_encode (se_pk_d s)) (se_value s) (se_rho s) (se_psi s).

  Lemma factor_range : forall s, is_base (se_factor s).
  Proof. intro s. apply Z.mod_pos_bound. apply pmod_pos. Qed.

  Lemma add_pt_k : forall A B D E F G : point, pt_add (pt_add (pt_add A D) (pt_add B E)) (pt_add F G) =
    pt_add (pt_add F (pt_add A B)) (pt_add G (pt_add D E)).
  Proof.
    intros. rewrite (add_4 L A D B E), (add_4 L F (pt_add A B) G (pt_add D E)), (add_comm L (pt_add F G)). reflexivity.
  Qed.

  Lemma nf_collision : forall s s' cm cm', secret_ok s -> secret_ok s' ->
    sins_commit "z.cash:Orchard-NoteCommit" (se_msg s) (se_rcm s) = Some cm ->
    sins_commit "z.cash:Orchard-NoteCommit" (se_msg s') (se_rcm s') = Some cm' ->
    pt_x (pt_add (pt_mul (se_factor s) nullifier_K) cm) = pt_x (pt_add (pt_mul (se_factor s') nullifier_K) cm') ->
    (se_msg s = se_msg s' /\ se_rcm s = se_rcm s' /\ se_factor s = se_factor s') \/ nullifier_relation s s'.
  Proof.
    intros s s' cm cm' K K' H H' HX.
    apply (commit_lin L) in H. apply (commit_lin L) in H'.
    change ("z.cash:Orchard-NoteCommit" ++ "-M")%string with "z.cash:Orchard-NoteCommit-M"%string in *.
    change (msg_words (se_msg s)) with (se_words s) in H. change (msg_words (se_msg s')) with (se_words s') in H'.
    assert (LE : length (se_msg s) = length (se_msg s')) by (unfold se_msg; rewrite !note_msg_length; reflexivity).
    assert (LB : (length (se_words s) <= 253)%nat).
    { apply msg_words_bound. fold (se_msg s). unfold se_msg. rewrite note_msg_length. lia. }
    assert (WL : length (se_words s) = length (se_words s')) by (unfold se_words; rewrite !msg_words_length; fold (se_msg s) (se_msg s'); rewrite LE; reflexivity).
    rewrite <- WL in H'.
    set (Q := sins_Q "z.cash:Orchard-NoteCommit-M") in *. set (R := commit_R "z.cash:Orchard-NoteCommit") in *.
    destruct (pt_x_inj C L _ _ HX) as [E|E].
    - destruct (list_eq_dec Z.eq_dec (se_words s) (se_words s')) as [W|W];
        [destruct (Z.eq_dec (se_rcm s) (se_rcm s')) as [ER|NR]; [destruct (Z.eq_dec (se_factor s) (se_factor s')) as [EF|NF]|]|].
      1: { left. split; [|split; assumption]. apply (msg_words_inj _ _ LE W). }
      all: right; left; fold Q R; split.
      1,3,5: rewrite <- (lin_sub L Q (2 ^ Z.of_nat (length (se_words s)))), !(mul_sub L); unfold pt_sub;
        rewrite add_pt_k, <- !(neg_add L), <- H, <- H', E; apply (add_neg_r L).
      + right. right. intro X. apply NF. pose proof qmod_pos. pose proof pmod_lt_qmod.
        pose proof (factor_range s) as B1. pose proof (factor_range s') as B2. unfold is_base in *.
        apply Z.mod_divide in X; [|lia]. destruct X as [c X]. assert (c = 0) by nia. nia.
      + right. left. intro X. apply NR. pose proof qmod_pos. pose proof (so_rcm _ K) as B1. pose proof (so_rcm _ K') as B2. unfold is_scalar in *.
        apply Z.mod_divide in X; [|lia]. destruct X as [c X]. assert (c = 0) by nia. nia.
      + left. destruct (weight_distinct _ _ WL (msg_words_range _) (msg_words_range _) W) as (j & Hj & Dj).
        exists j. split; [exact Hj|]. apply weight_diff_mod; assumption.
    - right. right. fold Q R. rewrite <- (lin_add L), !(mul_add L), add_pt_k, <- H, <- H', E. apply (add_neg_l L).
  Qed.

  Lemma secret_eq : forall s s', secret_ok s -> secret_ok s' ->
    se_msg s = se_msg s' -> se_rcm s = se_rcm s' -> se_factor s = se_factor s' ->
    se_g_d s = se_g_d s' /\ se_pk_d s = se_pk_d s' /\ se_value s = se_value s' /\ se_rho s = se_rho s' /\ se_psi s = se_psi s' /\
    se_rcm s = se_rcm s' /\ prf_nf (se_nk s) (se_rho s) = prf_nf (se_nk s') (se_rho s').
  Proof.
    intros s s' K K' M R F. unfold se_msg in M.
    apply (note_msg_inj L) in M; try apply K; try apply K'. destruct M as (M1 & M2 & M3 & M4 & M5).
    split; [exact M1|]. split; [exact M2|]. split; [exact M3|]. split; [exact M4|]. split; [exact M5|]. split; [exact R|].
    unfold se_factor in F. rewrite <- M5 in F.
    pose proof (prf_nf_range (se_nk s) (se_rho s)) as B1. pose proof (prf_nf_range (se_nk s') (se_rho s')) as B2.
    set (u := prf_nf (se_nk s) (se_rho s)) in *. set (v := prf_nf (se_nk s') (se_rho s')) in *. set (c := se_psi s) in *.
    clearbody u v c. clear -F B1 B2. unfold is_base in *. pose proof pmod_pos as PP.
    apply mod_eq_divide in F; [|lia]. destruct F as [k F]. assert (k = 0) by nia. lia.
  Qed.

  Lemma own_secret_ok : forall f n, note_ok n -> secret_ok (own_secret f n).
  Proof.
    intros f n K. constructor; cbn [own_secret se_value se_rho se_psi se_rcm].
    - apply K. - apply K. - apply psi_range. - apply rcm_range.
  Qed.
  Lemma spent_secret_ok : forall i w, action_statement i w -> secret_ok (spent_secret w).
  Proof.
    intros i w S. destruct (st_old_types _ _ S) as (_ & _ & R & P & CM). constructor; cbn [spent_secret se_value se_rho se_psi se_rcm]; try assumption.
    apply (st_values _ _ S).
  Qed.
  Lemma own_nullifier : forall f n nf, note_nullifier n f = Ret nf ->
    exists cm, sins_commit "z.cash:Orchard-NoteCommit" (se_msg (own_secret f n)) (se_rcm (own_secret f n)) = Some cm /\
      commitment n = Ret cm /\ nf = pt_x (pt_add (pt_mul (se_factor (own_secret f n)) nullifier_K) cm).
  Proof.
    intros f n nf H. unfold note_nullifier in H. destruct (commitment n) as [cm| |] eqn:E; cbn [obind] in H; try discriminate H.
    exists cm. rewrite nf_derive_ret in H. injection H as <-. rewrite commitment_spec in E.
    change (se_msg (own_secret f n)) with (note_msg n). change (se_rcm (own_secret f n)) with (rseed_rcm (n_rseed n) (n_rho n)).
    destruct (sins_commit _ (note_msg n) _) as [x|]; [|discriminate E]. injection E as ->.
    split; [reflexivity|]. split; reflexivity.
  Qed.

  (** Two notes of wallets with the same nullifier. *)
  Lemma same_nullifier : forall f f' n n' nf, note_ok n -> note_ok n' ->
    note_nullifier n f = Ret nf -> note_nullifier n' f' = Ret nf ->
    (note_contents n = note_contents n' /\ rseed_rcm (n_rseed n) (n_rho n) = rseed_rcm (n_rseed n') (n_rho n') /\
     prf_nf (fvk_nk f) (n_rho n) = prf_nf (fvk_nk f') (n_rho n')) \/
    nullifier_relation (own_secret f n) (own_secret f' n').
  Proof.
    intros f f' n n' nf K K' H H'. destruct (own_nullifier _ _ _ H) as (cm & E & _ & X). destruct (own_nullifier _ _ _ H') as (cm' & E' & _ & X').
    destruct (nf_collision _ _ _ _ (own_secret_ok f n K) (own_secret_ok f' n' K') E E') as [(M & R & F)|N]; [congruence| |right; exact N].
    left. destruct (secret_eq _ _ (own_secret_ok f n K) (own_secret_ok f' n' K') M R F) as (G1 & G2 & G3 & G4 & G5 & G6 & G7).
    cbn [own_secret se_g_d se_pk_d se_value se_rho se_psi se_rcm se_nk] in *.
    split; [|split; assumption]. unfold note_contents. rewrite G1, G2, G3, G5, G4. reflexivity.
  Qed.

  Lemma distinct_nullifiers : forall f f' n n' nf nf', note_ok n -> note_ok n' -> n_rho n <> n_rho n' ->
    note_nullifier n f = Ret nf -> note_nullifier n' f' = Ret nf' ->
    nf <> nf' \/ nullifier_relation (own_secret f n) (own_secret f' n').
  Proof.
    intros f f' n n' nf nf' K K' NR H H'. destruct (Z.eq_dec nf nf') as [<-|N]; [|left; exact N].
    destruct (same_nullifier f f' n n' nf K K' H H') as [(X & _)|X]; [|right; exact X].
    elim NR. unfold note_contents in X. congruence.
  Qed.

  Lemma owned_derives : forall f s n k, note_ok n -> fvk_to_ivk f s = Ret k -> owned_by k (n_recipient n) ->
    derives f s (n_recipient n).
  Proof.
    intros f s n k KN HK OW. destruct (no_recipient _ KN) as [LD _].
    destruct (index_of_address L k (ad_d (n_recipient n)) LD) as (j & E & LJ). apply (index_iff L) in E as [_ E].
    exists j. split; [exact LJ|]. unfold fvk_address_at. rewrite HK. cbn [obind]. rewrite <- E.
    unfold owned_by in OW. destruct (n_recipient n) as [d pk]. cbn [ad_d ad_pk_d] in *. subst pk. reflexivity.
  Qed.

  (** An action that reveals the nullifier of a note in the wallet spends that note, with the keys of the wallet. *)
  Lemma nullifier_spends : forall f s n nf i w, fvk_ok f -> in_wallet f s n -> note_nullifier n f = Ret nf ->
    action_statement i w -> i_nf_old i = nf ->
    spends_own f n w \/ nullifier_relation (spent_secret w) (own_secret f n) \/ foreign_opening f s w.
  Proof.
    intros f s n nf i w KF (KN & k & HK & OW) H S EN.
    destruct (own_nullifier _ _ _ H) as (cm & E & HC & X).
    pose proof (st_cm_old _ _ S) as CM. unfold note_commitment_derive in CM.
    pose proof (st_nf _ _ S) as NF. rewrite nf_derive_ret in NF. injection NF as NF.
    destruct (nf_collision (spent_secret w) (own_secret f n) (w_cm_old w) cm (spent_secret_ok _ _ S) (own_secret_ok f n KN) CM E) as [(M & R & F)|N];
      [change (se_factor (spent_secret w)) with ((prf_nf (w_nk w) (w_rho_old w) + w_psi_old w) mod pmod); congruence| |right; left; exact N].
    destruct (secret_eq _ _ (spent_secret_ok _ _ S) (own_secret_ok f n KN) M R F) as (G1 & G2 & G3 & G4 & G5 & G6 & G7).
    cbn [spent_secret own_secret se_g_d se_pk_d se_value se_rho se_psi se_rcm se_nk] in *.
    destruct (owner_ivk L f s (n_recipient n) KF (owned_derives f s n k KN HK OW)) as (rivk & ivk & HR & BR & HI & PK).
    destruct (st_pk_d _ _ S) as (k1 & HK1 & D1). destruct (st_old_types _ _ S) as (NG & _).
    destruct (st_key_types _ _ S) as (_ & N1 & _).
    assert (EI : k1 = ivk).
    { pose proof (commit_ivk_range L _ _ _ _ HK1) as B1. pose proof (commit_ivk_range L _ _ _ _ HI) as B2.
      rewrite G2, PK, <- G1 in D1. apply (mul_inj L) in D1; [|exact NG].
      pose proof pmod_lt_qmod. unfold is_base in B1, B2. rewrite !Z.mod_small in D1 by lia. symmetry. exact D1. }
    subst k1. unfold commit_ivk, sins_short_commit in HK1, HI.
    destruct (sins_commit "z.cash:Orchard-CommitIvk" (commit_ivk_msg (pt_x (w_ak w)) (w_nk w)) (w_rivk w)) as [Q1|] eqn:E1; [|discriminate HK1].
    destruct (sins_commit "z.cash:Orchard-CommitIvk" (commit_ivk_msg (pt_x (fvk_ak f)) (fvk_nk f)) rivk) as [Q2|] eqn:E2; [|discriminate HI].
    cbn [option_map] in HK1, HI. unfold extract_p in HK1, HI.
    destruct (list_eq_dec bool_dec (commit_ivk_msg (pt_x (w_ak w)) (w_nk w)) (commit_ivk_msg (pt_x (fvk_ak f)) (fvk_nk f))) as [EM|NM].
    - left. unfold commit_ivk_msg in EM. apply app_inj_len in EM as [EA EK]; [|rewrite !base_bits_length; reflexivity].
      apply base_bits_inj in EA; try apply (x_range L). apply base_bits_inj in EK; [|exact N1|apply KF].
      split; [|exact EA]. unfold spent_secret, own_secret. rewrite G1, G2, G3, G5, G6, G4, EK. reflexivity.
    - right. right. exists rivk. split; [exact HR|].
      apply (commit_collision L "z.cash:Orchard-CommitIvk" _ _ _ _ Q1 Q2); try assumption.
      + unfold commit_ivk_msg. rewrite !app_length, !base_bits_length. reflexivity.
      + unfold commit_ivk_msg. rewrite !app_length, !base_bits_length. lia.
      + intro X'. apply NM. congruence.
      + congruence.
  Qed.
End Nullifiers.

Section Chain.
  Context {C : Curve} {OR : @Oracles C} (L : CurveLaws C) {V : Type}.
  Variables (halo2_verify : bytes -> list (list Z) -> bool) (into : V -> Z).
  Notation tx := (@tx C V).
  Notation reached := (reached halo2_verify into).

  Lemma chain_app : forall h h' : list tx, chain_actions (h ++ h') = chain_actions h ++ chain_actions h'.
  Proof. intros. unfold chain_actions. apply flat_map_app. Qed.
  Lemma chain_one : forall t : tx, chain_actions [t] = b_actions (fst t).
  Proof. intro t. unfold chain_actions. cbn [flat_map]. apply app_nil_r. Qed.

  Lemma chain_lists : forall h lg, reached h lg ->
    lg_cmxs lg = map a_cmx (chain_actions h) /\ lg_nfs lg = map a_nf (chain_actions h) /\
    Forall action_ok (chain_actions h) /\ NoDup (lg_nfs lg) /\ Z.of_nat (length (chain_actions h)) <= 2 ^ 32.
  Proof.
    intros h lg H. induction H as [|h lg t H (I1 & I2 & I3 & I4 & I5) A].
    - split; [reflexivity|]. split; [reflexivity|]. split; [constructor|]. split; [constructor|]. cbn. lia.
    - rewrite chain_app, chain_one, !map_app. cbn [apply lg_cmxs lg_nfs].
      split; [rewrite I1; reflexivity|]. split; [rewrite I2; reflexivity|].
      split; [apply Forall_app; split; [exact I3|apply (bo_actions _ _ (ac_types _ _ _ _ A))]|].
      split; [exact (ac_nfs _ _ _ _ A)|].
      pose proof (ac_space _ _ _ _ A) as S. rewrite I1, map_length in S. rewrite app_length. exact S.
  Qed.

  (** What a wallet knows about a note it received. *)
  Lemma received_note : forall f s h lg pos n, gd_fallback_ok -> fvk_ok f -> reached h lg -> receives f s h pos n ->
    in_wallet f s n /\ (exists cm, commitment n = Ret cm /\ nth_error (lg_cmxs lg) pos = Some (pt_x cm)) /\
    nth_error (lg_nfs lg) pos = Some (n_rho n) /\ Z.of_nat pos < 2 ^ 32 /\ Forall is_base (lg_cmxs lg).
  Proof.
    intros f s h lg pos n GD KF RE (a & k & to & memo & NA & HK & TD).
    destruct (chain_lists h lg RE) as (E1 & E2 & AO & _ & SP).
    assert (KA : action_ok a) by (apply (proj1 (Forall_forall _ _) AO); apply (nth_error_In _ _ NA)).
    destruct (fvk_ok_to_ivk L f s KF) as (k' & HK' & KK). assert (k' = k) by congruence. subst k'.
    destruct (full_sound L _ k a GD KK (ao_ct _ KA) (ao_nf _ KA) (ao_cmx _ KA)) as (r & TR & F).
    assert (ER : r = Some (n, to, memo)) by congruence.
    destruct (F _ _ _ ER) as (KN & (M1 & (cm & M2 & M3) & _) & -> & OW & _).
    split; [split; [exact KN|exists k; split; assumption]|].
    split; [exists cm; split; [exact M2|]; rewrite E1, M3; apply map_nth_error; exact NA|].
    split; [rewrite E2, M1; apply map_nth_error; exact NA|].
    split.
    - assert (pos < length (chain_actions h))%nat by (apply nth_error_Some; congruence). lia.
    - rewrite E1. apply Forall_forall. intros x Hx. apply in_map_iff in Hx as (b & <- & Hb).
      apply (ao_cmx _ (proj1 (Forall_forall _ _) AO b Hb)).
  Qed.

  Theorem received_can_be_spent : forall f s h lg pos n b, gd_fallback_ok -> fvk_ok f -> reached h lg -> receives f s h pos n ->
    spends_enabled (bt_flags (bl_type b)) = true -> bl_anchor b = tree_root (leaves_of (lg_cmxs lg)) 32 ->
    exists path s', mp_from_position (Z.of_nat pos) (auth_path (leaves_of (lg_cmxs lg)) (Z.of_nat pos) 32) = Ret path /\
      call_ok (AddSpend f n path) /\ owner f (n_recipient n) s' /\
      add_spend b f n path = Ret (Ok tt, with_spend b (mk_spend None f s' n path)).
  Proof.
    intros f s h lg pos n b GD KF RE RC SE AN.
    destruct (received_note f s h lg pos n GD KF RE RC) as ((KN & k & HK & OW) & (cm & HC & NC) & _ & BP & CB).
    destruct (path_gives_root_full (leaves_of (lg_cmxs lg)) (Z.of_nat pos)) as [P1 P2]; [lia|].
    set (path := mk_path (Z.of_nat pos) (auth_path (leaves_of (lg_cmxs lg)) (Z.of_nat pos) 32)) in *.
    assert (LV : leaves_of (lg_cmxs lg) (Z.of_nat pos) = pt_x cm).
    { assert (pos < length (lg_cmxs lg))%nat by (apply nth_error_Some; congruence).
      unfold leaves_of. rewrite (proj2 (Z.leb_le 0 (Z.of_nat pos))) by lia. rewrite (proj2 (Z.ltb_lt (Z.of_nat pos) _)) by lia.
      cbn [andb]. rewrite Nat2Z.id. apply nth_error_nth. exact NC. }
    rewrite LV in P2.
    assert (CO : call_ok (AddSpend f n path)).
    { cbn [call_ok]. split; [exact KF|]. split; [exact KN|]. split; [exists cm; exact HC|].
      split; [cbn [path mp_position]; lia|apply auth_path_length|apply (auth_path_base L); apply leaves_base; exact CB]. }
    pose proof (owned_derives L f s n k KN HK OW) as DV.
    destruct (owner_of_scope L f (n_recipient n) KF) as (o & EO & HO).
    destruct o as [s'|].
    2:{ exfalso. destruct s; [exact (HO External DV)|]. destruct (owner_of_scope L f (n_recipient n) KF) as (o & EO' & _).
        apply (HO Internal). split; [exact DV|]. exact (HO External). }
    exists path, s'. split; [exact P1|]. split; [exact CO|]. split; [exact HO|].
    unfold add_spend. rewrite SE. cbn [negb]. unfold spend_info_new. rewrite EO. cbn [obind].
    destruct (anchor_spec (mk_spend None f s' n path) (bl_anchor b) cm HC) as (ok & -> & HW). cbn [obind].
    cbn [s_note s_path] in HW. destruct ok; [reflexivity|].
    assert (X : false = true); [|discriminate X]. apply HW. right. exists cm. split; [exact HC|]. rewrite AN. exact P2.
  Qed.

  Theorem received_nullifiers : forall f s f' s' h lg pos pos' n n' nf nf', gd_fallback_ok -> fvk_ok f -> fvk_ok f' -> reached h lg ->
    receives f s h pos n -> receives f' s' h pos' n' -> pos <> pos' ->
    note_nullifier n f = Ret nf -> note_nullifier n' f' = Ret nf' ->
    nf <> nf' \/ nullifier_relation (own_secret f n) (own_secret f' n').
  Proof.
    intros f s f' s' h lg pos pos' n n' nf nf' GD KF KF' RE R R' NE H H'.
    destruct (received_note f s h lg pos n GD KF RE R) as ((KN & _) & _ & N1 & _).
    destruct (received_note f' s' h lg pos' n' GD KF' RE R') as ((KN' & _) & _ & N1' & _).
    apply (distinct_nullifiers L f f' n n' nf nf' KN KN'); try assumption.
    intro E. apply NE. destruct (chain_lists h lg RE) as (_ & _ & _ & ND & _).
    apply (proj1 (NoDup_nth_error _) ND); [apply nth_error_Some; congruence|congruence].
  Qed.

  Variables (extract : bytes -> list (list Z) -> list action_cells) (sx bx : point -> bytes -> signature -> Z).
  Hypotheses (XC : finds_cells halo2_verify extract) (XS : finds_keys SpendAuth sx) (XB : finds_keys Binding bx).

  Lemma reached_tx : forall h lg (t : tx), reached h lg -> In t h -> exists lg', accepts halo2_verify into lg' t.
  Proof.
    intros h lg t H. induction H as [|h lg u H IH A]; intro HI; [destruct HI|].
    apply in_app_or in HI as [HI|[<-|[]]]; [exact (IH HI)|exists lg; exact A].
  Qed.

  Lemma forall2_pick : forall A B (P Q : A -> B -> Prop) l m a, Forall2 P l m -> Forall2 Q l m -> In a l ->
    exists b, In b m /\ P a b /\ Q a b.
  Proof.
    intros A B P Q l m a F. induction F as [|x y l m p F IH]; intros G HI; [destruct HI|].
    inversion G as [|? ? ? ? q G']; subst. destruct HI as [<-|HI]; [exists y; split; [left; reflexivity|split; assumption]|].
    destruct (IH G' HI) as (b & B1 & B2). exists b. split; [right; exact B1|exact B2].
  Qed.

  (** The transaction that reveals a nullifier proves its statement and its signer is known. *)
  Lemma revealed : forall h lg nf, reached h lg -> In nf (lg_nfs lg) ->
    (exists t a w, In t h /\ In a (b_actions (fst t)) /\ a_nf a = nf /\ In w (map cells_witness (cells_of extract t)) /\
       action_statement (to_instance a (b_flags (fst t)) (b_anchor (fst t))) w /\
       w_ak w = pt_mul (sx (a_rk a) (snd t) (a_auth a) - w_alpha w) (basepoint SpendAuth)) \/
    break into extract bx h.
  Proof.
    intros h lg nf RE HI. destruct (chain_lists h lg RE) as (_ & E2 & _). rewrite E2 in HI.
    apply in_map_iff in HI as (a & EA & HA). unfold chain_actions in HA. apply in_flat_map in HA as (t & HT & HA).
    destruct (reached_tx h lg t RE HT) as (lg' & A).
    pose proof (ac_valid _ _ _ _ A) as VL. pose proof (ac_types _ _ _ _ A) as TY. pose proof (ac_space _ _ _ _ A) as SP.
    destruct (valid_means L halo2_verify extract sx bx into (fst t) (snd t) XC XS XB (bo_anchor _ _ TY)) as (is & bvk & EI & BK & M).
    - pose proof (bo_balance _ _ TY) as B. unfold is_i64 in B. unfold i64_ok. lia.
    - assert (2 ^ 32 < 2 ^ 180) by reflexivity. lia.
    - exact VL.
    - assert (EC : extract (au_proof (b_auth (fst t))) is = cells_of extract t) by (unfold LedgerSpec.cells_of; rewrite EI; reflexivity).
      rewrite EC in M. unfold accepted_means in M. cbv zeta in M.
      destruct M as [(M1 & _ & M3)|[(k & K1 & K2)|(M1 & M2)]].
      + left. unfold to_instances in M1.
        assert (M1' : Forall2 (fun a w => action_statement (to_instance a (b_flags (fst t)) (b_anchor (fst t))) w) (b_actions (fst t))
                        (map cells_witness (cells_of extract t))).
        { clear -M1. revert M1. generalize (map cells_witness (cells_of extract t)). induction (b_actions (fst t)) as [|x l IH]; intros m F;
            inversion F; subst; constructor; auto. }
        destruct (forall2_pick _ _ _ _ _ _ a M1' M3 HA) as (w & W1 & W2 & W3).
        exists t, a, w. split; [exact HT|]. split; [exact HA|]. split; [exact EA|]. split; [exact W1|]. split; assumption.
      + right. apply (B_hash _ _ _ _ t k HT K1 K2).
      + right. apply (B_value _ _ _ _ t bvk HT BK M1 M2).
  Qed.

  Theorem only_owner_nullifies : forall f s n nf h lg, fvk_ok f -> in_wallet f s n -> note_nullifier n f = Ret nf ->
    reached h lg -> In nf (lg_nfs lg) ->
    (exists t a w, In t h /\ In a (b_actions (fst t)) /\ a_nf a = nf /\ In w (map cells_witness (cells_of extract t)) /\
       ((spends_own f n w /\ signed_by_owner f (sx (a_rk a) (snd t) (a_auth a) - w_alpha w)) \/
        nullifier_relation (spent_secret w) (own_secret f n) \/ foreign_opening f s w)) \/
    break into extract bx h.
  Proof.
    intros f s n nf h lg KF IW HN RE HI. destruct (revealed h lg nf RE HI) as [(t & a & w & T1 & T2 & T3 & T4 & T5 & T6)|B]; [left|right; exact B].
    exists t, a, w. split; [exact T1|]. split; [exact T2|]. split; [exact T3|]. split; [exact T4|].
    destruct (nullifier_spends L f s n nf _ w KF IW HN T5) as [S|[S|S]]; [cbn [to_instance i_nf_old]; exact T3| |right; left; exact S|right; right; exact S].
    left. split; [exact S|]. unfold signed_by_owner. rewrite <- T6. destruct S as [_ S]. symmetry in S. apply (pt_x_inj C L) in S. exact S.
  Qed.
End Chain.
