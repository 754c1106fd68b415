(** Proofs for C93. *)
From Coq Require Import String ZArith List Bool Lia Permutation.
From Coq Require Import Init.Byte.
From Verif Require Import Prelude Fields Curve Oracles Spec Sinsemilla SinsSpec RedPallas Value Keys KeysSpec Note NoteSpec Tree TreeSpec
  Action NoteEnc NoteEncSpec Bundle Batch Builder Signing BundleSpec BuilderSpec SigningSpec Halo2 Circuit CircuitSpec PipelineSpec LedgerSpec
  WalletSpec BackedSpec LifeSpec BalanceSpec LightSpec PreludeFacts NumTheory CurveFacts CodecFacts NoteFacts KeysFacts NoteEncFacts TreeFacts BuilderFacts
  BuildFacts SigningFacts PipelineFacts LedgerFacts WalletFacts BackedFacts OwnerFacts BalanceFacts.
Import ListNotations.
Open Scope Z_scope.

Section Tag.
  Context {C : Curve} {OR : @Oracles C}.
  Lemma compact_tag : forall A B (a : action A) (a' : action B), tag_replaced a a' -> compact_of_action a' = compact_of_action a.
  Proof.
    intros A B a a' (E1 & E2 & E3 & E4 & _). unfold compact_of_action. rewrite E1, E2, E3. f_equal.
    unfold slice. cbn [skipn]. change (52 - 0)%nat with 52%nat. change 52%nat with (Nat.min 52 564) at 1 2. rewrite <- !firstn_firstn, E4. reflexivity.
  Qed.
  Lemma full_tag : forall A (k : ivk) (a : action A) epk x, epk_from_bytes (ct_epk (a_ct a)) = Some epk -> try_note_decryption k a = Ret (Some x) ->
    skipn 564 (ct_enc (a_ct a)) = poly_tag (dec_key (ivk_ivk k) epk (ct_epk (a_ct a))) (firstn 564 (ct_enc (a_ct a))).
  Proof.
    intros A k a epk x EE H. unfold try_note_decryption, try_note_decryption_raw in H. rewrite EE in H.
    unfold try_note_decryption_inner, note_plaintext_size in H.
    destruct (aead_decrypt 564 (dec_key (ivk_ivk k) epk (ct_epk (a_ct a))) (ct_enc (a_ct a))) as [pt|] eqn:EA; [|discriminate H].
    exact (proj2 (aead_decrypt_some _ _ _ _ EA)).
  Qed.
  Lemma full_epk : forall A (k : ivk) (a : action A) x, try_note_decryption k a = Ret (Some x) -> exists epk, epk_from_bytes (ct_epk (a_ct a)) = Some epk.
  Proof.
    intros A k a x H. unfold try_note_decryption, try_note_decryption_raw in H.
    destruct (epk_from_bytes (ct_epk (a_ct a))) as [epk|]; [exists epk; reflexivity|discriminate H].
  Qed.
End Tag.

#[local] Opaque sins_commit prf_expand to_scalar to_base le_bits bytes_bits msg_words sins_Q commit_R lin.
#[local] Opaque node tree_root auth_path root_loop root_inputs commitment build try_note_decryption try_compact_note_decryption diversify_hash note_nullifier.

Section Light.
  Context {C : Curve} {OR : @Oracles C} {V : Type}.
  Variable L : CurveLaws C.
  Notation tx := (@tx C V).
  Local Notation QN := (sins_Q "z.cash:Orchard-NoteCommit-M").
  Local Notation RN := (commit_R "z.cash:Orchard-NoteCommit").

  Lemma encrypts_base : forall A ovk n memo r (a : action A), note_ok n -> encrypts ovk n memo r a -> is_base (a_nf a) /\ is_base (a_cmx a).
  Proof.
    intros A ovk n memo r a KN (e & cm & _ & _ & E1 & E2 & _). rewrite E1, E2. split; [exact (no_rho _ KN)|]. unfold cmx_of. apply (x_range L).
  Qed.

  Lemma light_reads : forall A (k : ivk) ovk n0 memo r (a : action A), gd_fallback_ok -> ivk_ok k -> note_ok n0 -> length memo = 512%nat ->
    encrypts ovk n0 memo r a ->
    match try_compact_note_decryption k (compact_of_action a) with
    | Ret (Some (n, to)) => (exists m, try_note_decryption k a = Ret (Some (n, to, m))) \/ two_openings QN RN (own_opening n) (own_opening n0)
    | Ret None => try_note_decryption k a = Ret None
    | _ => False
    end.
  Proof.
    intros A k ovk n0 memo r a GD KK KN0 ML EN. destruct (encrypts_roundtrip L _ _ _ _ _ _ GD KN0 ML EN) as (CT & RT & _).
    destruct (encrypts_base _ _ _ _ _ _ KN0 EN) as [B1 B2].
    assert (CL : length (c_enc (compact_of_action a)) = 52%nat).
    { cbn [compact_of_action c_enc]. unfold slice. cbn [skipn]. rewrite firstn_length, (co_enc _ CT). reflexivity. }
    destruct (compact_sound L k (compact_of_action a) GD KK CL B1 B2) as (rc & EC & SC). rewrite EC.
    destruct rc as [[n to]|].
    - destruct (SC n to eq_refl) as (KN & (_ & (cm & HC & EX) & _) & ET & OW). destruct EN as (e & cm0 & _ & HC0 & _ & EC0 & _).
      destruct (openings_agree L (own_opening n) (own_opening n0) cm cm0) as [E|E].
      + cbn [own_opening note_opening fst]. rewrite !note_msg_length. reflexivity.
      + cbn [own_opening note_opening fst]. rewrite note_msg_length. lia.
      + apply rcm_range.
      + apply rcm_range.
      + apply note_opening_commits. exact HC.
      + apply note_opening_commits. exact HC0.
      + rewrite EX. cbn [compact_of_action c_cmx]. rewrite EC0. reflexivity.
      + left. apply (f_equal fst) in E. cbn [own_opening note_opening fst pn_g_d pn_pk_d pn_value pn_rho pn_psi] in E.
        apply (note_msg_inj L) in E; [|apply (no_value _ KN)|apply (no_value _ KN0)|apply (no_rho _ KN)|apply (no_rho _ KN0)|apply psi_range|apply psi_range].
        destruct E as (E1 & E2 & _). assert (OW0 : owned_by k (n_recipient n0)).
        { subst to. unfold owned_by in *. rewrite <- E1, <- E2. exact OW. }
        destruct (RT k KK OW0) as [F1 F2]. exists memo. rewrite F1. rewrite EC in F2. congruence.
      + right. exact E.
    - destruct (full_sound L _ k a GD KK CT B1 B2) as (rf & EF & _). rewrite EF. destruct rf as [[[n to] m]|]; [|reflexivity].
      destruct (compact_agrees _ k a CT) as [X _]. apply X in EF. congruence.
  Qed.

  Lemma light_opens : forall A f ovk n0 memo r (a : action A), gd_fallback_ok -> fvk_ok f -> note_ok n0 -> length memo = 512%nat ->
    encrypts ovk n0 memo r a ->
    opens_compact f (compact_of_action a) = opens f a \/
    exists n, opens_compact f (compact_of_action a) = Some n /\ two_openings QN RN (own_opening n) (own_opening n0).
  Proof.
    intros A f ovk n0 memo r a GD KF KN ML EN. unfold opens_compact, opens.
    destruct (fvk_ok_to_ivk L f External KF) as (e & HE & KE). destruct (fvk_ok_to_ivk L f Internal KF) as (i & HI & KI). rewrite HE, HI.
    pose proof (light_reads _ e _ _ _ _ _ GD KE KN ML EN) as XE. pose proof (light_reads _ i _ _ _ _ _ GD KI KN ML EN) as XI.
    destruct (try_compact_note_decryption e (compact_of_action a)) as [[[n to]|]|w|]; [| |contradiction|contradiction].
    - destruct XE as [[m ->]|X]; [left; reflexivity|right; exists n; split; [reflexivity|exact X]].
    - rewrite XE. destruct (try_compact_note_decryption i (compact_of_action a)) as [[[n to]|]|w|]; [| |contradiction|contradiction].
      + destruct XI as [[m ->]|X]; [left; reflexivity|right; exists n; split; [reflexivity|exact X]].
      + rewrite XI. left. reflexivity.
  Qed.

  Lemma compact_effects : forall A B (a : action A) (b : action B), action_effects a = action_effects b -> compact_of_action a = compact_of_action b.
  Proof. intros A B a b H. exact (f_equal compact_of_action H). Qed.

  Variables (halo2_prove : list witness -> list (list Z) -> rng -> option bytes * rng) (halo2_verify : bytes -> list (list Z) -> bool)
    (try_from : Z -> option V) (into : V -> Z).

  Lemma light_made : forall f anchor b (t : tx) meta ws k a, gd_fallback_ok -> fvk_ok f -> made halo2_prove try_from anchor b t meta ws ->
    nth_error (b_actions (fst t)) k = Some a ->
    opens_compact f (compact_of_action a) = opens f a \/
    exists w n, nth_error ws k = Some w /\ opens_compact f (compact_of_action a) = Some n /\
      two_openings QN RN (own_opening n) (note_opening (mk_plain (w_g_d_new w) (w_pk_d_new w) (w_v_new w) (a_nf a) (w_psi_new w)) (w_rcm_new w)).
  Proof.
    intros f anchor b t meta ws k a GD KF (ty & fuel & r & b0 & r' & b1 & RB & E & H & F & ->) HA.
    destruct (reachable_legal L _ _ _ RB) as ((LS & LO) & _).
    destruct (build_plan L _ _ _ _ _ _ _ _ _ GD RB E) as [plan B].
    destruct (history_final_effects halo2_prove b0 (snd t) b1 (fst t) into H F) as (EF & _).
    assert (LT : length (b_actions (fst t)) = length plan).
    { rewrite <- (bu_actions _ _ _ _ B). apply (f_equal (fun x => length (b_actions x))) in EF. cbn [effects b_actions] in EF.
      rewrite !map_length in EF. exact EF. }
    assert (HK : (k < length plan)%nat) by (rewrite <- LT; apply nth_error_Some; congruence).
    destruct (nth_error plan k) as [[s o]|] eqn:EP; [|apply nth_error_None in EP; lia].
    destruct (bu_each _ _ _ _ B k s o EP) as (a0 & w & n0 & alpha & rcv & B1 & B2 & B3).
    destruct (effects_nth _ _ _ _ b0 (fst t) k a0 (eq_sym EF) B1) as (a' & A1 & A2). assert (a' = a) by congruence. subst a'.
    assert (OOK : length (o_memo o) = 512%nat).
    { assert (HI : In o (map snd plan)) by (apply in_map_iff; exists (s, o); split; [reflexivity|apply (nth_error_In _ _ EP)]).
      destruct (bu_outputs _ _ _ _ B) as (os & P & DO). apply (Permutation_in _ P) in HI. apply in_app_iff in HI as [HI|HI].
      - apply (ol_memo _ _ (proj1 (Forall_forall _ _) LO o HI)).
      - rewrite (do_memo _ (proj1 (Forall_forall _ _) DO o HI)). cbn [length]. rewrite repeat_length. reflexivity. }
    destruct (ac_encrypts _ _ _ _ _ _ _ B3) as [r0 EN].
    rewrite (compact_effects _ _ a a0 A2), (opens_effects _ _ f a a0 A2).
    destruct (light_opens _ f _ _ _ _ _ GD KF (ac_note _ _ _ _ _ _ _ B3) OOK EN) as [X|(n & X & Y)]; [left; exact X|right].
    exists w, n. split; [exact B2|]. split; [exact X|].
    assert (EX : a_nf a = a_nf a0) by (apply (f_equal a_nf) in A2; cbn [action_effects a_nf] in A2; congruence). rewrite EX.
    destruct (ac_witness _ _ _ _ _ _ _ B3) as (c & rv & _ & _ & ->). cbn [w_g_d_new w_pk_d_new w_v_new w_psi_new w_rcm_new].
    rewrite <- (ac_rho _ _ _ _ _ _ _ B3). exact Y.
  Qed.

  Notation entry_made := (entry_made halo2_prove try_from).

  Lemma light_agrees : forall f es, gd_fallback_ok -> fvk_ok f -> Forall entry_made es ->
    (forall a, In a (chain_actions (map en_tx es)) -> opens_compact f (compact_of_action a) = opens f a) \/ light_surprise f es.
  Proof.
    intros f es GD KF H. induction H as [|e es [anchor M] H IH]; [left; intros a []|]. destruct IH as [IH|[e' k a w n I1 I2 I3 I4 I5]].
    2:{ right. exact (LS_opening f (e :: es) e' k a w n (or_intror I1) I2 I3 I4 I5). }
    assert (X : (forall a, In a (b_actions (fst (en_tx e))) -> opens_compact f (compact_of_action a) = opens f a) \/ light_surprise f (e :: es)).
    { apply or_all. intros a HA. apply In_nth_error in HA as [k HK].
      destruct (light_made f anchor _ _ _ _ k a GD KF M HK) as [X|(w & n & X1 & X2 & X3)]; [left; exact X|right].
      exact (LS_opening f (e :: es) e k a w n (or_introl eq_refl) HK X1 X2 X3). }
    destruct X as [X|X]; [left|right; exact X]. intros a HA. cbn [map] in HA. change (en_tx e :: map en_tx es) with ([en_tx e] ++ map en_tx es) in HA.
    rewrite chain_app, chain_one in HA. apply in_app_iff in HA as [HA|HA]; [exact (X a HA)|exact (IH a HA)].
  Qed.

  Lemma light_same_balance : forall f es, gd_fallback_ok -> fvk_ok f -> Forall entry_made es ->
    light_balance f (compact_chain (map en_tx es)) = balance f (map en_tx es) \/ light_surprise f es.
  Proof.
    intros f es GD KF H. destruct (light_agrees f es GD KF H) as [X|X]; [left|right; exact X].
    unfold light_balance, balance, compact_chain. rewrite map_map. cbn [compact_of_action c_nf]. rewrite map_map. f_equal.
    apply map_ext_in. intros a HA. unfold light_worth, worth. rewrite (X a HA). reflexivity.
  Qed.

  Lemma account_made : forall f es lg, account halo2_prove halo2_verify try_from into f es lg -> Forall entry_made es.
  Proof.
    intros f es lg H. induction H as [|es lg e anchor H IH MD AC SF]; [constructor|]. apply Forall_app. split; [exact IH|].
    constructor; [exists anchor; exact MD|constructor].
  Qed.

  Lemma light_account_book : forall f mine es lg, gd_fallback_ok -> fvk_ok f -> decides mine f -> account halo2_prove halo2_verify try_from into f es lg ->
    light_balance f (compact_chain (map en_tx es)) =
      zsum (map (fun e => receipts mine (en_builder e)) es) - zsum (map (fun e => payments mine (en_builder e)) es) \/
    account_surprise f es \/ light_surprise f es.
  Proof.
    intros f mine es lg GD KF D A. destruct (light_same_balance f es GD KF (account_made _ _ _ A)) as [->|X]; [|right; right; exact X].
    destruct (account_book L _ _ _ _ f mine es lg GD KF D A) as [X|X]; [left; exact X|right; left; exact X].
  Qed.

  (** A replaced tag. *)
  Lemma light_reads_more : forall A B (k : ivk) ovk n memo r (a : action A) (a' : action B), gd_fallback_ok -> ivk_ok k -> note_ok n -> length memo = 512%nat ->
    encrypts ovk n memo r a -> owned_by k (n_recipient n) -> tag_replaced a a' ->
    try_compact_note_decryption k (compact_of_action a') = Ret (Some (n, n_recipient n)) /\ forall x, try_note_decryption k a' <> Ret (Some x).
  Proof.
    intros A B k ovk n memo r a a' GD KK KN ML EN OW T. destruct (encrypts_roundtrip L _ _ _ _ _ _ GD KN ML EN) as (CT & RT & _).
    destruct (RT k KK OW) as [F1 F2]. rewrite (compact_tag _ _ _ _ T). split; [exact F2|]. intros x H.
    destruct (full_epk _ _ _ _ F1) as [epk EE]. pose proof (full_tag _ _ _ _ _ EE F1) as T1. destruct T as (E1 & E2 & E3 & E4 & E5).
    rewrite <- E3 in EE. pose proof (full_tag _ _ _ _ _ EE H) as T2. apply E5. rewrite T1, T2, E3, E4. reflexivity.
  Qed.
End Light.

Section Other.
  Context {C : Curve}.
  Definition other_tag (t : bytes) : bytes := match t with x00 :: l => x01 :: l | _ :: l => x00 :: l | [] => [] end.
  Definition spoil {A} (a : action A) : action A :=
    mk_action (a_nf a) (a_rk a) (a_cmx a) (mk_ciphertext (ct_epk (a_ct a)) (firstn 564 (ct_enc (a_ct a)) ++ other_tag (skipn 564 (ct_enc (a_ct a)))) (ct_out (a_ct a))) (a_cv a) (a_auth a).
  Lemma spoil_replaces : forall A (a : action A), length (ct_enc (a_ct a)) = 580%nat -> tag_replaced a (spoil a).
  Proof.
    intros A a HL. unfold tag_replaced, spoil. cbn [a_nf a_cmx a_ct ct_epk ct_enc]. do 3 (split; [reflexivity|]).
    assert (FL : length (firstn 564 (ct_enc (a_ct a))) = 564%nat) by (rewrite firstn_length; lia).
    rewrite (firstn_app_len _ _ _ _ FL), (skipn_app_len _ _ _ _ FL). split; [reflexivity|].
    assert (SL : length (skipn 564 (ct_enc (a_ct a))) = 16%nat) by (rewrite skipn_length; lia).
    destruct (skipn 564 (ct_enc (a_ct a))) as [|x l]; [discriminate SL|]. clear. destruct x; cbn [other_tag]; congruence.
  Qed.
End Other.
