(** Two transactions on the computable curve: the first creates a note worth 1000, the second
    spends it and creates one worth 990. *)
From Coq Require Import String ZArith List Bool Lia.
From Coq Require Import Init.Byte.
From Verif Require Import Prelude PreludeFacts Spec NumTheory Fields FieldFacts Curve CurveFacts Oracles Sinsemilla SinsSpec SinsFacts RedPallas
  Value ValueFacts Keys KeysSpec KeysFacts Note NoteSpec NoteFacts Tree TreeSpec TreeFacts Action NoteEnc NoteEncSpec Bundle BundleSpec BundleFacts
  Batch Builder BuilderSpec Halo2 Halo2Facts Circuit CircuitSpec CircuitFacts CircuitBuildFacts PipelineSpec PipelineFacts LedgerSpec LedgerFacts
  NoteEncFacts WalletSpec Toy ToyFacts ToyKeys ToyNote ToyNoteEnc ToyBundle ToyBuilder ToyCircuit ToyPipeline.
Import ListNotations.
Open Scope Z_scope.

Section Generic.
  Context {C : Curve} {OR : @Oracles C}.

  Lemma node_ext : forall f g, (forall p, f p = g p) -> forall h i, node f h i = node g h i.
  Proof.
    intros f g E h. induction h as [|h IH]; intro i; cbn [node]; [apply E|]. rewrite !IH. reflexivity.
  Qed.
  Lemma root_ext : forall f g h, (forall p, f p = g p) -> tree_root f h = tree_root g h.
  Proof. intros f g h E. apply node_ext. exact E. Qed.
  Lemma no_leaves : forall p, leaves_of [] p = empty_leaf.
  Proof. intro p. unfold leaves_of. destruct ((0 <=? p) && (p <? Z.of_nat (length (@nil Z)))); [|reflexivity]. destruct (Z.to_nat p); reflexivity. Qed.
  Lemma one_leaf_of : forall x p, one_leaf x p = leaves_of [x] p.
  Proof.
    intros x p. unfold one_leaf, leaves_of. cbn [length]. destruct (Z.eqb_spec p 0) as [->|N]; [reflexivity|].
    destruct ((0 <=? p) && (p <? Z.of_nat 1)) eqn:E; [|reflexivity]. apply andb_true_iff in E as [E1 E2].
    apply Z.leb_le in E1. apply Z.ltb_lt in E2. lia.
  Qed.

  (** A transaction with one action, signed by whoever knows the two keys. *)
  Definition ct0 : note_ciphertext := mk_ciphertext (repeat x00 32) (repeat x00 580) (repeat x00 80).
  Lemma ct0_ok : ct_ok ct0.
  Proof. constructor; unfold ct0; cbn [ct_epk ct_enc ct_out]; apply repeat_length. Qed.
  Definition enc_ct (n : note) (memo : bytes) (cv : point) (cmx : Z) (r : rng) : note_ciphertext :=
    match encryptor_new None n memo with
    | Ret e => mk_ciphertext (epk_to_bytes (e_epk e)) (encrypt_note_plaintext e) (fst (encrypt_outgoing_plaintext e cv cmx r))
    | _ => ct0
    end.
  Definition signed_action (i : instance) (ct : note_ciphertext) (sk : Z) (sh : bytes) (r : rng) : action signature :=
    mk_action (i_nf_old i) (i_rk i) (i_cmx i) ct (i_cv_net i) (fst (sign SpendAuth sk sh r)).
  Definition one_tx (i : instance) (ct : note_ciphertext) (v : Z) (sk bsk : Z) (pf sh : bytes) (r : rng) : @tx C Z :=
    (mk_bundle [signed_action i ct sk sh r] (mk_flags true true) v (i_anchor i) (mk_authorized pf (fst (sign Binding bsk sh r))), sh).

  Lemma one_tx_valid : forall (L : CurveLaws C) halo2_verify i inst w ct v sk pf sh r, action_statement i w ->
    i_enable_spend i = true -> i_enable_output i = true -> w_v_old w - w_v_new w = v -> i64_ok v ->
    to_halo2_instance i = Ret inst -> halo2_verify pf [inst] = true -> i_rk i = vk_of SpendAuth sk ->
    let t := one_tx i ct v sk (w_rcv w) pf sh r in
    bundle_valid halo2_verify (fun x => x) (fst t) (snd t) /\ to_instances (fst t) = [i] /\
    omap to_halo2_instance (to_instances (fst t)) = Ret [inst].
  Proof.
    intros L ver i inst w ct v sk pf sh r ST E1 E2 EV IV HI HV RK t.
    assert (TI : to_instances (fst t) = [i]).
    { unfold t, one_tx, to_instances. cbn [fst b_actions map b_flags b_anchor]. destruct i as [an cv nf rk cx es eo].
      cbn [i_enable_spend i_enable_output] in E1, E2. subst es eo. reflexivity. }
    assert (TH : omap to_halo2_instance (to_instances (fst t)) = Ret [inst]).
    { rewrite TI. cbn [omap]. rewrite HI. reflexivity. }
    split; [|split; [exact TI|exact TH]]. split; [|split].
    - intros a [<-|[]]. unfold signed_action. cbn [a_rk a_auth]. rewrite RK. exact (sign_verifies L SpendAuth sk sh r).
    - exists (vk_of Binding (w_rcv w)). split; [|exact (sign_verifies L Binding (w_rcv w) sh r)].
      exact (proj2 (one_action_bundle L i w ct v ST E1 E2 EV IV)).
    - unfold verify_proof, proof_verify. rewrite TH. cbn [obind t one_tx fst b_auth au_proof]. rewrite HV. reflexivity.
  Qed.
  Lemma one_tx_ok : forall i ct v sk bsk pf sh r, ct_ok ct -> is_base (i_nf_old i) -> is_base (i_cmx i) -> is_i64 v -> is_base (i_anchor i) ->
    bundle_ok (fun x => x) (fst (one_tx i ct v sk bsk pf sh r)).
  Proof.
    intros i ct v sk bsk pf sh r H0 H1 H2 H3 H4. constructor; unfold one_tx; cbn [fst b_actions b_value_balance b_anchor].
    - constructor; [|constructor]. constructor; unfold signed_action; cbn [a_nf a_cmx a_ct]; [exact H1|exact H2|exact H0].
    - discriminate.
    - exact H3.
    - exact H4.
  Qed.

  Lemma enc_ct_encrypts : forall i n memo sk sh r cm esk, commitment n = Ret cm -> note_esk n = Ret esk ->
    i_nf_old i = n_rho n -> i_cmx i = cmx_of cm ->
    encrypts None n memo r (signed_action i (enc_ct n memo (i_cv_net i) (i_cmx i) r) sk sh r).
  Proof.
    intros i n memo sk sh r cm esk HC HE E1 E2. exists (mk_encryptor None n memo esk (ka_derive_public n esk)), cm.
    assert (EE : encryptor_new None n memo = Ret (mk_encryptor None n memo esk (ka_derive_public n esk))) by (unfold encryptor_new; rewrite HE; reflexivity).
    unfold enc_ct. rewrite EE. cbn [signed_action a_nf a_cmx a_ct a_cv ct_epk ct_enc ct_out].
    split; [reflexivity|]. split; [exact HC|]. split; [exact E1|]. split; [exact E2|]. split; [reflexivity|]. split; reflexivity.
  Qed.

  #[local] Opaque sins_hash_words sins_Q msg_words synthesize.
  Lemma spend_check_full : forall (L : CurveLaws C) s anchor alpha rcv g pk v psi rcm rivk,
    gd_fallback_ok -> is_base anchor -> provable (mk_flags true true) anchor s ->
    is_scalar alpha -> is_scalar rcv -> g <> pt_id -> pk <> pt_id -> is_u64 v -> is_base psi -> is_scalar rcm ->
    fvk_rivk_scope (s_fvk s) (s_scope s) = Ret rivk -> spend_check s alpha g pk v psi rcm = true ->
    exists i inst w k cmn, i_anchor i = anchor /\ to_halo2_instance i = Ret inst /\ action_statement i w /\
      circuit_sat inst k /\ cells_witness k = w /\
      w_v_old w = n_value (s_note s) /\ w_v_new w = v /\ w_rcv w = rcv /\
      i_enable_spend i = true /\ i_enable_output i = true /\
      note_nullifier (s_note s) (s_fvk s) = Ret (i_nf_old i) /\
      note_commitment_derive (pt_encode g) (pt_encode pk) v (i_nf_old i) psi rcm = Some cmn /\ i_cmx i = cmx_of cmn /\
      w_pos w = mp_position (s_path s).
  Proof.
    intros L s anchor alpha rcv g pk v psi rcm rivk GD HA PR S1 S2 N1 N2 U B S3 RV H. unfold spend_check in H.
    destruct (commitment (s_note s)) as [cm| |] eqn:CM; [|discriminate H|discriminate H].
    destruct (nf_derive (fvk_nk (s_fvk s)) (n_rho (s_note s)) (rseed_psi (n_rseed (s_note s)) (n_rho (s_note s))) cm) as [nf| |] eqn:NF;
      [|discriminate H|discriminate H].
    apply andb_true_iff in H as [H LD]. apply andb_true_iff in H as [CN RK].
    destruct (note_commitment_derive (pt_encode g) (pt_encode pk) v nf psi rcm) as [cmn|] eqn:CE; [|discriminate CN].
    apply negb_true_iff in RK.
    destruct (spend_circuit L s anchor alpha rcv g pk v psi rcm cm nf cmn rivk GD HA PR S1 S2 N1 N2 U B S3 CM RV NF CE RK LD)
      as (i & inst & w & k & E1 & E2 & E3 & E4 & E5 & E6 & E7 & E8 & E9 & E10 & E11 & E12 & E13 & E14).
    exists i, inst, w, k, cmn. rewrite E12. repeat (split; [assumption|]). split; [|split; [assumption|split; assumption]].
    unfold note_nullifier. rewrite CM. cbn [obind]. exact NF.
  Qed.
End Generic.

(** The first spends the dummy [my_note 0]. *)
Definition nf_of (n : note) : Z := match note_nullifier n toy_fvk with Ret nf => nf | _ => 0 end.
Definition nf1 : Z := nf_of (my_note 0).
Definition note2 : note := mk_note my_addr 1000 nf1 toy_rseed.
Definition nf2 : Z := nf_of note2.
Definition note3 : note := mk_note my_addr 990 nf2 toy_rseed.
Definition leaf2 : Z := match commitment note2 with Ret cm => pt_x cm | _ => 0 end.
Definition root2 : Z := mp_root first_path leaf2.
Definition spend1 : spend_info := mk_spend None toy_fvk External (my_note 0) first_path.
Definition spend2 : spend_info := mk_spend None toy_fvk External note2 first_path.

Definition have_esks (n1 n2 : @note toy_curve) : bool := match note_esk n1, note_esk n2 with Ret _, Ret _ => true | _, _ => false end.
(** One computation for all the facts, so that the kernel derives the nullifiers once. *)
Lemma chain_facts_true :
  spend_check spend1 5 (diversify_hash (ad_d my_addr)) (ad_pk_d my_addr) 1000
  (rseed_psi toy_rseed nf1) (rseed_rcm toy_rseed nf1) && (spend_check spend2 5 (diversify_hash (ad_d my_addr)) (ad_pk_d my_addr) 990
  (rseed_psi toy_rseed nf2) (rseed_rcm toy_rseed nf2) && (negb (nf_of note2 =? nf1) && (base_b nf2 && (have_esks note2 note3 && (negb ((nf_of note3 =? nf1) || (nf_of note3 =? nf2)) && base_b nf1))))) = true.
Proof. vm_compute. reflexivity. Qed.
Lemma and7 : forall a b c d e f g, a && (b && (c && (d && (e && (f && g))))) = true ->
  a = true /\ b = true /\ c = true /\ d = true /\ e = true /\ f = true /\ g = true.
Proof. intros [] [] [] [] [] [] []; cbn [andb]; intro H; try discriminate H. repeat split. Qed.
#[local] Opaque have_esks spend_check nf_of base_b note_esk nf1 nf2 note2 note3 spend1 spend2 diversify_hash rseed_psi rseed_rcm toy_rseed my_addr.
Lemma chain_facts_split : spend_check spend1 5 (diversify_hash (ad_d my_addr)) (ad_pk_d my_addr) 1000
  (rseed_psi toy_rseed nf1) (rseed_rcm toy_rseed nf1) = true /\ spend_check spend2 5 (diversify_hash (ad_d my_addr)) (ad_pk_d my_addr) 990
  (rseed_psi toy_rseed nf2) (rseed_rcm toy_rseed nf2) = true /\ negb (nf_of note2 =? nf1) = true /\ base_b nf2 = true /\ have_esks note2 note3 = true /\
  negb ((nf_of note3 =? nf1) || (nf_of note3 =? nf2)) = true /\ base_b nf1 = true.
Proof. exact (and7 _ _ _ _ _ _ _ chain_facts_true). Qed.
Lemma check1 : spend_check spend1 5 (diversify_hash (ad_d my_addr)) (ad_pk_d my_addr) 1000
  (rseed_psi toy_rseed nf1) (rseed_rcm toy_rseed nf1) = true.
Proof. exact (proj1 chain_facts_split). Qed.
Lemma check2 : spend_check spend2 5 (diversify_hash (ad_d my_addr)) (ad_pk_d my_addr) 990
  (rseed_psi toy_rseed nf2) (rseed_rcm toy_rseed nf2) = true.
Proof. exact (proj1 (proj2 chain_facts_split)). Qed.
Lemma nfs_differ : (nf_of note2 =? nf1) = false.
Proof. exact (proj1 (negb_true_iff _) (proj1 (proj2 (proj2 chain_facts_split)))). Qed.
Lemma nf2_base : base_b nf2 = true.
Proof. exact (proj1 (proj2 (proj2 (proj2 chain_facts_split)))). Qed.
Lemma esk_some : have_esks note2 note3 = true.
Proof. exact (proj1 (proj2 (proj2 (proj2 (proj2 chain_facts_split))))). Qed.
Lemma nf3_differs : ((nf_of note3 =? nf1) || (nf_of note3 =? nf2)) = false.
Proof. exact (proj1 (negb_true_iff _) (proj1 (proj2 (proj2 (proj2 (proj2 (proj2 chain_facts_split))))))). Qed.
Lemma nf1_base : base_b nf1 = true.
Proof. exact (proj2 (proj2 (proj2 (proj2 (proj2 (proj2 chain_facts_split)))))). Qed.

#[local] Transparent have_esks spend_check nf_of base_b note_esk nf1 nf2 note2 note3 spend1 spend2 diversify_hash rseed_psi rseed_rcm toy_rseed my_addr.
Lemma ret_inj : forall A (x y : A), Ret x = Ret y -> x = y.
Proof. intros A x y H. congruence. Qed.
Lemma nf_of_ret : forall n x, note_nullifier n toy_fvk = Ret x -> nf_of n = x.
Proof. intros n x H. unfold nf_of. rewrite H. reflexivity. Qed.
Lemma commits_to : forall {C : Curve} {OR : @Oracles C} (n : note) cm,
  note_commitment_derive (pt_encode (diversify_hash (ad_d (n_recipient n)))) (pt_encode (ad_pk_d (n_recipient n)))
    (n_value n) (n_rho n) (rseed_psi (n_rseed n) (n_rho n)) (rseed_rcm (n_rseed n) (n_rho n)) = Some cm -> commitment n = Ret cm.
Proof. intros C OR n cm H. unfold commitment, commitment_inner, ad_g_d. rewrite H. reflexivity. Qed.

#[local] Opaque spend_check toy_fvk my_addr commitment max_value diversify_hash synthesize empty_roots mp_root pmod qmod
  tree_root one_leaf leaves_of nf1 nf2 note_nullifier enc_ct try_note_decryption sign to_instances omap to_halo2_instance note_commitment_derive toy_log.


(** The tree is empty before the first transaction. *)
Definition root1 : Z := @tree_root toy_curve toy_oracles (@leaves_of []) 32.
Lemma root1_base : is_base root1.
Proof. apply (root_base toy_laws). intro p. apply leaves_base. constructor. Qed.
Lemma provable1 : provable (mk_flags true true) root1 spend1.
Proof.
  constructor; cbn [spend1 s_fvk s_note s_path s_scope].
  - exact toy_fvk_ok.
  - apply my_note_ok. split; [discriminate|reflexivity].
  - exact first_path_ok.
  - exists (div_index_of_u32 3). split; [reflexivity|exact my_addr_derived].
  - left. reflexivity.
  - left. reflexivity.
Qed.
Lemma note2_ok : note_ok note2.
Proof.
  constructor; cbn [note2 n_recipient n_value n_rho n_rseed].
  - exact my_addr_ok.
  - split; [discriminate|reflexivity].
  - apply base_b_ok. exact nf1_base.
  - reflexivity.
Qed.
Lemma note3_ok : note_ok note3.
Proof.
  constructor; cbn [note3 n_recipient n_value n_rho n_rseed].
  - exact my_addr_ok.
  - split; [discriminate|reflexivity].
  - apply base_b_ok. exact nf2_base.
  - reflexivity.
Qed.
Lemma have_esks_spec : forall n1 n2, have_esks n1 n2 = true -> (exists e, note_esk n1 = Ret e) /\ (exists e, note_esk n2 = Ret e).
Proof.
  intros n1 n2 H. unfold have_esks in H. destruct (note_esk n1) as [e| |]; [|discriminate H|discriminate H].
  destruct (note_esk n2) as [e'| |]; [|discriminate H|discriminate H]. split; [exists e|exists e']; reflexivity.
Qed.
Lemma esks : (exists e, note_esk note2 = Ret e) /\ (exists e, note_esk note3 = Ret e).
Proof. exact (have_esks_spec note2 note3 esk_some). Qed.
Lemma my_ivk : exists k, fvk_to_ivk toy_fvk External = Ret k /\ ivk_ok k /\ owned_by k my_addr.
Proof.
  destruct (fvk_ok_to_ivk toy_laws toy_fvk External toy_fvk_ok) as (k & E & K). exists k. split; [exact E|]. split; [exact K|].
  pose proof my_addr_derived as D. unfold fvk_address_at in D. rewrite E in D. apply ret_inj in D. rewrite <- D. reflexivity.
Qed.
Lemma provable2 : forall cm, commitment note2 = Ret cm -> provable (mk_flags true true) (mp_root first_path (pt_x cm)) spend2.
Proof.
  intros cm E. constructor; cbn [spend2 s_fvk s_note s_path s_scope].
  - exact toy_fvk_ok.
  - exact note2_ok.
  - exact first_path_ok.
  - exists (div_index_of_u32 3). split; [reflexivity|exact my_addr_derived].
  - right. exists cm. split; [exact E|reflexivity].
  - right. reflexivity.
Qed.

Lemma toy_wallet_full : exists halo2_verify extract h lg,
  (exists t1 t2, h = [t1; t2] /\ map a_nf (b_actions (fst t1)) = [nf1] /\ map a_nf (b_actions (fst t2)) = [nf2]) /\
  finds_cells halo2_verify extract /\ finds_keys SpendAuth (toy_log SpendAuth) /\ finds_keys Binding (toy_log Binding) /\
  reached halo2_verify (fun v : Z => v) h lg /\ length h = 2%nat /\ lg_pool lg = 990 /\ existsb spends_value (acts extract h) = true /\
  receives toy_fvk External h 0 note2 /\ receives toy_fvk External h 1 note3 /\ note_nullifier note2 toy_fvk = Ret nf2 /\
  In nf2 (lg_nfs lg) /\ (exists nf, note_nullifier note3 toy_fvk = Ret nf /\ ~ In nf (lg_nfs lg)) /\
  (exists a, In a (acts extract h) /\ spends_value a = true /\ position a = 0).
Proof.
  set (g := diversify_hash (ad_d my_addr)). set (pk := ad_pk_d my_addr).
  assert (G : g <> pt_id) by exact (diversify_hash_nonid toy_laws (ad_d my_addr) toy_gd).
  assert (PK : pk <> pt_id) by exact (proj2 my_addr_ok).
  assert (U1 : is_u64 1000) by (split; [discriminate|reflexivity]). assert (U2 : is_u64 990) by (split; [discriminate|reflexivity]).
  destruct (spend_check_full toy_laws spend1 root1 5 7 g pk 1000 (rseed_psi toy_rseed nf1) (rseed_rcm toy_rseed nf1) (fvk_rivk toy_fvk)
    toy_gd root1_base provable1 (small_scalar 5 ltac:(lia)) (small_scalar 7 ltac:(lia)) G PK U1 (psi_range _ _) (rcm_range _ _) eq_refl check1)
    as (i1 & inst1 & w1 & k1 & cm2 & A1 & A2 & A3 & A4 & A5 & A6 & A7 & A8 & A9 & A10 & A11 & A12 & A13 & _).
  assert (N1 : i_nf_old i1 = nf1).
  { cbn [spend1 s_note s_fvk] in A11. apply nf_of_ret in A11. exact (eq_sym A11). }
  rewrite N1 in A12.
  assert (CM2 : commitment note2 = Ret cm2) by exact (commits_to note2 cm2 A12).
  set (root := mp_root first_path (pt_x cm2)).
  assert (CB : is_base (cmx_of cm2)) by exact (x_range toy_laws cm2).
  assert (ER : root = tree_root (leaves_of [cmx_of cm2]) 32).
  { unfold root. rewrite one_leaf_root. apply root_ext. intro p. apply one_leaf_of. }
  assert (RB : is_base root).
  { rewrite ER. apply (root_base toy_laws). apply leaves_base. constructor; [exact CB|constructor]. }
  destruct (spend_check_full toy_laws spend2 root 5 7 g pk 990 (rseed_psi toy_rseed nf2) (rseed_rcm toy_rseed nf2) (fvk_rivk toy_fvk)
    toy_gd RB (provable2 cm2 CM2) (small_scalar 5 ltac:(lia)) (small_scalar 7 ltac:(lia)) G PK U2 (psi_range _ _) (rcm_range _ _) eq_refl check2)
    as (i2 & inst2 & w2 & k2 & cm3 & B1 & B2 & B3 & B4 & B5 & B6 & B7 & B8 & B9 & B10 & B11 & B12 & B13 & B14).
  assert (N2 : i_nf_old i2 <> nf1).
  { cbn [spend2 s_note s_fvk] in B11. apply nf_of_ret in B11. rewrite <- B11. apply Z.eqb_neq. exact nfs_differ. }
  cbn [spend1 spend2 s_note n_value my_note note2] in A6, B6.
  set (ver := fun (p : bytes) (is : list (list Z)) =>
    if list_eq_dec (list_eq_dec Z.eq_dec) is (match p with [] => [inst1] | _ => [inst2] end) then true else false).
  set (ext := fun (p : bytes) (is : list (list Z)) => match p with [] => [k1] | _ => [k2] end).
  set (sk1 := toy_log SpendAuth (i_rk i1) [] (mk_sig [] [])). set (sk2 := toy_log SpendAuth (i_rk i2) [] (mk_sig [] [])).
  set (ct1 := enc_ct note2 toy_memo (i_cv_net i1) (i_cmx i1) toy_rng). set (ct2 := enc_ct note3 toy_memo (i_cv_net i2) (i_cmx i2) toy_rng).
  set (t1 := one_tx i1 ct1 (-1000) sk1 (w_rcv w1) [] toy_sighash toy_rng). set (t2 := one_tx i2 ct2 10 sk2 (w_rcv w2) [x01] toy_sighash toy_rng).
  destruct (one_tx_valid toy_laws ver i1 inst1 w1 ct1 (-1000) sk1 [] toy_sighash toy_rng A3 A9 A10) as (V1 & I1 & H1).
  { rewrite A6, A7. reflexivity. } { unfold i64_ok. lia. } { exact A2. }
  { unfold ver. destruct (list_eq_dec _ [inst1] [inst1]); congruence. } { apply toy_log_ok. apply Z.eqb_neq. apply toy_bases_nz. }
  destruct (one_tx_valid toy_laws ver i2 inst2 w2 ct2 10 sk2 [x01] toy_sighash toy_rng B3 B9 B10) as (V2 & I2 & H2).
  { rewrite B6, B7. reflexivity. } { unfold i64_ok. lia. } { exact B2. }
  { unfold ver. destruct (list_eq_dec _ [inst2] [inst2]); congruence. } { apply toy_log_ok. apply Z.eqb_neq. apply toy_bases_nz. }
  fold t1 in V1, I1, H1. fold t2 in V2, I2, H2.
  assert (NB : is_base nf1) by (apply base_b_ok; exact nf1_base).
  assert (NB2 : is_base (i_nf_old i2)).
  { pose proof (st_nf _ _ B3) as NF. rewrite nf_derive_ret in NF. rewrite <- (ret_inj _ _ _ NF). apply (x_range toy_laws). }
  destruct esks as [(e2 & ES2) (e3 & ES3)]. destruct my_ivk as (k & EK & KK & OW).
  assert (N2' : i_nf_old i2 = nf2).
  { cbn [spend2 s_note s_fvk] in B11. apply nf_of_ret in B11. exact (eq_sym B11). }
  rewrite N2' in B12. assert (CM3 : commitment note3 = Ret cm3) by exact (commits_to note3 cm3 B12).
  pose proof (enc_ct_encrypts i1 note2 toy_memo sk1 toy_sighash toy_rng cm2 e2 CM2 ES2 N1 A13) as EN1.
  pose proof (enc_ct_encrypts i2 note3 toy_memo sk2 toy_sighash toy_rng cm3 e3 CM3 ES3 N2' B13) as EN2.
  destruct (encrypts_roundtrip toy_laws _ _ _ _ _ _ toy_gd note2_ok (repeat_length x41 512) EN1) as (CT1 & D1 & _).
  destruct (encrypts_roundtrip toy_laws _ _ _ _ _ _ toy_gd note3_ok (repeat_length x41 512) EN2) as (CT2 & D2 & _).
  destruct (D1 k KK OW) as [D1' _]. destruct (D2 k KK OW) as [D2' _]. clear D1 D2 EN1 EN2.
  fold ct1 in CT1, D1'. fold ct2 in CT2, D2'.
  assert (NN3 : exists nf, note_nullifier note3 toy_fvk = Ret nf /\ nf <> nf1 /\ nf <> nf2).
  { destruct (nullifier_total toy_laws note3 toy_fvk cm3 CM3) as (nf & EN & _). exists nf. split; [exact EN|]. apply nf_of_ret in EN. rewrite <- EN.
    pose proof nf3_differs as X. apply orb_false_iff in X as [X1 X2]. split; apply Z.eqb_neq; assumption. }
  exists ver, ext, ([] ++ [t1] ++ [t2]), (apply (fun v : Z => v) (apply (fun v : Z => v) genesis t1) t2).
  split. { exists t1, t2. split; [reflexivity|]. split; [exact (f_equal (fun z => [z]) N1)|exact (f_equal (fun z => [z]) N2')]. }
  split. { intros p is HV. unfold ver in HV. destruct (list_eq_dec _ is _) as [->|]; [|discriminate HV].
    unfold ext. destruct p; (constructor; [assumption|constructor]). }
  split; [apply toy_finds_keys; apply Z.eqb_neq; apply toy_bases_nz|]. split; [apply toy_finds_keys; apply Z.eqb_neq; apply toy_bases_nz|].
  split; [|split; [reflexivity|split; [reflexivity|split; [|split; [|split; [|split; [|split; [|split]]]]]]]].
  - rewrite app_assoc. apply R_apply; [apply R_apply; [constructor|]|].
    + constructor.
      * apply one_tx_ok; [exact CT1|rewrite N1; exact NB|rewrite A13; exact CB|unfold is_i64; lia|rewrite A1; exact root1_base].
      * exact V1.
      * exists 0%nat. split; [apply Nat.le_0_l|]. exact A1.
      * cbn. constructor; [intros []|constructor].
      * cbn. lia.
    + constructor.
      * apply one_tx_ok; [exact CT2|exact NB2|rewrite B13; exact (x_range toy_laws cm3)|unfold is_i64; lia|rewrite B1; exact RB].
      * exact V2.
      * exists 1%nat. split; [apply le_n|]. cbn [apply genesis lg_cmxs t1 t2 one_tx fst b_actions map signed_action a_cmx app firstn b_anchor].
        rewrite A13, B1. exact ER.
      * cbn [apply genesis lg_nfs t1 t2 one_tx fst b_actions map signed_action a_nf app]. rewrite N1.
        constructor; [intros [X|[]]; exact (N2 X)|]. constructor; [intros []|constructor].
      * cbn. lia.
  - cbn [app acts flat_map]. rewrite app_nil_r, existsb_app. apply orb_true_iff. right.
    unfold acts_of. rewrite I2. unfold cells_of. rewrite H2. unfold t2, one_tx. cbn [fst b_auth au_proof]. unfold ext.
    cbn [map List.combine existsb]. unfold spends_value. cbn [snd]. rewrite B5, B6. reflexivity.
  - exists (signed_action i1 ct1 sk1 toy_sighash toy_rng), k, my_addr, toy_memo. split; [reflexivity|]. split; [exact EK|exact D1'].
  - exists (signed_action i2 ct2 sk2 toy_sighash toy_rng), k, my_addr, toy_memo. split; [reflexivity|]. split; [exact EK|exact D2'].
  - rewrite <- N2'. exact B11.
  - right. left. exact N2'.
  - destruct NN3 as (nf & X1 & X2 & X3). exists nf. split; [exact X1|]. intros [X|[X|[]]].
    + apply X2. rewrite <- X. exact N1.
    + apply X3. rewrite <- X. exact N2'.
  - exists (i2, w2). split; [|split].
    + cbn [app acts flat_map]. rewrite app_nil_r. apply in_or_app. right.
      unfold acts_of. rewrite I2. unfold cells_of. rewrite H2. unfold t2, one_tx. cbn [fst b_auth au_proof]. unfold ext.
      cbn [map List.combine]. rewrite B5. left. reflexivity.
    + unfold spends_value. cbn [snd]. rewrite B6. reflexivity.
    + unfold position. cbn [snd]. rewrite B14. reflexivity.
Qed.
Lemma toy_wallet : exists halo2_verify extract h lg,
  finds_cells halo2_verify extract /\ finds_keys SpendAuth (toy_log SpendAuth) /\ finds_keys Binding (toy_log Binding) /\
  reached halo2_verify (fun v : Z => v) h lg /\ length h = 2%nat /\ lg_pool lg = 990 /\ existsb spends_value (acts extract h) = true /\
  receives toy_fvk External h 0 note2 /\ receives toy_fvk External h 1 note3 /\ note_nullifier note2 toy_fvk = Ret nf2 /\
  In nf2 (lg_nfs lg) /\ (exists nf, note_nullifier note3 toy_fvk = Ret nf /\ ~ In nf (lg_nfs lg)) /\
  (exists a, In a (acts extract h) /\ spends_value a = true /\ position a = 0).
Proof.
  destruct toy_wallet_full as (ver & ext & h & lg & _ & H). exists ver, ext, h, lg. exact H.
Qed.
Lemma toy_history : exists halo2_verify extract h lg,
  finds_cells halo2_verify extract /\ finds_keys SpendAuth (toy_log SpendAuth) /\ finds_keys Binding (toy_log Binding) /\
  reached halo2_verify (fun v : Z => v) h lg /\ length h = 2%nat /\ lg_pool lg = 990 /\ existsb spends_value (acts extract h) = true.
Proof.
  destruct toy_wallet as (ver & ext & h & lg & H1 & H2 & H3 & H4 & H5 & H6 & H7 & _). exists ver, ext, h, lg.
  split; [exact H1|]. split; [exact H2|]. split; [exact H3|]. split; [exact H4|]. split; [exact H5|]. split; [exact H6|exact H7].
Qed.
