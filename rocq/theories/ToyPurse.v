(** A wallet that found one note of 1000 in a transaction of two actions and spends it from the full tree. *)
From Coq Require Import String ZArith List Bool Lia.
From Coq Require Import Init.Byte.
From Verif Require Import Prelude PreludeFacts Spec NumTheory Fields FieldFacts Curve CurveFacts Oracles Sinsemilla SinsSpec SinsFacts RedPallas
  Value ValueFacts Keys KeysSpec KeysFacts Note NoteSpec NoteFacts Tree TreeSpec TreeFacts Action NoteEnc NoteEncSpec Bundle BundleSpec BundleFacts
  Batch Builder BuilderSpec BuilderFacts BuildFacts Signing SigningSpec SigningFacts Halo2 Halo2Facts Circuit CircuitSpec CircuitFacts CircuitBuildFacts
  PipelineSpec PipelineFacts LedgerSpec LedgerFacts WalletSpec WalletFacts BackedSpec LifeSpec LifeFacts BalanceSpec BalanceFacts PurseSpec PurseFacts
  NoteEncFacts Toy ToyFacts ToyKeys ToyNote ToyNoteEnc ToyBundle ToyBuilder ToySigning ToyCircuit ToyPipeline ToyLedger ToyLife ToyBalance.
Import ListNotations.
Open Scope Z_scope.

Section Generic.
  Context {C : Curve} {OR : @Oracles C}.
  Lemma node_leaf : forall lv i, node lv 0 i = lv i. Proof. reflexivity. Qed.
  Lemma second_leaf : forall x y, leaves_of [x; y] 1 = y. Proof. reflexivity. Qed.
  Lemma node_far : forall lv, (forall p, 2 <= p -> lv p = empty_leaf) -> forall h i, 2 <= i * 2 ^ Z.of_nat h -> 0 <= i ->
    node lv h i = node (fun _ => empty_leaf) h i.
  Proof.
    intros lv H h. induction h as [|h IH]; intros i H1 H2; cbn [node].
    - change (Z.of_nat 0) with 0 in H1. rewrite Z.pow_0_r in H1. apply H. lia.
    - rewrite Nat2Z.inj_succ, Z.pow_succ_r in H1 by lia. pose proof (pow2_pos h). rewrite !IH; [reflexivity|nia|lia|nia|lia].
  Qed.
  Lemma path_cons : forall lv h, auth_path lv 0 (S h) = lv 1 :: map (fun l => node lv l 1) (seq 1 h).
  Proof.
    intros lv h. unfold auth_path. cbn [seq map]. rewrite node_leaf. apply (f_equal2 cons); [reflexivity|].
    apply map_ext. intro l. rewrite Z.div_0_l by (pose proof (pow2_pos l); lia). reflexivity.
  Qed.
  Lemma path_far : forall lv h, (forall p, 2 <= p -> lv p = empty_leaf) ->
    auth_path lv 0 (S h) = lv 1 :: map (fun l => node (fun _ => empty_leaf) l 1) (seq 1 h).
  Proof.
    intros lv h H. rewrite path_cons. f_equal. apply map_ext_in. intros l Hl. apply in_seq in Hl. apply (node_far lv H); [|lia].
    rewrite Z.mul_1_l, <- (Z.pow_1_r 2) at 1. apply Z.pow_le_mono_r; lia.
  Qed.
  Lemma far_two : forall x y p, 2 <= p -> leaves_of [x; y] p = empty_leaf.
  Proof. intros x y p Hp. unfold leaves_of. cbn [length]. rewrite (proj2 (Z.ltb_ge p _)) by lia. rewrite andb_false_r. reflexivity. Qed.
  Lemma far_one : forall x p, 2 <= p -> one_leaf x p = empty_leaf.
  Proof. intros x p Hp. unfold one_leaf. rewrite (proj2 (Z.eqb_neq p 0)) by lia. reflexivity. Qed.
  Lemma path_tail : forall x y h, auth_path (leaves_of [x; y]) 0 (S h) = y :: tl (auth_path (one_leaf x) 0 (S h)).
  Proof.
    intros x y h. rewrite (path_far _ h (far_two x y)), (path_far _ h (far_one x)), second_leaf. reflexivity.
  Qed.
  Lemma two_leaves_path : forall x y, auth_path (leaves_of [x; y]) 0 32 = y :: tl (firstn 32 empty_roots).
  Proof. intros x y. rewrite <- (one_leaf_path x). exact (path_tail x y 31). Qed.
  Lemma two_leaves_root : forall x y, mp_root (two_path y) x = tree_root (leaves_of [x; y]) 32.
  Proof.
    intros x y. unfold two_path. rewrite <- (two_leaves_path x y).
    pose proof (path_gives_root (leaves_of [x; y]) 0 ltac:(lia)) as H. exact H.
  Qed.
  Lemma two_leaves_spend : forall f x y n, length (y :: tl (firstn 32 (@empty_roots C OR))) = 32%nat ->
    spend_of f [x; y] (0%nat, n) = [AddSpend f n (two_path y)].
  Proof.
    intros f x y n HL. unfold spend_of. cbn [fst snd]. change (Z.of_nat 0) with 0. rewrite two_leaves_path.
    unfold mp_from_position. rewrite HL. reflexivity.
  Qed.
  Lemma run_two : forall f ty lg n x y outs rs b, lg_cmxs lg = [x; y] -> length (y :: tl (firstn 32 (@empty_roots C OR))) = 32%nat ->
    run (builder_new ty (tree_root (leaves_of (lg_cmxs lg)) 32)) (flat_map (spend_of f (lg_cmxs lg)) [(0%nat, n)] ++ outs) = Ret (rs, b) ->
    run (builder_new ty (mp_root (two_path y) x)) (AddSpend f n (two_path y) :: outs) = Ret (rs, b).
  Proof.
    intros f ty lg n x y outs rs b CM HL H. rewrite CM in H. cbn [flat_map] in H. rewrite (two_leaves_spend f x y n HL) in H.
    rewrite two_leaves_root. exact H.
  Qed.
  (** The coins of a chain of two actions of which only the first is for the wallet. *)
  Lemma two_coins : forall V f (t : @tx C V) a a' n, b_actions (fst t) = [a; a'] -> opens f a = Some n -> opens f a' = None ->
    spent_in f (map a_nf [a; a']) n = false -> coins f [t] = [(0%nat, n)].
  Proof.
    intros V f t a a' n E H1 H2 H3. unfold coins. rewrite chain_one, E. cbn [length seq List.combine flat_map].
    unfold coin. cbn [fst snd]. rewrite H1, H2, H3. reflexivity.
  Qed.
End Generic.


#[local] Opaque toy_fvk my_addr commitment max_value diversify_hash synthesize empty_roots mp_root pmod qmod first_path
  tree_root leaves_of note_nullifier try_note_decryption sign to_instances omap to_halo2_instance build create_proof pay_builder
  sins_hash_words sins_Q msg_words root_inputs toy_memo opens spend_builder mine_of purse_builder two_path auth_path.

Lemma payout_ok : Forall call_ok payout.
Proof.
  assert (U1 : is_u64 600) by (split; [discriminate|reflexivity]).
  apply Forall_cons; [|apply Forall_nil].
  split; [intros k E; assert (k = toy_ovk) by congruence; subst k; reflexivity|]. split; [exact my_addr_ok|]. split; [exact U1|].
  intros m E. assert (m = toy_memo) by congruence. subst m. exact memo_512.
Qed.
Lemma payout_payments : Forall is_payment payout.
Proof. apply Forall_cons; [exact I|apply Forall_nil]. Qed.

Lemma purse_is : forall n x y rs b, run (builder_new toy_type (mp_root (two_path y) x)) (AddSpend toy_fvk n (two_path y) :: payout) = Ret (rs, b) ->
  purse_builder n x y = b.
Proof. intros n x y rs b H. Transparent purse_builder. unfold purse_builder. rewrite H. reflexivity. Qed.
#[local] Opaque purse_builder.

Lemma two_actions : forall A B (l : list (@action toy_curve A)) (a a' : @action toy_curve B), map action_effects l = map action_effects [a; a'] ->
  exists d d', l = [d; d'] /\ action_effects d = action_effects a /\ action_effects d' = action_effects a'.
Proof.
  intros A B l a a' H. destruct l as [|d [|d' [|x l]]]; try discriminate H. exists d, d'. split; [reflexivity|].
  cbn [map] in H. remember (action_effects d) as e1. remember (action_effects d') as e2. remember (action_effects a) as e3. remember (action_effects a') as e4.
  injection H as -> ->. split; reflexivity.
Qed.

(** The wallet of the transaction of C71 spends all it has and pays 600 to itself. *)
Lemma toy_purse_full : exists (t : @tx toy_curve Z) lg n ask b b0 meta r' b00 a,
  built_with rng1 pay_builder = Some b00 /\ effects (fst t) = effects b00 /\ hd_error (b_actions b00) = Some a /\ opens toy_fvk a = Some n /\
  accepts toy_verifier (fun i => i) genesis t /\ lg = apply (fun i => i) genesis t /\ length (b_actions b0) = 2%nat /\
  reached toy_verifier (fun i => i) [t] lg /\ coins toy_fvk [t] = [(0%nat, n)] /\ n_value n = 1000 /\
  purse_built toy_fvk lg toy_type (filter (fun _ => true) (coins toy_fvk [t])) payout b /\
  build (fun i : Z => Some i) 5 b rng2 = Ret (Ok (Some (b0, meta)), r') /\ (forall a, In a (b_actions b0) -> a_rk a <> pt_id) /\
  Z.of_nat (length (lg_cmxs lg) + length (b_actions b0)) <= 2 ^ 32 /\ ak_of_ask ask = fvk_ak toy_fvk.
Proof.
  pose proof purse_checked as CK. pose proof first_checked as K1.
  destruct (built_with rng1 pay_builder) as [b0|] eqn:E0; [|discriminate CK].
  unfold purse_check in CK. destruct (b_actions b0) as [|a [|a' [|? ?]]] eqn:EA; [discriminate CK|discriminate CK| |discriminate CK].
  destruct (opens toy_fvk a) as [n|] eqn:EO; [|discriminate CK]. destruct (opens toy_fvk a') as [?|] eqn:EO'; [discriminate CK|].
  apply andb_true_iff in CK as [CK K6]. apply andb_true_iff in CK as [CK K5].
  apply andb_true_iff in CK as [CK K4]. apply andb_true_iff in CK as [K2 K3].
  apply Nat.eqb_eq in K6. apply nodupb_spec in K5. apply negb_true_iff in K4. apply Z.eqb_eq in K3.
  pose proof first_sums as F. unfold sums_to in F. apply andb_true_iff in F as [F F3]. apply andb_true_iff in F as [F1 F2].
  apply Nat.eqb_eq in F1.
  destruct (built_some _ _ _ E0) as (meta & r' & B0).
  destruct (built_with rng2 (purse_builder n (a_cmx a) (a_cmx a'))) as [b1|] eqn:E1; [|discriminate K2].
  destruct (built_some _ _ _ E1) as (meta1 & r1' & B1).
  destruct (fvk_from_sk_ak _ _ toy_fvk_ret) as (ask & ASK & HAK).
  assert (AB : is_base root0) by (rewrite root0_tree; apply (root_base toy_laws); apply leaves_base; constructor).
  destruct (toy_step [] genesis root0 pay_builder rng1 b0 meta r' ask) as (bd & ws & MD & AC & EF).
  - constructor.
  - exists 0%nat. split; [apply Nat.le_refl|exact root0_tree].
  - exact AB.
  - exact pay_reachable.
  - exact B0.
  - exact K1.
  - intros s HI. exists ask. split; [left; reflexivity|]. destruct pay_run as [rs HR].
    destruct (run_from_new toy_laws _ _ _ _ _ pay_calls_ok HR) as (_ & _ & _ & _ & SP & _).
    apply (in_map (fun s => (s_fvk s, s_note s, s_path s))) in HI. rewrite SP in HI. apply accepted_in in HI.
    assert (X : s_fvk s = toy_fvk) by (unfold pay_calls in HI; cbn [In] in HI; destruct HI as [HI|[HI|[]]]; [congruence|discriminate HI]).
    rewrite X. symmetry. exact HAK.
  - intros s nf _ _ [].
  - rewrite F1. apply Nat.le_refl.
  - cbn [genesis lg_nfs app]. rewrite EA. exact K5.
  - cbn. lia.
  - set (t1 := (bd, toy_sighash) : @tx toy_curve Z) in *.
    pose proof (R_apply toy_verifier (fun i => i) [] genesis t1 (R_genesis _ _) AC) as RE. cbn [app] in RE.
    set (lg1 := apply (fun i => i) genesis t1) in *.
    assert (EAct : map action_effects (b_actions bd) = map action_effects [a; a']) by (rewrite <- EA; exact (f_equal b_actions EF)).
    destruct (two_actions _ _ _ _ _ EAct) as (d & d' & ED & XD & XD').
    assert (OD : opens toy_fvk d = Some n) by (rewrite (opens_effects _ _ toy_fvk d a XD); exact EO).
    assert (OD' : opens toy_fvk d' = None) by (rewrite (opens_effects _ _ toy_fvk d' a' XD'); exact EO').
    assert (CD : a_cmx d = a_cmx a) by exact (f_equal a_cmx XD).
    assert (CD' : a_cmx d' = a_cmx a') by exact (f_equal a_cmx XD').
    assert (NF : map a_nf [d; d'] = map a_nf [a; a']).
    { cbn [map]. assert (N1 : a_nf d = a_nf a) by exact (f_equal a_nf XD). assert (N2 : a_nf d' = a_nf a') by exact (f_equal a_nf XD').
      rewrite N1, N2. reflexivity. }
    assert (EC : coins toy_fvk [t1] = [(0%nat, n)]).
    { apply (two_coins Z toy_fvk t1 d d' n ED OD OD'). rewrite NF. exact K4. }
    assert (CM : lg_cmxs lg1 = [a_cmx a; a_cmx a']).
    { unfold lg1. cbn [apply lg_cmxs genesis app]. change (b_actions (fst t1)) with (b_actions bd). rewrite ED. cbn [map]. rewrite CD, CD'. reflexivity. }
    destruct (purse_run toy_laws toy_verifier (fun i => i) toy_fvk [t1] lg1 toy_type (fun _ => true) payout toy_gd toy_fvk_ok RE
      eq_refl eq_refl payout_payments payout_ok) as (b & PB).
    pose proof PB as ((rs & HR & _) & _).
    assert (EB : purse_builder n (a_cmx a) (a_cmx a') = b).
    { rewrite EC in HR. change (filter (fun _ => true) [(0%nat, n)]) with [(0%nat, n)] in HR.
      exact (purse_is _ _ _ _ _ (run_two toy_fvk toy_type lg1 n _ _ payout rs b CM K6 HR)). }
    rewrite EB in B1.
    assert (L1 : length (b_actions b1) = 2%nat).
    { destruct PB as (_ & RB & P3 & _ & P5).
      destruct (build_shape toy_laws (fun i : Z => Some i) toy_type _ b 5 rng2 _ r1' toy_gd RB B1) as (k & NA & _ & H).
      destruct (H b1 meta1 eq_refl) as (LK & _). rewrite LK. apply (f_equal (@length _)) in P3. rewrite !map_length, EC in P3.
      rewrite P3, P5 in NA. cbn [filter length] in NA. assert (NB : num_actions toy_type 1 (length (flat_map output_of payout)) = Ok 2%nat) by reflexivity. congruence. }
    exists t1, lg1, n, ask, b, b1, meta1, r1', b0, a.
    split; [reflexivity|]. split; [exact EF|]. split; [rewrite EA; reflexivity|]. split; [exact EO|]. split; [exact AC|]. split; [reflexivity|]. split; [exact L1|].
    split; [exact RE|]. split; [exact EC|]. split; [exact K3|]. split; [exact PB|]. split; [exact B1|]. split.
    { intros x HI. apply (is_id_false toy_laws). cbn [rks_ok] in K2. rewrite forallb_forall in K2. specialize (K2 x HI).
      apply negb_true_iff in K2. exact K2. }
    split; [|symmetry; exact HAK].
    rewrite CM, L1. cbn. lia.
Qed.
Lemma toy_purse : exists (t : @tx toy_curve Z) lg n ask b b0 meta r',
  reached toy_verifier (fun i => i) [t] lg /\ coins toy_fvk [t] = [(0%nat, n)] /\ n_value n = 1000 /\
  purse_built toy_fvk lg toy_type (filter (fun _ => true) (coins toy_fvk [t])) payout b /\
  build (fun i : Z => Some i) 5 b rng2 = Ret (Ok (Some (b0, meta)), r') /\ (forall a, In a (b_actions b0) -> a_rk a <> pt_id) /\
  Z.of_nat (length (lg_cmxs lg) + length (b_actions b0)) <= 2 ^ 32 /\ ak_of_ask ask = fvk_ak toy_fvk.
Proof.
  destruct toy_purse_full as (t & lg & n & ask & b & b0 & meta & r' & b00 & a & _ & _ & _ & _ & _ & _ & _ & H).
  exists t, lg, n, ask, b, b0, meta, r'. exact H.
Qed.
