(** The first transaction of a chain, made with the builder, on the computable curve. *)
From Coq Require Import String ZArith List Bool Lia.
From Coq Require Import Init.Byte.
From Verif Require Import Prelude PreludeFacts Spec NumTheory Fields FieldFacts Curve CurveFacts Oracles Sinsemilla SinsSpec SinsFacts RedPallas
  Value ValueFacts Keys KeysSpec KeysFacts Note NoteSpec NoteFacts Tree TreeSpec TreeFacts Action NoteEnc NoteEncSpec Bundle BundleSpec BundleFacts
  Batch Builder BuilderSpec BuilderFacts BuildFacts Signing SigningSpec SigningFacts Halo2 Halo2Facts Circuit CircuitSpec CircuitFacts CircuitBuildFacts
  PipelineSpec PipelineFacts LedgerSpec LedgerFacts WalletSpec WalletFacts LifeSpec LifeFacts
  NoteEncFacts Toy ToyFacts ToyKeys ToyNote ToyNoteEnc ToyBundle ToyBuilder ToySigning ToyCircuit ToyPipeline ToyLedger.
Import ListNotations.
Open Scope Z_scope.

(** The root of the empty tree, by a path. *)
Definition root0 : Z := @mp_root toy_curve toy_oracles first_path empty_leaf.
Lemma memo_512 : length toy_memo = 512%nat. Proof. reflexivity. Qed.
(** A zero-value note is spent and 1000 are sent. *)
Definition pay_calls : list call :=
  [ AddSpend toy_fvk (my_note 0) first_path; AddOutput (Some toy_ovk) my_addr 1000 (Some toy_memo) ].
Definition pay_builder : builder :=
  match run (builder_new toy_type root0) pay_calls with
  | Ret (_, b) => b
  | _ => builder_new toy_type root0
  end.
Fixpoint nodupb (l : list Z) : bool :=
  match l with [] => true | x :: l' => negb (existsb (Z.eqb x) l') && nodupb l' end.
Definition pay_check (o : option (@unauthorized_bundle toy_curve Z)) : bool :=
  match o with
  | Some b0 => rks_ok o && paths_ok o && nodupb (map a_nf (b_actions b0)) && (length (b_actions b0) =? 2)%nat
  | None => false
  end.
Definition pay_shape (b : builder) : bool :=
  (length (bl_spends b) =? 1)%nat && (length (bl_outputs b) =? 1)%nat && forallb (fun o => o_value o =? 1000) (bl_outputs b).
Lemma pay_facts_true :
  pay_check (built_of pay_builder) && (pay_shape pay_builder && (spent pay_builder - sent pay_builder =? -1000)) = true.
Proof. vm_compute. reflexivity. Qed.
Lemma and3 : forall a b c, a && (b && c) = true -> a = true /\ b = true /\ c = true.
Proof. intros [] [] []; cbn [andb]; intro H; try discriminate H. repeat split. Qed.
Lemma pay_facts_split : pay_check (built_of pay_builder) = true /\ pay_shape pay_builder = true /\ (spent pay_builder - sent pay_builder =? -1000) = true.
Proof. exact (and3 _ _ _ pay_facts_true). Qed.
Lemma pay_checked : pay_check (built_of pay_builder) = true. Proof. exact (proj1 pay_facts_split). Qed.
Lemma pay_shape_spec : forall b, pay_shape b = true -> ((length (bl_spends b) =? 1)%nat && (length (bl_outputs b) =? 1)%nat &&
  forallb (fun o => o_value o =? 1000) (bl_outputs b)) = true.
Proof. intros b H. exact H. Qed.
Lemma pay_holds : ((length (bl_spends pay_builder) =? 1)%nat && (length (bl_outputs pay_builder) =? 1)%nat &&
  forallb (fun o => o_value o =? 1000) (bl_outputs pay_builder)) = true.
Proof. exact (pay_shape_spec _ (proj1 (proj2 pay_facts_split))). Qed.

Lemma one_leaf_empty : forall p, one_leaf empty_leaf p = empty_leaf.
Proof. intro p. unfold one_leaf. destruct (p =? 0); reflexivity. Qed.
Lemma pay_sums : spent pay_builder - sent pay_builder = -1000. Proof. exact (proj1 (Z.eqb_eq _ _) (proj2 (proj2 pay_facts_split))). Qed.

Lemma nodupb_spec : forall l, nodupb l = true -> NoDup l.
Proof.
  induction l as [|x l IH]; intro H; [constructor|]. cbn [nodupb] in H. apply andb_true_iff in H as [H1 H2].
  constructor; [|apply IH; exact H2]. intro I. apply negb_true_iff in H1.
  assert (X : existsb (Z.eqb x) l = true) by (apply existsb_exists; exists x; split; [exact I|apply Z.eqb_refl]). congruence.
Qed.

#[local] Opaque toy_fvk my_addr commitment max_value diversify_hash synthesize empty_roots mp_root pmod qmod first_path
  tree_root leaves_of note_nullifier try_note_decryption sign to_instances omap to_halo2_instance build create_proof pay_builder
  sins_hash_words sins_Q msg_words root_inputs toy_memo.

Lemma root0_tree : root0 = @tree_root toy_curve toy_oracles (leaves_of []) 32.
Proof.
  unfold root0. rewrite one_leaf_root. apply root_ext. intro p. rewrite no_leaves. apply one_leaf_empty.
Qed.
Lemma pay_calls_ok : Forall call_ok pay_calls.
Proof.
  assert (U0 : is_u64 0) by (split; [discriminate|reflexivity]). assert (U1 : is_u64 1000) by (split; [discriminate|reflexivity]).
  apply Forall_cons; [|apply Forall_cons; [|apply Forall_nil]].
  - split; [exact toy_fvk_ok|]. split; [exact (my_note_ok 0 U0)|]. split; [apply my_note_commits; right; reflexivity|exact first_path_ok].
  - split; [intros k E; assert (k = toy_ovk) by congruence; subst k; reflexivity|]. split; [exact my_addr_ok|]. split; [exact U1|].
    intros m E. assert (m = toy_memo) by congruence. subst m. exact memo_512.
Qed.
Lemma pay_run : exists rs, run (builder_new toy_type root0) pay_calls = Ret (rs, pay_builder).
Proof.
  destruct (run_total toy_laws pay_calls (builder_new toy_type root0) pay_calls_ok) as (rs & b & H).
  exists rs. Transparent pay_builder. unfold pay_builder. rewrite H. reflexivity.
Qed.
#[local] Opaque pay_builder.
Lemma pay_reachable : reachable toy_type root0 pay_builder.
Proof. destruct pay_run as [rs H]. exists pay_calls, rs. split; [exact pay_calls_ok|exact H]. Qed.
Lemma one_output : forall k a v m rs o l, accepted_outputs [l; AddOutput k a v (Some m)] rs = [o] ->
  (forall k' a' v' m', l <> AddOutput k' a' v' m') -> o = mk_output k a v m.
Proof.
  intros k a v m rs o l E NL. destruct l as [f n p|k' a' v' m']; [|elim (NL k' a' v' m'); reflexivity].
  destruct rs as [|r1 [|r2 rs]]; cbn [accepted_outputs] in E; try discriminate E.
  destruct r2 as [r2|[u|e]]; try discriminate E. destruct rs; congruence.
Qed.
Lemma pay_outputs : exists o, bl_outputs pay_builder = [o] /\ o_recipient o = my_addr /\ o_value o = 1000 /\ o_memo o = toy_memo.
Proof.
  destruct pay_run as [rs HR]. destruct (run_from_new toy_laws _ _ _ _ _ pay_calls_ok HR) as (_ & _ & _ & _ & _ & SO).
  pose proof pay_holds as H. apply andb_true_iff in H as [H _]. apply andb_true_iff in H as [_ H]. apply Nat.eqb_eq in H.
  destruct (bl_outputs pay_builder) as [|o [|? ?]]; [discriminate H| |discriminate H]. exists o. split; [reflexivity|].
  assert (EO : o = mk_output (Some toy_ovk) my_addr 1000 toy_memo).
  { apply (one_output _ _ _ _ rs o (AddSpend toy_fvk (my_note 0) first_path)); [symmetry; exact SO|discriminate]. }
  subst o. cbn [o_recipient o_value o_memo]. split; [reflexivity|]. split; reflexivity.
Qed.
Lemma pay_covers : exists ask, covers [ask] pay_builder.
Proof.
  destruct (fvk_from_sk_ak _ _ toy_fvk_ret) as (ask & H1 & H2). exists ask. intros s HI.
  destruct pay_run as [rs HR]. destruct (run_from_new toy_laws _ _ _ _ _ pay_calls_ok HR) as (_ & _ & _ & _ & SP & _).
  apply (in_map (fun s => (s_fvk s, s_note s, s_path s))) in HI. rewrite SP in HI. apply accepted_in in HI.
  exists ask. split; [left; reflexivity|].
  assert (E : s_fvk s = toy_fvk) by (unfold pay_calls in HI; cbn [In] in HI; destruct HI as [HI|[HI|[]]]; [congruence|discriminate HI]).
  rewrite E. symmetry. exact H2.
Qed.
Lemma pay_one_spend : exists s, bl_spends pay_builder = [s].
Proof.
  pose proof pay_holds as H. apply andb_true_iff in H as [H _]. apply andb_true_iff in H as [H _]. apply Nat.eqb_eq in H.
  destruct (bl_spends pay_builder) as [|s [|? ?]]; [discriminate H| |discriminate H]. exists s. reflexivity.
Qed.
Lemma pay_built : exists b0 meta r',
  build (fun i : Z => Some i) 5 pay_builder toy_rng = Ret (Ok (Some (b0, meta)), r') /\
  (forall a, In a (b_actions b0) -> a_rk a <> pt_id) /\ ~ undefined_merkle_hash (up_circuits (ip_proof (b_auth b0))) /\
  NoDup (map a_nf (b_actions b0)) /\ length (b_actions b0) = 2%nat.
Proof.
  pose proof pay_checked as H. unfold built_of in H.
  destruct (build (fun i : Z => Some i) 5 pay_builder toy_rng) as [[[[[b0 meta]|]|?] r']|w|]; try discriminate H.
  exists b0, meta, r'. split; [reflexivity|]. cbn [pay_check rks_ok paths_ok] in H.
  apply andb_true_iff in H as [H H4]. apply andb_true_iff in H as [H H3]. apply andb_true_iff in H as [H1 H2].
  rewrite forallb_forall in H1, H2. split; [|split; [|split]].
  - intros a HI. apply (is_id_false toy_laws). specialize (H1 a HI). apply negb_true_iff in H1. exact H1.
  - intros (w & h & x & y & I1 & I2 & I3). apply (layers_defined_spec _ (H2 w I1)). exists h, x, y. split; assumption.
  - apply nodupb_spec. exact H3.
  - apply Nat.eqb_eq. exact H4.
Qed.

Lemma toy_life : exists (t : @tx toy_curve Z) meta ws lg,
  made toy_prover (fun i : Z => Some i) root0 pay_builder t meta ws /\ ~ undefined_merkle_hash ws /\
  known_anchor genesis root0 /\ unspent genesis pay_builder /\ different_notes pay_builder /\
  length (bl_spends pay_builder) = 1%nat /\ length (b_actions (fst t)) = 2%nat /\
  (exists o, nth_error (bl_outputs pay_builder) 0 = Some o /\ o_recipient o = my_addr /\ o_value o = 1000 /\ o_memo o = toy_memo) /\
  (exists k, fvk_to_ivk toy_fvk External = Ret k /\ owned_by k my_addr) /\
  accepts toy_verifier (fun i => i) genesis t /\ reached toy_verifier (fun i => i) [t] lg /\ lg_pool lg = 1000.
Proof.
  destruct pay_built as (b0 & meta & r' & E & RK & NU & ND & LN). destruct pay_covers as (ask & CV).
  assert (AB : is_base root0).
  { rewrite root0_tree. apply (root_base toy_laws). apply leaves_base. constructor. }
  destruct (pipeline_completes toy_laws toy_prover toy_verifier (fun i : Z => Some i) (fun i => i) toy_type root0 pay_builder 5 toy_rng
    b0 meta r' toy_sighash [ask] toy_rng toy_rng) as [(b1 & r3 & bd & bt & H1 & H2 & H3 & H4 & H5 & H6)|U]; try assumption.
  - intros i v H. congruence.
  - exact toy_proofs_verify.
  - exact toy_prover_succeeds.
  - exact toy_gd.
  - exact toy_basepoint.
  - exact pay_reachable.
  - destruct (applied_history toy_prover b0 toy_sighash toy_rng b1 r3 toy_rng [ask] bd H1 H2) as (b2 & HH & FF).
    assert (MD : made toy_prover (fun i : Z => Some i) root0 pay_builder (bd, toy_sighash) meta (up_circuits (ip_proof (b_auth b0)))).
    { exists toy_type, 5%nat, toy_rng, b0, r', b2. split; [exact pay_reachable|]. split; [exact E|]. split; [exact HH|]. split; [exact FF|reflexivity]. }
    assert (NF : map a_nf (b_actions bd) = map a_nf (b_actions b0)).
    { pose proof (f_equal (fun b => map a_nf (b_actions b)) H3) as X. cbn [effects b_actions] in X. rewrite !map_map in X. exact X. }
    assert (LB : length (b_actions bd) = 2%nat) by (rewrite <- LN, <- (map_length a_nf (b_actions b0)), <- NF, map_length; reflexivity).
    assert (KA : known_anchor genesis root0).
    { exists 0%nat. split; [apply Nat.le_refl|]. exact root0_tree. }
    assert (UN : unspent genesis pay_builder) by (intros s nf _ _ []).
    assert (DN : different_notes pay_builder).
    { unfold different_notes. destruct pay_one_spend as [s ->]. cbn [map]. constructor; [intros []|constructor]. }
    assert (NDT : NoDup (lg_nfs genesis ++ map a_nf (b_actions bd))) by (rewrite NF; exact ND).
    assert (AC : accepts toy_verifier (fun i => i) genesis (bd, toy_sighash)).
    { destruct (made_accepted toy_laws toy_prover toy_verifier (fun i : Z => Some i) (fun i => i) [] genesis root0 pay_builder
        (bd, toy_sighash) meta (up_circuits (ip_proof (b_auth b0)))) as [A|[U|[(k & a & P1 & P2 & P3)|(i & j & s & s' & C1 & C2 & C3 & _)]]]; try assumption.
      - intros i v H. congruence.
      - exact toy_proofs_verify.
      - exact toy_gd.
      - exact toy_basepoint.
      - constructor.
      - cbn [fst genesis lg_cmxs length]. rewrite LB. cbn. lia.
      - destruct (NU U).
      - exfalso. destruct P3 as [[]|(j & a' & J1 & J2 & J3)]. cbn [fst] in P2, J2. apply J1. apply (proj1 (NoDup_nth_error _) NDT).
        + cbn [genesis lg_nfs app]. rewrite map_length. apply nth_error_Some. congruence.
        + cbn [genesis lg_nfs app]. rewrite !nth_error_map, P2, J2. cbn [option_map]. congruence.
      - exfalso. destruct pay_one_spend as [x EX]. rewrite EX in C2, C3. apply C1. destruct i as [|[|i]], j as [|[|j]]; cbn [nth_error] in C2, C3; congruence. }
    destruct pay_outputs as (o & O1 & O2 & O3 & O4).
    exists (bd, toy_sighash), meta, (up_circuits (ip_proof (b_auth b0))), (apply (fun i => i) genesis (bd, toy_sighash)).
    split; [exact MD|]. split; [exact NU|]. split; [exact KA|]. split; [exact UN|]. split; [exact DN|].
    split; [destruct pay_one_spend as [x ->]; reflexivity|]. split; [exact LB|].
    split; [exists o; rewrite O1; split; [reflexivity|]; split; [exact O2|]; split; assumption|].
    split; [destruct my_ivk as (k & K1 & _ & K3); exists k; split; assumption|]. split; [exact AC|].
    split; [exact (R_apply _ _ [] genesis (bd, toy_sighash) (R_genesis _ _) AC)|].
    cbn [apply lg_pool fst genesis].
    assert (BV : b_value_balance bd = -1000); [|rewrite BV; reflexivity].
    transitivity (b_value_balance b0); [exact (f_equal b_value_balance H3)|].
    destruct (build_balance toy_laws (fun i : Z => Some i) toy_type root0 pay_builder toy_gd pay_reachable) as (BB & _).
    pose proof (BB _ _ _ _ _ E) as X. assert (Y : b_value_balance b0 = spent pay_builder - sent pay_builder) by congruence. rewrite Y.
    exact pay_sums.
  - destruct (NU U).
Qed.
