(** Two transactions that wait for the empty chain, one with a spend and one that only pays. *)
From Coq Require Import String ZArith List Bool Lia.
From Coq Require Import Init.Byte.
From Verif Require Import Prelude PreludeFacts Spec NumTheory Fields FieldFacts Curve CurveFacts Oracles Sinsemilla SinsSpec SinsFacts RedPallas
  Value ValueFacts Keys KeysSpec KeysFacts Note NoteSpec NoteFacts Tree TreeSpec TreeFacts Action NoteEnc NoteEncSpec Bundle BundleSpec BundleFacts
  Batch Builder BuilderSpec BuilderFacts BuildFacts Signing SigningSpec SigningFacts Halo2 Halo2Facts Circuit CircuitSpec CircuitFacts CircuitBuildFacts
  PipelineSpec PipelineFacts LedgerSpec LedgerFacts WalletSpec WalletFacts BackedSpec LifeSpec LifeFacts BalanceSpec BalanceFacts MempoolSpec MempoolFacts
  NoteEncFacts Toy ToyFacts ToyKeys ToyNote ToyNoteEnc ToyBundle ToyBuilder ToySigning ToyCircuit ToyPipeline ToyLedger ToyLife ToyBalance.
Import ListNotations.
Open Scope Z_scope.

#[local] Opaque toy_fvk my_addr commitment max_value diversify_hash synthesize empty_roots mp_root pmod qmod first_path
  tree_root leaves_of note_nullifier try_note_decryption sign to_instances omap to_halo2_instance build create_proof pay_builder
  sins_hash_words sins_Q msg_words root_inputs toy_memo opens spend_builder mine_of fund_builder auth_path.

Lemma fund_calls_ok : Forall call_ok fund_calls.
Proof.
  assert (U1 : is_u64 700) by (split; [discriminate|reflexivity]).
  apply Forall_cons; [|apply Forall_nil].
  split; [intros k E; discriminate E|]. split; [exact my_addr_ok|]. split; [exact U1|].
  intros m E. assert (m = toy_memo) by congruence. subst m. exact memo_512.
Qed.
Lemma fund_reachable : reachable toy_type root0 fund_builder.
Proof.
  destruct (run_total toy_laws fund_calls (builder_new toy_type root0) fund_calls_ok) as (rs & b & H).
  exists fund_calls, rs. split; [exact fund_calls_ok|]. Transparent fund_builder. unfold fund_builder. rewrite H. reflexivity.
Qed.
#[local] Opaque fund_builder.

Lemma effects_nfs : forall {C : Curve} T S T' S' V (b : bundle T S V) (b' : bundle T' S' V), effects b = effects b' ->
  map a_nf (b_actions b) = map a_nf (b_actions b').
Proof. intros C T S T' S' V b b' H. pose proof (f_equal (fun x => map a_nf (b_actions x)) H) as X. cbn [effects b_actions] in X. rewrite !map_map in X. exact X. Qed.
Lemma apart_spec : forall o b1, apart o (Some b1) = true -> pay_check (Some b1) = true /\
  forall b0, o = Some b0 -> NoDup (map a_nf (b_actions b0) ++ map a_nf (b_actions b1)).
Proof.
  intros o b1 H. destruct o as [b0|]; [|discriminate H]. unfold apart in H. apply andb_true_iff in H as [_ H]. apply andb_true_iff in H as [H1 H2].
  split; [exact H1|]. intros b2 E. assert (b2 = b0) by congruence. subst b2. apply nodupb_spec. exact H2.
Qed.

Lemma toy_mempool : exists (t t' : @tx toy_curve Z) lg,
  accepts toy_verifier (fun i => i) genesis t /\ accepts toy_verifier (fun i => i) genesis t' /\
  applied toy_verifier (fun i => i) genesis [t; t'] lg /\ length (tx_nfs t) = 2%nat /\ length (tx_nfs t') = 2%nat.
Proof.
  pose proof fund_checked as CK. pose proof first_checked as K1. unfold fund_check in CK. apply andb_true_iff in CK as [CK K2]. apply Nat.eqb_eq in K2.
  destruct (built_with rng2 fund_builder) as [b1|] eqn:E1.
  2:{ exfalso. destruct (built_with rng1 pay_builder); discriminate CK. }
  destruct (built_with rng1 pay_builder) as [b0|] eqn:E0; [|discriminate CK].
  destruct (apart_spec _ _ CK) as [K3 D]. specialize (D b0 eq_refl).
  pose proof first_sums as F. unfold sums_to in F. apply andb_true_iff in F as [F _]. apply andb_true_iff in F as [F1 _]. apply Nat.eqb_eq in F1.
  destruct (built_some _ _ _ E0) as (meta & r' & B0). destruct (built_some _ _ _ E1) as (meta1 & r1' & B1).
  destruct (fvk_from_sk_ak _ _ toy_fvk_ret) as (ask & ASK & HAK).
  assert (AB : is_base root0) by (rewrite root0_tree; apply (root_base toy_laws); apply leaves_base; constructor).
  assert (KA : known_anchor genesis root0) by (exists 0%nat; split; [apply Nat.le_refl|exact root0_tree]).
  assert (L0 : length (b_actions b0) = 2%nat).
  { cbn [pay_check] in K1. apply andb_true_iff in K1 as [_ X]. apply Nat.eqb_eq in X. exact X. }
  assert (L1 : length (b_actions b1) = 2%nat).
  { cbn [pay_check] in K3. apply andb_true_iff in K3 as [_ X]. apply Nat.eqb_eq in X. exact X. }
  destruct (toy_step [] genesis root0 pay_builder rng1 b0 meta r' ask (R_genesis _ _) KA AB pay_reachable B0 K1) as (bd & ws & _ & AC & EF).
  - intros s HI. exists ask. split; [left; reflexivity|]. destruct pay_run as [rs HR].
    destruct (run_from_new toy_laws _ _ _ _ _ pay_calls_ok HR) as (_ & _ & _ & _ & SP & _).
    apply (in_map (fun s => (s_fvk s, s_note s, s_path s))) in HI. rewrite SP in HI. apply accepted_in in HI.
    assert (X : s_fvk s = toy_fvk) by (unfold pay_calls in HI; cbn [In] in HI; destruct HI as [HI|[HI|[]]]; [congruence|discriminate HI]).
    rewrite X. symmetry. exact HAK.
  - intros s nf _ _ [].
  - rewrite F1. apply Nat.le_refl.
  - cbn [genesis lg_nfs app]. exact (nodup_l _ _ _ D).
  - cbn. lia.
  - destruct (toy_step [] genesis root0 fund_builder rng2 b1 meta1 r1' ask (R_genesis _ _) KA AB fund_reachable B1 K3) as (bd' & ws' & _ & AC' & EF').
    + intros s HI. destruct (bl_spends fund_builder); [destruct HI|discriminate K2].
    + intros s nf _ _ [].
    + rewrite K2. lia.
    + cbn [genesis lg_nfs app]. exact (nodup_r _ _ _ D).
    + cbn. lia.
    + pose proof (effects_nfs _ _ _ _ _ _ _ EF) as N1. pose proof (effects_nfs _ _ _ _ _ _ _ EF') as N2.
      assert (S1 : length (map a_nf (b_actions bd)) = 2%nat) by (rewrite N1, map_length; exact L0).
      assert (S2 : length (map a_nf (b_actions bd')) = 2%nat) by (rewrite N2, map_length; exact L1).
      exists (bd, toy_sighash), (bd', toy_sighash), (apply (fun i => i) (apply (fun i => i) genesis (bd, toy_sighash)) (bd', toy_sighash)).
      split; [exact AC|]. split; [exact AC'|]. split; [|split; [exact S1|exact S2]].
      apply P_next; [exact AC|]. apply P_next; [|apply P_done].
      apply (accepts_later toy_verifier (fun i => i) genesis (apply (fun i => i) genesis (bd, toy_sighash)) (bd', toy_sighash)
        (map a_cmx (b_actions bd)) AC'); [reflexivity| |].
      * cbn [apply lg_nfs genesis app fst]. unfold tx_nfs. cbn [fst]. rewrite N1, N2. exact D.
      * cbn [apply lg_cmxs genesis app fst]. unfold tx_size. cbn [fst]. rewrite map_length. rewrite map_length in S1, S2. rewrite S1, S2. cbn. lia.
Qed.
