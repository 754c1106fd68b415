(** A coinbase bundle on the computable curve, built, signed and accepted; used by the [Example] of C86. *)
From Coq Require Import String ZArith List Bool Lia.
From Coq Require Import Init.Byte.
From Verif Require Import Prelude PreludeFacts Spec NumTheory Fields FieldFacts Curve CurveFacts Oracles Sinsemilla SinsSpec SinsFacts RedPallas
  Value ValueFacts Keys KeysSpec KeysFacts Note NoteSpec NoteFacts Tree TreeSpec Action NoteEnc NoteEncSpec Bundle BundleSpec BundleFacts Batch BatchFacts
  Builder BuilderSpec BuilderFacts BuildFacts Signing SigningSpec SigningFacts
  Halo2 Halo2Facts Circuit CircuitSpec CircuitFacts CircuitBuildFacts TreeFacts PipelineSpec PipelineFacts FlagsSpec
  Toy ToyFacts ToyKeys ToyNote ToyNoteEnc ToyBundle ToyBuilder ToySigning ToyCircuit ToyPipeline.
Import ListNotations.
Open Scope Z_scope.

Definition cb_calls : list call := [AddOutput None my_addr 5 (Some toy_memo)].
Definition cb_builder : builder := match run (builder_new Coinbase 7) cb_calls with Ret (_, b) => b | _ => builder_new Coinbase 7 end.
Lemma cb_calls_ok : Forall call_ok cb_calls.
Proof.
  apply Forall_cons; [|apply Forall_nil]. split; [intros k E; discriminate E|]. split; [exact my_addr_ok|].
  split; [unfold is_u64; lia|]. intros m E. assert (m = toy_memo) by congruence. subst m. reflexivity.
Qed.
Lemma cb_run : exists rs, run (builder_new Coinbase 7) cb_calls = Ret (rs, cb_builder).
Proof.
  unfold cb_builder. destruct (run_total toy_laws cb_calls (builder_new Coinbase 7) cb_calls_ok) as (rs & b & H).
  exists rs. rewrite H. reflexivity.
Qed.
Lemma cb_reachable : reachable Coinbase 7 cb_builder.
Proof. destruct cb_run as [rs H]. exists cb_calls, rs. split; [exact cb_calls_ok|exact H]. Qed.
Lemma cb_both : both_ok (built_of cb_builder) = true. Proof. vm_compute. reflexivity. Qed.
Lemma cb_rks : rks_ok (built_of cb_builder) = true. Proof. exact (proj1 (both_split _ cb_both)). Qed.
Lemma cb_paths : paths_ok (built_of cb_builder) = true. Proof. exact (proj2 (both_split _ cb_both)). Qed.
Lemma cb_spends : bl_spends cb_builder = []. Proof. reflexivity. Qed.
Lemma cb_sums : (spent cb_builder =? 0) && (sent cb_builder =? 5) = true. Proof. vm_compute. reflexivity. Qed.
Lemma cb_length : length (bl_spends cb_builder) = 0%nat /\ length (bl_outputs cb_builder) = 1%nat. Proof. split; reflexivity. Qed.
Lemma anchor_7 : is_base 7. Proof. unfold is_base. assert (1000 < pmod) by (vm_compute; reflexivity). lia. Qed.
Lemma minus5_i64 : i64_ok (-5). Proof. unfold i64_ok. lia. Qed.

#[local] Opaque cb_builder build create_proof synthesize sins_hash_words sins_Q msg_words.

Lemma cb_built : exists b0 meta r',
  build (fun i : Z => Some i) 5 cb_builder toy_rng = Ret (Ok (Some (b0, meta)), r') /\
  (forall a, In a (b_actions b0) -> a_rk a <> pt_id) /\ ~ undefined_merkle_hash (up_circuits (ip_proof (b_auth b0))).
Proof.
  pose proof cb_rks as H1. pose proof cb_paths as H2. unfold built_of in H1, H2.
  destruct (build (fun i : Z => Some i) 5 cb_builder toy_rng) as [[[[[b0 meta]|]|?] r']|w|]; try discriminate H1.
  exists b0, meta, r'. split; [reflexivity|]. cbn [rks_ok paths_ok] in H1, H2. rewrite forallb_forall in H1, H2. split.
  - intros a HI. apply (is_id_false toy_laws). specialize (H1 a HI). apply negb_true_iff in H1. exact H1.
  - intros (w & h & x & y & I1 & I2 & I3). apply (layers_defined_spec _ (H2 w I1)). exists h, x, y. split; assumption.
Qed.

Lemma cb_sound : exists halo2_verify extract bd sighash,
  finds_cells halo2_verify extract /\ finds_keys SpendAuth (toy_log SpendAuth) /\ finds_keys Binding (toy_log Binding) /\
  bundle_valid halo2_verify (fun i : Z => i) bd sighash /\
  is_base (b_anchor bd) /\ i64_ok (b_value_balance bd) /\ length (b_actions bd) = 1%nat /\
  spends_enabled (b_flags bd) = false /\ b_value_balance bd = -5.
Proof.
  destruct cb_built as (b0 & meta & r' & E & RK & NU).
  assert (CV : covers [] cb_builder) by (intros s HI; rewrite cb_spends in HI; destruct HI).
  destruct (pipeline_completes toy_laws toy_prover toy_verifier (fun i : Z => Some i) (fun i => i) Coinbase 7 cb_builder 5 toy_rng
    b0 meta r' toy_sighash [] toy_rng toy_rng) as [(b1 & r3 & bd & bt & CP & AP & EF & BV & AD & _)|U]; try assumption;
    [intros i v H; congruence|exact toy_proofs_verify|exact toy_prover_succeeds|exact toy_gd|exact toy_basepoint|exact anchor_7|exact cb_reachable| |destruct (NU U)].
  assert (OI : exists is, omap to_halo2_instance (to_instances bd) = Ret is).
  { destruct BV as (_ & _ & V3). unfold verify_proof, proof_verify in V3.
    destruct (omap to_halo2_instance (to_instances bd)) as [is|w|]; cbn [obind] in V3; try discriminate V3. exists is. reflexivity. }
  destruct OI as [is OI].
  assert (OI0 : omap to_halo2_instance (to_instances b0) = Ret is) by (rewrite <- (effects_instances _ _ _ _ bd b0 EF); exact OI).
  assert (W : Forall2 provable_instance (up_circuits (ip_proof (b_auth b0))) is).
  { destruct (stored_witnesses toy_laws (fun i : Z => Some i) Coinbase 7 cb_builder 5 toy_rng b0 meta r' is toy_gd toy_basepoint anchor_7 cb_reachable E OI0) as [W|U]; [exact W|].
    destruct (NU U). }
  destruct (choose_cells _ _ W) as [ks HK].
  exists (only is), (fun _ _ => ks), bd, toy_sighash.
  assert (ON : only is (au_proof (b_auth bd)) is = true) by (unfold only; destruct (list_eq_dec _ is is); congruence).
  split. { intros p is' H. unfold only in H. destruct (list_eq_dec _ is' is) as [->|N]; [exact HK|discriminate H]. }
  split; [apply toy_finds_keys; apply Z.eqb_neq; apply toy_bases_nz|]. split; [apply toy_finds_keys; apply Z.eqb_neq; apply toy_bases_nz|].
  split. { destruct BV as (V1 & V2 & _). split; [exact V1|]. split; [exact V2|].
    unfold verify_proof, proof_verify. rewrite OI. cbn [obind]. rewrite ON. reflexivity. }
  destruct (build_shape toy_laws (fun i : Z => Some i) _ _ _ _ _ _ _ toy_gd cb_reachable E) as (n & NA & N0 & SH).
  destruct (SH b0 meta eq_refl) as (LN & FLG & AN).
  pose proof (f_equal b_anchor EF) as EA. pose proof (f_equal b_value_balance EF) as EV. pose proof (f_equal b_flags EF) as EG.
  pose proof (f_equal (fun b => length (b_actions b)) EF) as EL.
  cbn [effects b_anchor b_value_balance b_actions b_flags] in EA, EV, EL, EG. rewrite !map_length in EL.
  assert (BAL : b_value_balance bd = -5).
  { rewrite EV. destruct (build_balance toy_laws (fun i : Z => Some i) _ _ _ toy_gd cb_reachable) as (H1 & _).
    apply H1 in E. pose proof cb_sums as S. apply andb_true_iff in S as [S1 S2].
    rewrite (proj1 (Z.eqb_eq _ _) S1), (proj1 (Z.eqb_eq _ _) S2) in E. change (0 - 5) with (-5) in E. congruence. }
  split; [rewrite EA, AN; exact anchor_7|]. split; [rewrite BAL; exact minus5_i64|].
  assert (L4 : length (b_actions bd) = n) by congruence.
  destruct cb_length as [T1 T2]. rewrite T1, T2 in NA. assert (N1 : n = 1%nat) by (vm_compute in NA; congruence).
  split; [congruence|]. split; [|exact BAL]. rewrite EG, FLG. reflexivity.
Qed.
