(** A whole transaction on the computable curve, from the builder to an accepted batch. *)
From Coq Require Import String ZArith List Bool Lia.
From Coq Require Import Init.Byte.
From Verif Require Import Prelude PreludeFacts Spec NumTheory Fields FieldFacts Curve CurveFacts Oracles Sinsemilla SinsSpec SinsFacts RedPallas
  Value ValueFacts Keys KeysSpec KeysFacts Note NoteSpec NoteFacts Tree TreeSpec Action NoteEnc NoteEncSpec Bundle BundleSpec BundleFacts Batch BatchFacts
  Builder BuilderSpec BuilderFacts BuildFacts Signing SigningSpec SigningFacts
  Halo2 Halo2Facts Circuit CircuitSpec CircuitFacts CircuitBuildFacts TreeFacts PipelineSpec PipelineFacts
  Toy ToyFacts ToyKeys ToyNote ToyNoteEnc ToyBundle ToyBuilder ToySigning ToyCircuit.
Import ListNotations.
Open Scope Z_scope.

Definition built_of (b : builder) : option (@unauthorized_bundle toy_curve Z) :=
  match build (fun i : Z => Some i) 5 b toy_rng with Ret (Ok (Some (b0, _)), _) => Some b0 | _ => None end.
Definition rks_ok (o : option (@unauthorized_bundle toy_curve Z)) : bool :=
  match o with Some b0 => forallb (fun a => negb (pt_is_id (a_rk a))) (b_actions b0) | None => false end.
Definition paths_ok (o : option (@unauthorized_bundle toy_curve Z)) : bool :=
  match o with
  | Some b0 => forallb (fun w => layers_defined (root_inputs (w_pos w) 0 (pt_x (w_cm_old w)) (w_path w))) (up_circuits (ip_proof (b_auth b0)))
  | None => false
  end.
Definition both_ok (o : option (@unauthorized_bundle toy_curve Z)) : bool := rks_ok o && paths_ok o.
Lemma both_split : forall o, both_ok o = true -> rks_ok o = true /\ paths_ok o = true.
Proof. intros o H. apply andb_true_iff in H. exact H. Qed.
Lemma toy_both : both_ok (built_of toy_builder) = true. Proof. vm_compute. reflexivity. Qed.
Lemma toy_rks : rks_ok (built_of toy_builder) = true. Proof. exact (proj1 (both_split _ toy_both)). Qed.
Lemma toy_paths : paths_ok (built_of toy_builder) = true. Proof. exact (proj2 (both_split _ toy_both)). Qed.

#[local] Opaque toy_builder build create_proof synthesize sins_hash_words sins_Q msg_words.

Lemma toy_built : exists b0 meta r',
  build (fun i : Z => Some i) 5 toy_builder toy_rng = Ret (Ok (Some (b0, meta)), r') /\
  (forall a, In a (b_actions b0) -> a_rk a <> pt_id) /\ ~ undefined_merkle_hash (up_circuits (ip_proof (b_auth b0))).
Proof.
  pose proof toy_rks as H1. pose proof toy_paths as H2. unfold built_of in H1, H2.
  destruct (build (fun i : Z => Some i) 5 toy_builder toy_rng) as [[[[[b0 meta]|]|?] r']|w|]; try discriminate H1.
  exists b0, meta, r'. split; [reflexivity|]. cbn [rks_ok paths_ok] in H1, H2. rewrite forallb_forall in H1, H2. split.
  - intros a HI. apply (is_id_false toy_laws). specialize (H1 a HI). apply negb_true_iff in H1. exact H1.
  - intros (w & h & x & y & I1 & I2 & I3). apply (layers_defined_spec _ (H2 w I1)). exists h, x, y. split; assumption.
Qed.

(** C61's premises. *)
Definition toy_verifier (p : bytes) (is : list (list Z)) : bool := match p with [x01; x02] => true | _ => false end.
Lemma toy_proofs_verify : proofs_verify toy_prover toy_verifier.
Proof.
  intros ws is r p r' _ H. unfold toy_prover in H. assert (p = [x01; x02]) by congruence. subst p. reflexivity.
Qed.
Lemma toy_prover_succeeds : prover_succeeds toy_prover.
Proof. intros ws is r _. exists [x01; x02], r. reflexivity. Qed.

Lemma toy_accepted : forall sighash r1 r2 r4, exists b0 meta r' ask b1 r3 bd bt,
  build (fun i : Z => Some i) 5 toy_builder toy_rng = Ret (Ok (Some (b0, meta)), r') /\
  (forall a, In a (b_actions b0) -> a_rk a <> pt_id) /\ covers [ask] toy_builder /\
  create_proof toy_prover b0 r1 = Ret (Ok b1, r3) /\ apply_signatures b1 r2 sighash [ask] = Ret (Ok bd) /\
  bundle_valid toy_verifier (fun i => i) bd sighash /\ effects bd = effects b0 /\
  add_all (fun i => i) batch_new [(bd, sighash)] = Ret bt /\ validate toy_verifier bt r4 = true.
Proof.
  intros sighash r1 r2 r4. destruct toy_built as (b0 & meta & r' & E & RK & NU). destruct toy_covers as (ask & _ & CV).
  destruct (pipeline_completes toy_laws toy_prover toy_verifier (fun i : Z => Some i) (fun i => i) toy_type toy_anchor toy_builder 5 toy_rng
    b0 meta r' sighash [ask] r1 r2) as [(b1 & r3 & bd & bt & H1 & H2 & H3 & H4 & H5 & H6)|U]; try assumption.
  - intros i v H. congruence.
  - exact toy_proofs_verify.
  - exact toy_prover_succeeds.
  - exact toy_gd.
  - exact toy_basepoint.
  - exact toy_anchor_base.
  - exact toy_reachable.
  - exists b0, meta, r', ask, b1, r3, bd, bt. repeat (split; [assumption|]). apply H6.
  - destruct (NU U).
Qed.

(** C62's premises: a verifier that accepts exactly the public inputs of this bundle; discrete
    logarithms are easy in this group. *)
Definition only (is0 : list (list Z)) (p : bytes) (is : list (list Z)) : bool :=
  if list_eq_dec (list_eq_dec Z.eq_dec) is is0 then true else false.
Definition toy_log (t : sig_type) (vk : @point toy_curve) (m : bytes) (s : signature) : Z :=
  toy_k vk * toy_k (@basepoint toy_curve toy_oracles t) ^ (qmod - 2).
Lemma toy_mul : forall k P, toy_k (@pt_mul toy_curve k P) = k * toy_k P mod qmod.
Proof.
  intros [|k|k] P; cbn [pt_mul].
  - reflexivity.
  - rewrite toy_mul_pos, toy_k_pt. reflexivity.
  - rewrite toy_mul_pos. cbn [pt_neg toy_curve]. rewrite !toy_k_pt.
    replace (- (Z.pos k * toy_k P mod qmod)) with (-1 * (Z.pos k * toy_k P mod qmod)) by lia.
    rewrite Zmult_mod_idemp_r. f_equal. lia.
Qed.
Lemma toy_log_ok : forall t vk m s, toy_k (@basepoint toy_curve toy_oracles t) <> 0 -> vk = vk_of t (toy_log t vk m s).
Proof.
  intros t vk m s NB. apply toy_ext. unfold vk_of, toy_log. rewrite toy_mul.
  set (g := toy_k (@basepoint toy_curve toy_oracles t)) in *. assert (G : 0 < g < qmod) by (pose proof (toy_k_range (@basepoint toy_curve toy_oracles t)); lia).
  replace (toy_k vk * g ^ (qmod - 2) * g) with (toy_k vk * g ^ (qmod - 1)).
  - rewrite <- Zmult_mod_idemp_r. rewrite fermat; [|exact prime_qmod|apply prime_not_div_small; [exact prime_qmod|clear -G; lia]].
    rewrite Z.mul_1_r. symmetry. apply Z.mod_small. apply toy_k_range.
  - rewrite <- Z.mul_assoc. f_equal. replace (qmod - 1) with (Z.succ (qmod - 2)) by lia.
    rewrite Z.pow_succ_r by (pose proof q_big; lia). ring.
Qed.
Lemma toy_finds_keys : forall t, toy_k (@basepoint toy_curve toy_oracles t) <> 0 -> finds_keys t (toy_log t).
Proof. intros t NB vk m s _. apply toy_log_ok. exact NB. Qed.
Lemma toy_bases_nz : (toy_k (@basepoint toy_curve toy_oracles SpendAuth) =? 0) = false /\ (toy_k (@basepoint toy_curve toy_oracles Binding) =? 0) = false.
Proof. split; vm_compute; reflexivity. Qed.

Lemma choose_cells : forall ws is, Forall2 provable_instance ws is -> exists ks, Forall2 circuit_sat is ks.
Proof.
  intros ws is H. induction H as [|w i ws is (k & _ & S) H [ks IH]]; [exists []; constructor|].
  exists (k :: ks). constructor; assumption.
Qed.

Lemma zero_i64 : i64_ok 0.
Proof. unfold i64_ok. lia. Qed.
Lemma toy_sound : exists halo2_verify extract bd bt r sighash,
  finds_cells halo2_verify extract /\ finds_keys SpendAuth (toy_log SpendAuth) /\ finds_keys Binding (toy_log Binding) /\
  add_all (fun i : Z => i) batch_new [(bd, sighash)] = Ret bt /\ validate halo2_verify bt r = true /\
  is_base (b_anchor bd) /\ i64_ok (b_value_balance bd) /\ Z.of_nat (length (b_actions bd)) < 2 ^ 180 /\ b_actions bd <> [].
Proof.
  destruct (toy_accepted toy_sighash toy_rng toy_rng toy_rng) as (b0 & meta & r' & ask & b1 & r3 & bd & bt & E & RK & CV & CP & AP & BV & EF & AD & _).
  assert (OI : exists is, omap to_halo2_instance (to_instances bd) = Ret is).
  { destruct BV as (_ & _ & V3). unfold verify_proof, proof_verify in V3.
    destruct (omap to_halo2_instance (to_instances bd)) as [is|w|]; cbn [obind] in V3; try discriminate V3. exists is. reflexivity. }
  destruct OI as [is OI].
  assert (OI0 : omap to_halo2_instance (to_instances b0) = Ret is) by (rewrite <- (effects_instances _ _ _ _ bd b0 EF); exact OI).
  assert (W : Forall2 provable_instance (up_circuits (ip_proof (b_auth b0))) is).
  { destruct (stored_witnesses toy_laws (fun i : Z => Some i) toy_type toy_anchor toy_builder 5 toy_rng b0 meta r' is toy_gd toy_basepoint toy_anchor_base toy_reachable E OI0) as [W|U]; [exact W|].
    destruct toy_built as (b0' & meta' & r'' & E' & _ & NU). assert (b0' = b0) by congruence. subst b0'. destruct (NU U). }
  destruct (choose_cells _ _ W) as [ks HK].
  exists (only is), (fun _ _ => ks), bd, bt, toy_rng, toy_sighash.
  assert (ON : only is (au_proof (b_auth bd)) is = true) by (unfold only; destruct (list_eq_dec _ is is); congruence).
  split. { intros p is' H. unfold only in H. destruct (list_eq_dec _ is' is) as [->|N]; [exact HK|discriminate H]. }
  split; [apply toy_finds_keys; apply Z.eqb_neq; apply toy_bases_nz|]. split; [apply toy_finds_keys; apply Z.eqb_neq; apply toy_bases_nz|].
  split; [exact AD|].
  split. { apply (complete toy_laws (only is) (fun i : Z => i) _ _ toy_rng AD). intros x sh [X|[]]. assert (x = bd) by congruence.
    assert (sh = toy_sighash) by congruence. subst x sh. destruct BV as (V1 & V2 & _). split; [exact V1|]. split; [exact V2|].
    unfold verify_proof, proof_verify. rewrite OI. cbn [obind]. rewrite ON. reflexivity. }
  destruct (build_shape toy_laws (fun i : Z => Some i) _ _ _ _ _ _ _ toy_gd toy_reachable E) as (n & NA & N0 & SH).
  destruct (SH b0 meta eq_refl) as (LN & _ & AN).
  pose proof (f_equal b_anchor EF) as EA. pose proof (f_equal b_value_balance EF) as EV. pose proof (f_equal (fun b => length (b_actions b)) EF) as EL.
  cbn [effects b_anchor b_value_balance b_actions] in EA, EV, EL. rewrite !map_length in EL.
  split; [rewrite EA, AN; exact toy_anchor_base|].
  split.
  { rewrite EV. destruct (build_balance toy_laws (fun i : Z => Some i) _ _ _ toy_gd toy_reachable) as (H1 & _).
    apply H1 in E. rewrite (proj1 (Z.eqb_eq _ _) toy_balanced), Z.sub_diag in E. assert (V0 : b_value_balance b0 = 0) by congruence. rewrite V0. exact zero_i64. }
  assert (L4 : length (b_actions bd) = n) by congruence. rewrite L4.
  destruct toy_holds as [T1 T2]. rewrite T1, T2 in NA. assert (N4 : n = 4%nat) by (vm_compute in NA; congruence).
  split; [rewrite N4; reflexivity|]. intro X. rewrite X in L4. rewrite N4 in L4. discriminate L4.
Qed.

(** C50's premises: the first action, its witness and its public inputs. *)
Lemma toy_first : exists bd meta r' a w inst,
  build (fun i : Z => Some i) 5 toy_builder toy_rng = Ret (Ok (Some (bd, meta)), r') /\
  nth_error (b_actions bd) 0 = Some a /\ nth_error (up_circuits (ip_proof (b_auth bd))) 0 = Some w /\
  to_halo2_instance (to_instance a (b_flags bd) (b_anchor bd)) = Ret inst.
Proof.
  destruct toy_built as (b0 & meta & r' & E & RK & NU).
  destruct (build_shape toy_laws (fun i : Z => Some i) _ _ _ _ _ _ _ toy_gd toy_reachable E) as (n & NA & N0 & SH).
  destruct (SH b0 meta eq_refl) as (LN & _ & AN).
  destruct toy_holds as [T1 T2]. rewrite T1, T2 in NA. assert (N4 : n = 4%nat) by (vm_compute in NA; congruence).
  destruct (toy_accepted toy_sighash toy_rng toy_rng toy_rng) as (b0' & meta' & r'' & ask & b1 & r3 & bd & bt & E' & _ & _ & _ & _ & BV & EF & _).
  assert (b0' = b0) by congruence. subst b0'.
  assert (OI : exists is, omap to_halo2_instance (to_instances bd) = Ret is).
  { destruct BV as (_ & _ & V3). unfold verify_proof, proof_verify in V3.
    destruct (omap to_halo2_instance (to_instances bd)) as [is|w|]; cbn [obind] in V3; try discriminate V3. exists is. reflexivity. }
  destruct OI as [is OI].
  assert (OI0 : omap to_halo2_instance (to_instances b0) = Ret is) by (rewrite <- (effects_instances _ _ _ _ bd b0 EF); exact OI).
  destruct (stored_witnesses toy_laws (fun i : Z => Some i) toy_type toy_anchor toy_builder 5 toy_rng b0 meta r' is toy_gd toy_basepoint toy_anchor_base toy_reachable E OI0) as [W|U];
    [|destruct (NU U)].
  apply omap_spec in OI0. unfold to_instances in OI0.
  destruct (b_actions b0) as [|a l] eqn:EA; [exfalso; rewrite N4 in LN; discriminate LN|]. cbn [map] in OI0.
  inversion OI0 as [|x y xs ys H1 H2]. subst. inversion W as [|w i' ws is' H3 H4 H5]. 
  exists b0, meta, r', a, w, y. split; [exact E|]. split; [rewrite EA; reflexivity|]. split; [rewrite <- H5; reflexivity|exact H1].
Qed.
