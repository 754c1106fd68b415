(** The bundle of [ToyBuilder] proved, prepared and signed; used by the [Example]s. *)
From Coq Require Import String ZArith List Bool Lia.
From Coq Require Import Init.Byte.
From Verif Require Import Prelude Fields Curve Oracles RedPallas Value Keys Note Tree Action NoteEnc Bundle Builder Signing
  PreludeFacts CurveFacts KeysSpec KeysFacts NoteSpec NoteEncSpec BundleSpec BuilderSpec BuilderFacts BuildFacts SigningSpec SigningFacts
  Toy ToyFacts ToyKeys ToyNote ToyNoteEnc ToyBundle ToyBuilder.
Import ListNotations.
Open Scope Z_scope.

Definition toy_prover : list (@witness toy_curve) -> list (list Z) -> @rng toy_curve toy_oracles -> option bytes * @rng toy_curve toy_oracles :=
  fun _ _ r => (Some [x01; x02], r).

Definition proves (b : builder) : bool :=
  match build (fun i : Z => Some i) 5 b toy_rng with
  | Ret (Ok (Some (b0, _)), _) => match create_proof toy_prover b0 toy_rng with Ret (Ok _, _) => true | _ => false end
  | _ => false
  end.
Lemma toy_proves_bool : proves toy_builder = true. Proof. vm_compute. reflexivity. Qed.
#[local] Opaque toy_builder build create_proof.

Lemma toy_proves : exists b0 meta r' b1 r1,
  build (fun i : Z => Some i) 5 toy_builder toy_rng = Ret (Ok (Some (b0, meta)), r') /\
  create_proof toy_prover b0 toy_rng = Ret (Ok b1, r1).
Proof.
  pose proof toy_proves_bool as H. unfold proves in H.
  destruct (build _ 5 toy_builder toy_rng) as [[[[[b0 meta]|]|?] r']|w|]; try discriminate H.
  destruct (create_proof toy_prover b0 toy_rng) as [[[b1|?] r1]|w|] eqn:E; try discriminate H.
  exists b0, meta, r', b1, r1. split; [reflexivity|exact E].
Qed.

Lemma accepted_in : forall (l : list call) rs f n p, In (f, n, p) (accepted_spends l rs) -> In (AddSpend f n p) l.
Proof.
  induction l as [|c l IH]; intros rs f n p H; [destruct rs; contradiction|].
  destruct c as [f0 n0 p0|k a v m].
  - destruct rs as [|[[[]|?]|?] rs]; cbn [accepted_spends] in H; try contradiction; try (right; apply (IH _ _ _ _ H)).
    destruct H as [H|H]; [left; congruence|right; apply (IH _ _ _ _ H)].
  - destruct rs as [|r rs]; cbn [accepted_spends] in H; [contradiction|right; apply (IH _ _ _ _ H)].
Qed.

Lemma toy_covers : exists ask, ask_from_sk toy_sk = Ret ask /\ covers [ask] toy_builder.
Proof.
  destruct (fvk_from_sk_ak _ _ toy_fvk_ret) as (ask & H1 & H2). exists ask. split; [exact H1|]. intros s HI.
  destruct toy_run as [rs HR]. destruct (run_from_new toy_laws _ _ _ _ _ toy_calls_ok HR) as (_ & _ & _ & _ & SP & _).
  apply (in_map (fun s => (s_fvk s, s_note s, s_path s))) in HI. rewrite SP in HI. apply accepted_in in HI.
  exists ask. split; [left; reflexivity|].
  assert (E : s_fvk s = toy_fvk) by (unfold toy_calls in HI; cbn [In] in HI; intuition congruence).
  rewrite E. symmetry. exact H2.
Qed.

(** The whole pipeline runs. *)
Lemma toy_pipeline : exists b0 meta r' b1 r1 ask b2 bd,
  build (fun i : Z => Some i) 5 toy_builder toy_rng = Ret (Ok (Some (b0, meta)), r') /\
  create_proof toy_prover b0 toy_rng = Ret (Ok b1, r1) /\
  covers [ask] toy_builder /\ apply_signatures b1 toy_rng toy_sighash [ask] = Ret (Ok bd) /\
  history toy_prover b0 toy_sighash true b2 /\ authorizable toy_sighash b2 /\ b_actions b2 <> [] /\
  finalize b2 = Ret (Ok bd).
Proof.
  destruct toy_proves as (b0 & meta & r' & b1 & r1 & E & CP). destruct toy_covers as (ask & _ & CV).
  destruct (apply_signatures_spec toy_laws toy_prover (fun i : Z => Some i) toy_type toy_anchor toy_builder 5 toy_rng b0 meta r' toy_rng b1 r1
    toy_sighash [ask] toy_rng toy_gd toy_reachable E CP) as [A _]. destruct (A CV) as [bd AB].
  set (b2 := fst (bundle_sign (fst (prepare b1 toy_rng toy_sighash)) (snd (prepare b1 toy_rng toy_sighash)) ask)).
  exists b0, meta, r', b1, r1, ask, b2, bd. split; [exact E|]. split; [exact CP|]. split; [exact CV|]. split; [exact AB|].
  assert (H : history toy_prover b0 toy_sighash true b2) by (apply H_sign; apply (H_prove_prepare toy_prover b0 toy_sighash toy_rng b1 r1 toy_rng CP)).
  split; [exact H|].
  assert (F : finalize b2 = Ret (Ok bd)).
  { unfold apply_signatures in AB. subst b2. destruct (prepare b1 toy_rng toy_sighash) as [p r2]. cbn [fst snd sign_all] in *.
    destruct (bundle_sign p r2 ask) as [q r3]. exact AB. }
  destruct (reachable_legal toy_laws _ _ _ toy_reachable) as (LB & _).
  destruct (build_plan toy_laws _ _ _ _ _ _ _ _ _ toy_gd toy_reachable E) as [plan B].
  assert (PM : Forall parts_match (b_actions b0)) by (apply Forall_forall; intros a HI; apply (built_action _ _ _ _ _ LB B HI)).
  destruct (history_effects toy_laws toy_prover b0 toy_sighash _ _ PM H) as (_ & AZ & _).
  split; [exact AZ|]. split; [|exact F].
  intro X. cbn [proof_stage] in X. unfold finalize, try_map_authorization in F. rewrite X in F. discriminate F.
Qed.
