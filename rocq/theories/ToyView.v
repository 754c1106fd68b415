(** The hypotheses of C90 on the toy curve. *)
From Coq Require Import String ZArith List Bool Lia.
From Coq Require Import Init.Byte.
From Verif Require Import Prelude Fields Curve Oracles RedPallas Value Keys KeysSpec Note Tree Action NoteEnc Bundle Builder BuilderSpec Signing SigningSpec
  Spec BundleSpec RngSpec RandomSpec ViewSpec SigningFacts PipelineFacts Toy ToyFacts ToyKeys ToyNote ToyNoteEnc ToyBundle ToyBuilder ToySigning ToyPipeline.
Import ListNotations.
Open Scope Z_scope.

Lemma toy_base_R : @value_base_R toy_curve toy_oracles <> pt_id.
Proof. intro H. apply (f_equal toy_k) in H. vm_compute in H. discriminate H. Qed.
Lemma toy_base_R_k : toy_k (@basepoint toy_curve toy_oracles Binding) <> 0.
Proof. intro H. vm_compute in H. discriminate H. Qed.
Lemma toy_base_log : exists lam, @value_base_V toy_curve toy_oracles = @pt_mul toy_curve lam (@value_base_R toy_curve toy_oracles).
Proof.
  exists (toy_log Binding (@value_base_V toy_curve toy_oracles) [] (mk_sig [] [])). exact (toy_log_ok Binding _ [] (mk_sig [] []) toy_base_R_k).
Qed.

Fixpoint zeros (n : nat) : list secret := match n with O => [] | S k => mk_secret 0 7 :: zeros k end.
Lemma zeros_facts : forall n, length (zeros n) = n /\ zsum (map sc_value (zeros n)) = 0.
Proof. induction n as [|n [I1 I2]]; [split; reflexivity|]. cbn [zeros length map zsum sc_value]. split; [congruence|exact I2]. Qed.
Lemma some_secrets : forall (n : nat) (v : Z), n <> O -> exists ss, length ss = n /\ zsum (map sc_value ss) = v.
Proof.
  intros [|n] v H; [destruct (H eq_refl)|]. exists (mk_secret v 5 :: zeros n). destruct (zeros_facts n) as [I1 I2].
  cbn [length map zsum sc_value]. rewrite I1, I2. split; [reflexivity|lia].
Qed.
Lemma not_nil_length : forall A (l : list A), l <> [] -> length l <> O.
Proof. intros A [|a l] H; [destruct (H eq_refl)|discriminate]. Qed.
Lemma toy_view : exists b0 meta r' b1 r1 ask bd ss,
  build (fun i : Z => Some i) 5 toy_builder toy_rng = Ret (Ok (Some (b0, meta)), r') /\
  create_proof toy_prover b0 toy_rng = Ret (Ok b1, r1) /\ apply_signatures b1 toy_rng toy_sighash [ask] = Ret (Ok bd) /\
  length ss = length (b_actions bd) /\ zsum (map sc_value ss) = b_value_balance bd.
Proof.
  destruct toy_pipeline as (b0 & meta & r' & b1 & r1 & ask & b2 & bd & E & CP & _ & AB & _ & _ & NE & FF).
  destruct (finalize_ok _ _ FF) as (EF & _).
  assert (NB : length (b_actions bd) <> O).
  { apply (f_equal (fun x => length (b_actions x))) in EF. cbn [effects b_actions] in EF. rewrite !map_length in EF. rewrite EF.
    exact (not_nil_length _ _ NE). }
  destruct (some_secrets (length (b_actions bd)) (b_value_balance bd) NB) as (ss & S1 & S2).
  exists b0, meta, r', b1, r1, ask, bd, ss. split; [exact E|]. split; [exact CP|]. split; [exact AB|]. split; [exact S1|exact S2].
Qed.
