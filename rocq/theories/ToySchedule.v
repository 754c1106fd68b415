(** A partially signed bundle of three unsigned actions, for the [Example]s of C92. *)
From Coq Require Import String ZArith List Bool Lia Permutation.
From Coq Require Import Init.Byte.
From Verif Require Import Prelude Fields Curve Oracles RedPallas Value Keys Note Action Bundle Builder Signing SigningSpec ScheduleSpec
  PreludeFacts CurveFacts SigningFacts ScheduleFacts Toy ToyFacts ToyKeys ToyNote ToyNoteEnc ToyBundle.
Import ListNotations.
Open Scope Z_scope.

Lemma ak_neq : forall (C : Curve) (OR : @Oracles C) (L : CurveLaws C) (a b : point), negb (ak_eqb a b) = true -> a <> b.
Proof. intros C OR L a b H E. apply (ak_eqb_eq L) in E. rewrite E in H. discriminate H. Qed.

Section Generic.
  Context {C : Curve} {OR : @Oracles C} (L : CurveLaws C) {V P : Type}.
  Lemma generic_ok : forall sighash (a1 a2 a3 : action maybe_signed) p1 p2 p3 fl (vb : V) anc (au : in_progress P partially_authorized),
    pa_sighash (ip_sigs au) = sighash ->
    a_auth a1 = Unsigned p1 -> a_auth a2 = Unsigned p2 -> a_auth a3 = Unsigned p3 ->
    a_rk a1 = pt_add (sp_ak p1) (pt_mul (sp_alpha p1) (basepoint SpendAuth)) ->
    a_rk a2 = pt_add (sp_ak p2) (pt_mul (sp_alpha p2) (basepoint SpendAuth)) ->
    a_rk a3 = pt_add (sp_ak p3) (pt_mul (sp_alpha p3) (basepoint SpendAuth)) ->
    authorizable sighash (mk_bundle [a1; a2; a3] fl vb anc au).
  Proof.
    intros sighash a1 a2 a3 p1 p2 p3 fl vb anc au S0 E1 E2 E3 R1 R2 R3. constructor; [exact S0|]. cbn [b_actions].
    repeat constructor; [rewrite E1|rewrite E2|rewrite E3]; assumption.
  Qed.
  Lemma generic_independent : forall sighash (a1 a2 a3 : action maybe_signed) p1 p2 p3 fl (vb : V) anc (au : in_progress P partially_authorized) k1 k2 r1 r2 s,
    a_auth a1 = Unsigned p1 -> a_auth a2 = Unsigned p2 -> a_auth a3 = Unsigned p3 ->
    verify SpendAuth (a_rk a3) sighash s && negb (verify SpendAuth (a_rk a1) sighash s) && negb (verify SpendAuth (a_rk a2) sighash s) &&
    negb (ak_eqb (ak_of_ask k1) (ak_of_ask k2)) && negb (ak_eqb (sp_ak p3) (ak_of_ask k1)) && negb (ak_eqb (sp_ak p3) (ak_of_ask k2)) = true ->
    independent sighash (mk_bundle [a1; a2; a3] fl vb anc au) (fun _ => 2%nat) [SignBy k1 r1; Attach s; SignBy k2 r2].
  Proof.
    intros sighash a1 a2 a3 p1 p2 p3 fl vb anc au k1 k2 r1 r2 s E1 E2 E3 H. rewrite !andb_true_iff in H. destruct H as [[[[[H1 H2] H3] H4] H5] H6].
    apply (ak_neq _ _ L) in H4, H5, H6. constructor.
    - cbn [signer_keys flat_map app]. constructor; [intros [X|[]]; congruence|]. constructor; [intros []|constructor].
    - cbn. constructor; [intros []|constructor].
    - intros s0 [<-|[]]. split.
      + exists a3. split; [reflexivity|]. split; [exists p3; exact E3|exact H1].
      + intros j (a & HJ & _ & HV). cbn [b_actions] in HJ. destruct j as [|[|[|j]]]; cbn [nth_error] in HJ.
        * assert (a1 = a) by congruence. subst a. rewrite HV in H2. discriminate H2.
        * assert (a2 = a) by congruence. subst a. rewrite HV in H3. discriminate H3.
        * reflexivity.
        * destruct j; discriminate HJ.
    - intros s0 a p _ HA EP [X|[X|[]]]; cbn [b_actions nth_error] in HA; assert (p = p3) by congruence; subst p; congruence.
  Qed.
End Generic.


Section Instance.
  Context {C : Curve} {OR : @Oracles C} (L : CurveLaws C) {V P : Type}.
  Definition gen_action (ask alpha nf cmx : Z) (ct : note_ciphertext) (cv : point) : action maybe_signed :=
    mk_action nf (pt_add (ak_of_ask ask) (pt_mul alpha (basepoint SpendAuth))) cmx ct cv (Unsigned (mk_parts (ak_of_ask ask) alpha)).
  Definition gen_bundle nf cmx ct cv k1 k2 k3 c1 c2 c3 fl (vb : V) anc (au : in_progress P partially_authorized) :=
    mk_bundle [gen_action k1 c1 nf cmx ct cv; gen_action k2 c2 nf cmx ct cv; gen_action k3 c3 nf cmx ct cv] fl vb anc au.
  Definition gen_facts sighash nf cmx ct cv k1 k2 k3 c1 c2 c3 s : bool :=
    verify SpendAuth (a_rk (gen_action k3 c3 nf cmx ct cv)) sighash s && negb (verify SpendAuth (a_rk (gen_action k1 c1 nf cmx ct cv)) sighash s) &&
    negb (verify SpendAuth (a_rk (gen_action k2 c2 nf cmx ct cv)) sighash s) &&
    negb (ak_eqb (ak_of_ask k1) (ak_of_ask k2)) && negb (ak_eqb (ak_of_ask k3) (ak_of_ask k1)) && negb (ak_eqb (ak_of_ask k3) (ak_of_ask k2)).
  Lemma gen_authorizable : forall nf cmx ct cv k1 k2 k3 c1 c2 c3 fl vb anc pr bs sighash,
    authorizable sighash (gen_bundle nf cmx ct cv k1 k2 k3 c1 c2 c3 fl vb anc (mk_progress pr (mk_partial bs sighash))).
  Proof. intros. unfold gen_bundle. eapply generic_ok; reflexivity. Qed.
  Lemma gen_independent : forall nf cmx ct cv k1 k2 k3 c1 c2 c3 fl vb anc au sighash r1 r2 s,
    gen_facts sighash nf cmx ct cv k1 k2 k3 c1 c2 c3 s = true ->
    independent sighash (gen_bundle nf cmx ct cv k1 k2 k3 c1 c2 c3 fl vb anc au) (fun _ => 2%nat) [SignBy k1 r1; Attach s; SignBy k2 r2].
  Proof. intros. unfold gen_bundle. eapply (generic_independent L); [reflexivity|reflexivity|reflexivity|exact H]. Qed.
End Instance.

Definition outside : signature := fst (sign SpendAuth (sk_randomize 9 3) toy_sighash toy_rng).
Definition open_bundle : @partial_bundle toy_curve Z bytes :=
  @gen_bundle toy_curve toy_oracles Z bytes 7 12 toy_ct (pt_mul 3 (@basepoint toy_curve toy_oracles Binding)) 5 7 9 1 2 3 (mk_flags true true) 0 4
    (mk_progress [x01; x02] (mk_partial (fst (sign Binding 50 toy_sighash toy_rng)) toy_sighash)).
Definition three_steps : list (@step toy_curve toy_oracles) := [SignBy 5 toy_rng; Attach outside; SignBy 7 toy_rng].
Definition all_signed (x : result build_error (@partial_bundle toy_curve Z bytes)) : bool :=
  match x with Ok b => forallb (fun a => match a_auth a with Signed _ => true | _ => false end) (b_actions b) | Err _ => false end.
Local Notation open_facts :=
  (@gen_facts toy_curve toy_oracles toy_sighash 7 12 toy_ct (pt_mul 3 (@basepoint toy_curve toy_oracles Binding)) 5 7 9 1 2 3 outside).
Lemma open_checked : open_facts && all_signed (run_steps open_bundle three_steps) = true. Proof. vm_compute. reflexivity. Qed.
#[local] Opaque gen_facts gen_bundle run_steps outside.
Lemma and_l : forall a b, a && b = true -> a = true. Proof. intros [] b H; [reflexivity|discriminate H]. Qed.
Lemma and_r : forall a b, a && b = true -> b = true. Proof. intros [] b H; [exact H|discriminate H]. Qed.
Lemma open_all_signed : all_signed (run_steps open_bundle three_steps) = true. Proof. exact (and_r _ _ open_checked). Qed.
Lemma open_facts_true : open_facts = true. Proof. exact (and_l _ _ open_checked). Qed.
Lemma open_authorizable : authorizable toy_sighash open_bundle.
Proof. exact (gen_authorizable 7 12 toy_ct (pt_mul 3 (@basepoint toy_curve toy_oracles Binding)) 5 7 9 1 2 3 (mk_flags true true) 0 4 [x01; x02] (fst (sign Binding 50 toy_sighash toy_rng)) toy_sighash). Qed.
Lemma open_independent : independent toy_sighash open_bundle (fun _ => 2%nat) three_steps.
Proof.
  exact (gen_independent toy_laws 7 12 toy_ct (pt_mul 3 (@basepoint toy_curve toy_oracles Binding)) 5 7 9 1 2 3 (mk_flags true true) 0 4
    (mk_progress [x01; x02] (mk_partial (fst (sign Binding 50 toy_sighash toy_rng)) toy_sighash)) toy_sighash toy_rng toy_rng outside open_facts_true).
Qed.
Lemma open_attach : exists b1, append_signature open_bundle outside = Ok b1.
Proof.
  exact (independent_ok _ toy_sighash open_bundle (fun _ => 2%nat) (Attach outside) [SignBy 5 toy_rng; SignBy 7 toy_rng] open_authorizable
    (independent_perm _ _ _ _ _ _ (perm_swap (Attach outside) (SignBy 5 toy_rng) [SignBy 7 toy_rng]) open_independent)).
Qed.
