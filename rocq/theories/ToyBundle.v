(** Concrete bundles on the computable curve: a valid one, one with an identity rk, and two
    different bundles with one authorizing commitment. *)
From Coq Require Import String ZArith List Bool Lia.
From Coq Require Import Init.Byte.
From Verif Require Import Prelude Fields Curve Oracles RedPallas Value Keys Note Action NoteEnc Bundle Batch
  PreludeFacts CurveFacts CodecFacts ValueFacts KeysSpec KeysFacts NoteSpec NoteFacts NoteEncSpec NoteEncFacts
  BundleSpec BundleFacts BatchFacts Toy ToyFacts ToyKeys ToyNote ToyNoteEnc.
Import ListNotations.
Open Scope Z_scope.

Definition toy_ct : note_ciphertext := mk_ciphertext (repeat x09 32) (repeat x0a 580) (repeat x0b 80).
Lemma toy_ct_ok : ct_ok toy_ct.
Proof. constructor; reflexivity. Qed.

Definition toy_sighash : bytes := repeat x77 32.

(** An action with rk = [sk]G and a good signature. *)
Definition toy_action (nf sk : Z) (cv : point) : action signature :=
  mk_action nf (vk_of SpendAuth sk) 12 toy_ct cv (fst (sign SpendAuth sk toy_sighash toy_rng)).

Definition toy_bundle : bundle authorized signature Z :=
  mk_bundle [toy_action 1 5 (cv_of 7 20); toy_action 2 6 (cv_of (-3) 30)] flags_enabled 4 17
    (mk_authorized [x01; x02] (fst (sign Binding 50 toy_sighash toy_rng))).

Lemma toy_pmod : 1000 < pmod. Proof. vm_compute. reflexivity. Qed.
Lemma toy_action_ok : forall nf sk cv, 0 <= nf < 1000 -> action_ok (toy_action nf sk cv).
Proof.
  intros nf sk cv H. pose proof toy_pmod. constructor; cbn [toy_action a_nf a_cmx a_ct]; [unfold is_base; lia|unfold is_base; lia|exact toy_ct_ok].
Qed.
Lemma toy_bundle_ok : bundle_ok (fun v => v) toy_bundle.
Proof.
  pose proof toy_pmod. constructor; cbn [toy_bundle b_actions b_value_balance b_anchor].
  - constructor; [apply toy_action_ok; lia|]. constructor; [apply toy_action_ok; lia|constructor].
  - discriminate.
  - unfold is_i64. lia.
  - unfold is_base. lia.
Qed.
Lemma toy_bundle_auth_ok : auth_ok toy_bundle.
Proof.
  constructor; cbn [toy_bundle b_actions b_auth au_binding_sig].
  - constructor; [apply sign_wf|]. constructor; [apply sign_wf|constructor].
  - apply sign_wf.
Qed.

Lemma toy_bvk : binding_validating_key (fun v => v) toy_bundle = Ret (vk_of Binding 50).
Proof.
  unfold binding_validating_key. rewrite (derive_cv_ret toy_laws) by (unfold Spec.value_sum_ok; cbn; lia). cbn [obind].
  rewrite (into_bvk_ret toy_laws). f_equal.
  cbn [toy_bundle b_actions map toy_action a_cv b_value_balance]. unfold value_sum_from_raw, cv_sub.
  exact (binding_key_algebra toy_laws [(7, 20); (-3, 30)] 4 eq_refl).
Qed.

Lemma toy_rk : forall sk, 0 < sk < 1000 -> vk_of SpendAuth sk <> pt_id.
Proof.
  intros sk H. apply (mul_nonid toy_laws); [|exact toy_basepoint]. pose proof toy_pmod. pose proof pmod_lt_qmod. lia.
Qed.

Lemma toy_rks : forall a, In a (b_actions toy_bundle) -> a_rk a <> pt_id.
Proof. intros a [<- | [<- | []]]; apply toy_rk; lia. Qed.
Lemma toy_action_verifies : forall nf sk cv, verify SpendAuth (a_rk (toy_action nf sk cv)) toy_sighash (a_auth (toy_action nf sk cv)) = true.
Proof. intros nf sk cv. exact (sign_verifies toy_laws SpendAuth sk toy_sighash toy_rng). Qed.
Lemma toy_binding_verifies : verify Binding (vk_of Binding 50) toy_sighash (fst (sign Binding 50 toy_sighash toy_rng)) = true.
Proof. exact (sign_verifies toy_laws Binding 50 toy_sighash toy_rng). Qed.

#[local] Opaque sign verify vk_of hstar binding_validating_key cv_of to_halo2_instance toy_action.
Lemma toy_valid : bundle_valid (fun _ _ => true) (fun v => v) toy_bundle toy_sighash.
Proof.
  split; [|split].
  - intros a [<- | [<- | []]]; apply toy_action_verifies.
  - exists (vk_of Binding 50). split; [exact toy_bvk|exact toy_binding_verifies].
  - assert (R : forall a, In a (b_actions toy_bundle) -> a_rk a <> pt_id) by exact toy_rks.
    apply (verify_proof_total toy_laws (fun _ _ => true)) in R as [ok E].
    unfold verify_proof, proof_verify in *. destruct (omap _ _); cbn [obind] in *; try discriminate E. reflexivity.
Qed.

Lemma toy_instances : exists r, omap to_halo2_instance (to_instances toy_bundle) = Ret r.
Proof.
  pose proof toy_valid as (_ & _ & H). unfold verify_proof, proof_verify in H.
  destruct (omap to_halo2_instance (to_instances toy_bundle)) as [r|w|]; try discriminate H. exists r. reflexivity.
Qed.

Lemma toy_batch : exists bt,
  add_all (fun v => v) batch_new [(toy_bundle, toy_sighash); (toy_bundle, toy_sighash)] = Ret bt /\
  forall b sh, In (b, sh) [(toy_bundle, toy_sighash); (toy_bundle, toy_sighash)] ->
    bundle_valid (fun _ _ => true) (fun v => v) b sh.
Proof.
  destruct (add_all_total toy_laws (fun _ _ => true) (fun v : Z => v) [(toy_bundle, toy_sighash); (toy_bundle, toy_sighash)] batch_new) as [bt E].
  - assert (G : Z.abs (b_value_balance toy_bundle) < 2 ^ 64 /\ (forall a, In a (b_actions toy_bundle) -> a_rk a <> pt_id)).
    { split; [cbn; lia|]. exact toy_rks. }
    intros b sh [H | [H | []]]; injection H as <- <-; exact G.
  - exists bt. split; [exact E|]. intros b sh [H | [H | []]]; injection H as <- <-; exact toy_valid.
Qed.

(** An rk of 32 zero bytes parses to the identity. *)
Definition toy_bad_bundle (rk : point) : bundle authorized signature Z :=
  mk_bundle [mk_action 1 rk 12 toy_ct (cv_of 7 20) (fst (sign SpendAuth 5 toy_sighash toy_rng))] flags_enabled 4 17
    (mk_authorized [x01; x02] (fst (sign Binding 50 toy_sighash toy_rng))).

Lemma rk_identity_panics :
  exists (C : Curve) (OR : @Oracles C) (rk : point) (b : bundle authorized signature Z),
    CurveLaws C /\ vk_from_bytes (repeat x00 32) = Some rk /\
    (exists a, b_actions b = [a] /\ a_rk a = rk) /\ bundle_ok (fun v => v) b /\ auth_ok b /\
    forall halo2, exists why, verify_proof halo2 b = Panic why.
Proof.
  exists toy_curve, toy_oracles, (toy_pt 0), (toy_bad_bundle (toy_pt 0)). pose proof toy_pmod.
  split; [exact toy_laws|]. split; [reflexivity|]. split; [eexists; split; reflexivity|]. split; [|split].
  - constructor; cbn [toy_bad_bundle b_actions b_value_balance b_anchor]; [|discriminate|unfold is_i64; lia|unfold is_base; lia].
    constructor; [|constructor]. constructor; cbn [a_nf a_cmx a_ct]; [unfold is_base; lia|unfold is_base; lia|exact toy_ct_ok].
  - constructor; cbn [toy_bad_bundle b_actions b_auth au_binding_sig]; [constructor; [apply sign_wf|constructor]|apply sign_wf].
  - intro halo2. unfold verify_proof, proof_verify, to_instances, toy_bad_bundle. cbn [b_actions map omap].
    rewrite (halo2_instance_ret toy_laws). unfold to_instance at 1. cbn [i_rk a_rk].
    change (@pt_is_id toy_curve (toy_pt 0)) with true. cbn [obind]. eexists. reflexivity.
Qed.

(** Moving the last 64 bytes of the proof into a first action's signature. *)
Lemma auth_alone_does_not_bind :
  exists (C : Curve) (OR : @Oracles C) (b b' : bundle authorized signature Z),
    CurveLaws C /\ bundle_ok (fun v => v) b /\ bundle_ok (fun v => v) b' /\ auth_ok b /\ auth_ok b' /\
    auth_data b = auth_data b' /\ authorizing_commitment b = authorizing_commitment b' /\
    length (b_actions b) <> length (b_actions b').
Proof.
  pose (a1 := toy_action 1 5 (cv_of 7 20)). pose (a2 := toy_action 2 6 (cv_of (-3) 30)).
  pose (bs := fst (sign Binding 50 toy_sighash toy_rng)).
  pose (b1 := mk_bundle [a2] flags_enabled 4 17 (mk_authorized ([x01; x02] ++ sig_bytes (a_auth a1)) bs)).
  exists toy_curve, toy_oracles, toy_bundle, b1. pose proof toy_pmod.
  assert (D : auth_data toy_bundle = auth_data b1).
  { unfold auth_data, b1, toy_bundle. cbn [b_actions b_auth au_proof au_binding_sig flat_map].
    fold a1 a2 bs. rewrite !app_nil_r, <- !app_assoc. reflexivity. }
  split; [exact toy_laws|]. split; [exact toy_bundle_ok|]. split; [|split; [exact toy_bundle_auth_ok|split; [|split; [exact D|split]]]].
  - constructor; cbn [b1 b_actions b_value_balance b_anchor]; [|discriminate|unfold is_i64; lia|unfold is_base; lia].
    constructor; [apply toy_action_ok; lia|constructor].
  - constructor; cbn [b1 b_actions b_auth au_binding_sig]; [constructor; [apply sign_wf|constructor]|apply sign_wf].
  - unfold authorizing_commitment. rewrite D. reflexivity.
  - cbn. lia.
Qed.
