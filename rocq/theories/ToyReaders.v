(** An output with two readers, and a bundle whose signatures are over its own commitment, on the computable curve. *)
From Coq Require Import String ZArith List Bool Lia.
From Coq Require Import Init.Byte.
From Verif Require Import Prelude Fields Curve Oracles RedPallas Value Keys Note Action NoteEnc Bundle Batch
  PreludeFacts CurveFacts ValueFacts BatchFacts KeysSpec KeysFacts NoteSpec NoteEncSpec NoteEncFacts
  BundleSpec BundleFacts ReadersSpec Toy ToyFacts ToyKeys ToyNote ToyNoteEnc ToyBundle.
Import ListNotations.
Open Scope Z_scope.

Lemma toy_readers : exists a : action unit, gd_fallback_ok /\ action_ok a /\ ivk_ok toy_ivk /\
  try_note_decryption toy_ivk a = Ret (Some (toy_sent, n_recipient toy_sent, toy_memo)) /\
  try_compact_note_decryption toy_ivk (compact_of_action a) = Ret (Some (toy_sent, n_recipient toy_sent)) /\
  try_output_recovery toy_ovk a = Ret (Some (toy_sent, n_recipient toy_sent, toy_memo)).
Proof.
  destruct toy_encrypts as [a H]. exists a. split; [exact toy_gd|].
  destruct (encrypts_roundtrip toy_laws unit (Some toy_ovk) toy_sent toy_memo toy_rng a toy_gd toy_sent_ok eq_refl H) as (CT & D & O).
  destruct (D toy_ivk toy_ivk_ok eq_refl) as [D1 D2]. pose proof (O toy_ovk eq_refl) as D3.
  destruct H as (e & cm & _ & _ & NF & CX & _). split.
  - constructor; [rewrite NF; exact (no_rho _ toy_sent_ok)|rewrite CX; apply (x_range toy_laws)|exact CT].
  - split; [exact toy_ivk_ok|]. split; [exact D1|]. split; [exact D2|exact D3].
Qed.

Definition toy_signed_over (sh proof : bytes) : bundle authorized signature Z :=
  mk_bundle
    [mk_action 1 (vk_of SpendAuth 5) 12 toy_ct (cv_of 7 20) (fst (sign SpendAuth 5 sh toy_rng));
     mk_action 2 (vk_of SpendAuth 6) 12 toy_ct (cv_of (-3) 30) (fst (sign SpendAuth 6 sh toy_rng))]
    flags_enabled 4 17 (mk_authorized proof (fst (sign Binding 50 sh toy_rng))).
Definition toy_txid : bytes := bundle_commitment (fun v => v) toy_bundle.

Lemma toy_signed_txid : forall sh p, bundle_commitment (fun v => v) (toy_signed_over sh p) = toy_txid.
Proof. intros sh p. apply commitment_of_effects. reflexivity. Qed.
Lemma toy_signed_ok : forall sh p, bundle_ok (fun v => v) (toy_signed_over sh p).
Proof.
  intros sh p. pose proof toy_pmod. constructor; cbn [toy_signed_over b_actions b_value_balance b_anchor].
  - constructor; [|constructor; [|constructor]]; (constructor; cbn [a_nf a_cmx a_ct]; [unfold is_base; lia|unfold is_base; lia|exact toy_ct_ok]).
  - discriminate.
  - unfold is_i64. lia.
  - unfold is_base. lia.
Qed.
Lemma toy_signed_bvk : forall sh p, binding_validating_key (fun v => v) (toy_signed_over sh p) = Ret (vk_of Binding 50).
Proof.
  intros sh p. unfold binding_validating_key. rewrite (derive_cv_ret toy_laws) by (unfold Spec.value_sum_ok; cbn; lia). cbn [obind].
  rewrite (into_bvk_ret toy_laws). f_equal.
  cbn [toy_signed_over b_actions map a_cv b_value_balance]. unfold value_sum_from_raw, cv_sub.
  exact (binding_key_algebra toy_laws [(7, 20); (-3, 30)] 4 eq_refl).
Qed.
Lemma toy_signed_verifies : forall t sk sh, verify t (vk_of t sk) sh (fst (sign t sk sh toy_rng)) = true.
Proof. intros t sk sh. exact (sign_verifies toy_laws t sk sh toy_rng). Qed.
Lemma toy_signed_rks : forall sh p a, In a (b_actions (toy_signed_over sh p)) -> a_rk a <> pt_id.
Proof. intros sh p a [<- | [<- | []]]; apply toy_rk; lia. Qed.

#[local] Opaque sign verify vk_of hstar binding_validating_key cv_of to_halo2_instance.
Lemma toy_signed_valid : forall sh p, bundle_valid (fun _ _ => true) (fun v => v) (toy_signed_over sh p) sh.
Proof.
  intros sh p. split; [|split].
  - intros a [<- | [<- | []]]; apply toy_signed_verifies.
  - exists (vk_of Binding 50). split; [apply toy_signed_bvk|apply toy_signed_verifies].
  - pose proof (toy_signed_rks sh p) as R.
    apply (verify_proof_total toy_laws (fun _ _ => true)) in R as [ok E].
    unfold verify_proof, proof_verify in *. destruct (omap _ _); cbn [obind] in *; try discriminate E. reflexivity.
Qed.

Lemma toy_bvk_nonid : vk_of Binding 50 <> pt_id.
Proof. intro H. assert (X : pt_eqb (vk_of Binding 50) pt_id = false) by (vm_compute; reflexivity). rewrite H in X. vm_compute in X. discriminate X. Qed.

(** Two valid bundles with one signature: they differ in the proof only. *)
Lemma toy_shared_signature : exists (b b' : bundle authorized signature Z) a a',
  b <> b' /\ bundle_ok (fun v => v) b /\ bundle_ok (fun v => v) b' /\
  bundle_valid (fun _ _ => true) (fun v => v) b (bundle_commitment (fun v => v) b) /\
  bundle_valid (fun _ _ => true) (fun v => v) b' (bundle_commitment (fun v => v) b') /\
  In a (b_actions b) /\ In a' (b_actions b') /\ a_rk a = a_rk a' /\ a_auth a = a_auth a' /\ a_rk a <> pt_id /\
  (exists bvk, binding_validating_key (fun v => v) b = Ret bvk /\ binding_validating_key (fun v => v) b' = Ret bvk /\ bvk <> pt_id) /\
  au_binding_sig (b_auth b) = au_binding_sig (b_auth b').
Proof.
  exists (toy_signed_over toy_txid [x01]), (toy_signed_over toy_txid [x02]).
  exists (mk_action 1 (vk_of SpendAuth 5) 12 toy_ct (cv_of 7 20) (fst (sign SpendAuth 5 toy_txid toy_rng))).
  exists (mk_action 1 (vk_of SpendAuth 5) 12 toy_ct (cv_of 7 20) (fst (sign SpendAuth 5 toy_txid toy_rng))).
  split; [intro H; apply (f_equal (fun b => au_proof (b_auth b))) in H; discriminate H|].
  split; [apply toy_signed_ok|]. split; [apply toy_signed_ok|].
  rewrite !toy_signed_txid. split; [apply toy_signed_valid|]. split; [apply toy_signed_valid|].
  split; [left; reflexivity|]. split; [left; reflexivity|]. split; [reflexivity|]. split; [reflexivity|].
  split; [apply toy_rk; lia|]. split; [|reflexivity].
  exists (vk_of Binding 50). split; [apply toy_signed_bvk|]. split; [apply toy_signed_bvk|exact toy_bvk_nonid].
Qed.
