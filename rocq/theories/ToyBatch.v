(** A signature that does not verify, coefficients that reject it and coefficients that let it
    pass, and one bundle at two stages, on the computable curve. *)
From Coq Require Import String ZArith List Bool Lia.
From Coq Require Import Init.Byte.
From Verif Require Import Prelude Fields Curve Oracles RedPallas Value Keys Note Action NoteEnc Bundle Batch
  PreludeFacts CurveFacts CodecFacts ValueFacts KeysSpec KeysFacts NoteSpec NoteFacts NoteEncSpec NoteEncFacts
  BundleSpec BundleFacts BatchFacts Toy ToyFacts ToyKeys ToyNote ToyNoteEnc ToyBundle.
Import ListNotations.
Open Scope Z_scope.

Definition good_item (sk : Z) : batch_item :=
  mk_item SpendAuth (vk_of SpendAuth sk) toy_sighash (fst (sign SpendAuth sk toy_sighash toy_rng)).
(** R = identity, s = 1. *)
Definition bad_item : batch_item :=
  mk_item SpendAuth (vk_of SpendAuth 5) toy_sighash (mk_sig (repeat x00 32) (to_repr 1)).

Lemma good_item_good : forall sk, sig_error (good_item sk) = Some pt_id.
Proof.
  intro sk. apply (verify_error toy_laws). exact (sign_verifies toy_laws SpendAuth sk toy_sighash toy_rng).
Qed.

Definition toy_is_id (m : option toy_point) : bool := match m with Some P => toy_k P =? 0 | None => true end.
Lemma bad_item_checked : toy_is_id (@sig_error toy_curve toy_oracles bad_item) = false.
Proof. vm_compute. reflexivity. Qed.
Lemma bad_item_bad : @sig_error toy_curve toy_oracles bad_item <> Some pt_id.
Proof. intro H. pose proof bad_item_checked as K. rewrite H in K. discriminate K. Qed.

(** A generator state whose next coefficient is zero. *)
Definition zero_rng : Z := 280232537464302264028661441414397350552.
Lemma zero_coefficient : @coefficients toy_curve toy_oracles 1 zero_rng = [0].
Proof. vm_compute. reflexivity. Qed.
Lemma bad_item_passes : @verify_items toy_curve toy_oracles [bad_item] zero_rng = true.
Proof. vm_compute. reflexivity. Qed.
Lemma nonzero_coefficient : nth_error (@coefficients toy_curve toy_oracles 3 1) 1 <> Some 0.
Proof. vm_compute. discriminate. Qed.

(** [toy_bundle] with its authorization forgotten. *)
Definition toy_stripped : bundle unit unit Z :=
  mk_bundle (map (a_map (fun _ => tt)) (b_actions toy_bundle)) (b_flags toy_bundle) (b_value_balance toy_bundle) (b_anchor toy_bundle) tt.
Lemma toy_stripped_ok : bundle_ok (fun v => v) toy_stripped.
Proof.
  destruct toy_bundle_ok as [H1 H2 H3 H4].
  constructor; [|discriminate|exact H3|exact H4].
  apply Forall_map. eapply Forall_impl; [|exact H1]. intros a [A1 A2 A3]. constructor; [exact A1|exact A2|exact A3].
Qed.
Lemma toy_stripped_effects : effects toy_bundle = effects toy_stripped.
Proof. reflexivity. Qed.
