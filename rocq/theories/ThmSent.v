(** Property C97: an outgoing viewing key shows exactly what was sent with it. *)
From Coq Require Import String ZArith List Bool Permutation.
From Coq Require Import Init.Byte.
From Verif Require Import Prelude Fields Curve Oracles RedPallas Value Keys KeysSpec Note NoteSpec Tree Action NoteEnc NoteEncSpec Bundle BundleSpec Builder Signing
  BuilderSpec RngSpec RandomSpec SentSpec SentFacts Toy ToyFacts ToyKeys ToyNote ToyNoteEnc ToyBuilder ToyRandom ToyReaders ToySent.
Import ListNotations.
Open Scope Z_scope.

(** C97. From a transaction built by the crate, in any later state of its authorization, an outgoing viewing key
    recovers the payments (recipient, value, memo) that were asked for with this key, each once, and no others:
    neither those made with another key, nor those made without one, nor the padding. The exception is explicit: an
    outgoing ciphertext whose tag is right for two keys, that of its maker and that of the reader. *)
Theorem C97_sender_sees_exactly_what_was_sent :
  forall (C : Curve) (OR : @Oracles C) (L : CurveLaws C) (V : Type) (try_from : Z -> option V)
    (t : bundle_type) (anchor : Z) (b : builder) (fuel : nat) (r : rng)
    (bd : @unauthorized_bundle C V) (meta : bundle_metadata) (r' : rng),
  gd_fallback_ok -> reachable t anchor b -> build try_from fuel b r = Ret (Ok (Some (bd, meta)), r') ->
  exists ds, draws r (flat_map draws_of ds) r' /\ length ds = length (b_actions bd) /\
    forall T S (fin : bundle T S V) (key : bytes), effects fin = effects bd ->
      Permutation (sent key (b_actions fin)) (requested key b) \/ misread key b (b_actions fin) ds.
Proof. exact @sent_history. Qed.
Print Assumptions C97_sender_sees_exactly_what_was_sent.

(** C97. In any action, made by anyone, a payment that an outgoing viewing key recovers is one that its recipient
    reads: the same note, address and memo. *)
Theorem C97_recovered_payments_reach_the_recipient :
  forall (C : Curve) (OR : @Oracles C) (L : CurveLaws C) (A : Type) (key : bytes) (a : action A)
    (n : note) (to : address) (memo : bytes) (k : ivk),
  gd_fallback_ok -> action_ok a -> try_output_recovery key a = Ret (Some (n, to, memo)) ->
  ivk_ok k -> owned_by k to -> try_note_decryption k a = Ret (Some (n, to, memo)).
Proof. exact @recovered_is_readable. Qed.
Print Assumptions C97_recovered_payments_reach_the_recipient.

(** A builder with one payment of 5 made with a key and one of 7 made without. *)
Example C97_ex : reachable toy_type 7 pay_builder /\ requested toy_ovk pay_builder = [(my_addr, 5, xf6 :: repeat x00 511)] /\
  length (bl_outputs pay_builder) = 2%nat /\
  exists bd meta r', build (fun i : Z => Some i) 5 pay_builder toy_rng = Ret (Ok (Some (bd, meta)), r').
Proof. exact (conj pay_reachable (conj pay_requested (conj (proj2 pay_holds) pay_builds))). Qed.
Example C97_ex_key : @gd_fallback_ok toy_curve toy_oracles.
Proof. exact toy_gd. Qed.
Example C97_ex_recovered : exists a : action unit, gd_fallback_ok /\ action_ok a /\ ivk_ok toy_ivk /\
  try_note_decryption toy_ivk a = Ret (Some (toy_sent, n_recipient toy_sent, toy_memo)) /\
  try_compact_note_decryption toy_ivk (compact_of_action a) = Ret (Some (toy_sent, n_recipient toy_sent)) /\
  try_output_recovery toy_ovk a = Ret (Some (toy_sent, n_recipient toy_sent, toy_memo)).
Proof. exact toy_readers. Qed.
