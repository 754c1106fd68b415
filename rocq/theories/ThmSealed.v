(** Property C91: an output is readable exactly when it is the honest encryption of what is read. *)
From Coq Require Import String ZArith List Bool.
From Coq Require Import Init.Byte.
From Verif Require Import Prelude Fields Curve Oracles RedPallas Keys Note Action NoteEnc KeysSpec NoteSpec NoteEncSpec EncKeySpec
  BundleSpec SealedSpec SealedFacts Toy ToyFacts ToyKeys ToyNoteEnc ToyReaders.
Import ListNotations.
Open Scope Z_scope.

(** With an incoming viewing key: the note ciphertext is the one ciphertext of that note and memo ([sealed], SealedSpec.v),
    and the recipient is an address of the key. *)
Theorem C91_recipient_reads_exactly :
  forall (C : Curve) (OR : @Oracles C) (L : CurveLaws C) (A : Type) (k : ivk) (a : action A)
    (n : note) (to : address) (memo : bytes),
  gd_fallback_ok -> ivk_ok k -> action_ok a ->
  (try_note_decryption k a = Ret (Some (n, to, memo)) <->
   sealed a n memo /\ to = n_recipient n /\ owned_by k to).
Proof. exact @read_exactly. Qed.
Print Assumptions C91_recipient_reads_exactly.

(** From the compact form. *)
Theorem C91_light_client_reads_exactly :
  forall (C : Curve) (OR : @Oracles C) (L : CurveLaws C) (k : ivk) (c : compact_action) (n : note) (to : address),
  gd_fallback_ok -> ivk_ok k -> length (c_enc c) = 52%nat -> is_base (c_nf c) -> is_base (c_cmx c) ->
  (try_compact_note_decryption k c = Ret (Some (n, to)) <->
   compact_sealed c n /\ to = n_recipient n /\ owned_by k to).
Proof. exact @compact_read_exactly. Qed.
Print Assumptions C91_light_client_reads_exactly.

(** With an outgoing viewing key: both ciphertexts are the ones the encryptor makes for it. *)
Theorem C91_sender_recovers_exactly :
  forall (C : Curve) (OR : @Oracles C) (L : CurveLaws C) (A : Type) (ovk : bytes) (a : action A)
    (n : note) (to : address) (memo : bytes),
  gd_fallback_ok -> action_ok a ->
  (try_output_recovery ovk a = Ret (Some (n, to, memo)) <->
   sealed a n memo /\ to = n_recipient n /\ sealed_for_sender ovk a n).
Proof. exact @recover_exactly. Qed.
Print Assumptions C91_sender_recovers_exactly.

(** So recovery succeeds exactly on the output of the encryptor. *)
Theorem C91_recovery_inverts_encryption :
  forall (C : Curve) (OR : @Oracles C) (L : CurveLaws C) (A : Type) (ovk : bytes) (a : action A)
    (n : note) (memo : bytes) (r : rng),
  gd_fallback_ok -> action_ok a -> note_ok n -> length memo = 512%nat ->
  (try_output_recovery ovk a = Ret (Some (n, n_recipient n, memo)) <-> encrypts (Some ovk) n memo r a).
Proof. exact @recover_iff_encrypted. Qed.
Print Assumptions C91_recovery_inverts_encryption.

(** A note and a memo have one ciphertext: it cannot be altered and still be read as the same. *)
Theorem C91_one_ciphertext_per_note_and_memo :
  forall (C : Curve) (OR : @Oracles C) (L : CurveLaws C) (A A' : Type) (k k' : ivk) (a : action A) (a' : action A')
    (n : note) (to to' : address) (memo : bytes),
  gd_fallback_ok -> ivk_ok k -> ivk_ok k' -> action_ok a -> action_ok a' ->
  try_note_decryption k a = Ret (Some (n, to, memo)) -> try_note_decryption k' a' = Ret (Some (n, to', memo)) ->
  a_nf a = a_nf a' /\ a_cmx a = a_cmx a' /\ ct_epk (a_ct a) = ct_epk (a_ct a') /\ ct_enc (a_ct a) = ct_enc (a_ct a').
Proof. exact @one_ciphertext. Qed.
Print Assumptions C91_one_ciphertext_per_note_and_memo.

(** An action read in all three ways, so that both sides of each equivalence hold of it. *)
Example C91_example : exists a : action unit, gd_fallback_ok /\ action_ok a /\ ivk_ok toy_ivk /\
  try_note_decryption toy_ivk a = Ret (Some (toy_sent, n_recipient toy_sent, toy_memo)) /\
  try_compact_note_decryption toy_ivk (compact_of_action a) = Ret (Some (toy_sent, n_recipient toy_sent)) /\
  try_output_recovery toy_ovk a = Ret (Some (toy_sent, n_recipient toy_sent, toy_memo)).
Proof. exact toy_readers. Qed.
