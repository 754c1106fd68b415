(** Property C77: the keys of note ciphertexts. *)
From Coq Require Import String ZArith List Bool.
From Coq Require Import Init.Byte.
From Verif Require Import Prelude Fields Curve Oracles Keys Note Action NoteEnc KeysSpec NoteSpec NoteEncSpec EncKeySpec EncKeyFacts
  Toy ToyFacts ToyKeys ToyNote ToyNoteEnc.
Import ListNotations.
Open Scope Z_scope.

(** The two ciphertexts of an encrypted note are sealed with these keys, and recovery uses the same outgoing key. *)
Theorem C77_ciphertexts_use_these_keys :
  forall (C : Curve) (OR : @Oracles C) (A : Type),
  (forall (ovk : option bytes) (n : note) (memo : bytes) (r : rng) (a : action A), encrypts ovk n memo r a ->
     ct_epk (a_ct a) = pt_encode (ephemeral n (secret_of n)) /\
     ct_enc (a_ct a) = aead_encrypt (note_key n (secret_of n)) (plaintext n memo) /\
     (forall o, ovk = Some o -> ct_out (a_ct a) = aead_encrypt (out_key o a) (out_plaintext n (secret_of n)))) /\
  (forall (o : bytes) (a : action A), try_output_recovery o a =
     try_output_recovery_with_ock (a_nf a) (out_key o a) (ct_epk (a_ct a)) (to_repr (a_cmx a)) (ct_enc (a_ct a)) (ct_out (a_ct a))).
Proof. exact (fun C OR A => conj (@ciphertext_keys C OR A) (@recovery_key C OR A)). Qed.
Print Assumptions C77_ciphertexts_use_these_keys.

(** An outgoing key belongs to one outgoing viewing key and one action: value commitment, note commitment and
    ephemeral key. *)
Theorem C77_outgoing_keys_are_bound_to_the_action :
  forall (C : Curve) (OR : @Oracles C) (L : CurveLaws C) (A A' : Type) (o o' : bytes) (a : action A) (a' : action A'),
  length o = 32%nat -> length o' = 32%nat -> is_base (a_cmx a) -> is_base (a_cmx a') ->
  out_key o a = out_key o' a' ->
  (o = o' /\ a_cv a = a_cv a' /\ a_cmx a = a_cmx a' /\ ct_epk (a_ct a) = ct_epk (a_ct a')) \/
  same_digest "Zcash_Orchardock" (out_key_input o a) (out_key_input o' a').
Proof. exact @out_keys. Qed.
Print Assumptions C77_outgoing_keys_are_bound_to_the_action.

(** The nonce of the cipher is constant, so a key must not serve two notes: it does not, unless they have the same
    rho, seed and recipient, or one of these explicit coincidences occurs. *)
Theorem C77_note_keys_are_not_reused :
  forall (C : Curve) (OR : @Oracles C) (L : CurveLaws C) (n n' : note) (esk esk' : Z),
  note_ok n -> note_ok n' -> gd_fallback_ok -> note_esk n = Ret esk -> note_esk n' = Ret esk' ->
  note_key n (secret_of n) = note_key n' (secret_of n') ->
  (n_rho n = n_rho n' /\ n_rseed n = n_rseed n' /\ ad_pk_d (n_recipient n) = ad_pk_d (n_recipient n') /\
   diversify_hash (ad_d (n_recipient n)) = diversify_hash (ad_d (n_recipient n'))) \/
  same_digest "Zcash_OrchardKDF" (note_key_input n (secret_of n)) (note_key_input n' (secret_of n')) \/
  same_secret n n' \/ base_relation n n'.
Proof. exact @note_keys. Qed.
Print Assumptions C77_note_keys_are_not_reused.

Example C77_ex : exists (a : action unit) esk,
  encrypts (Some toy_ovk) toy_sent toy_memo toy_rng a /\ length toy_ovk = 32%nat /\ is_base (a_cmx a) /\
  note_ok toy_sent /\ note_esk toy_sent = Ret esk.
Proof. exact toy_keyed. Qed.
