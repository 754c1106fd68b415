(** Properties C26, C27, C28 (src/note_encryption.rs). *)
From Coq Require Import String ZArith List Bool.
From Coq Require Import Init.Byte.
From Verif Require Import Prelude Fields Curve Oracles Keys Note Action NoteEnc
  KeysSpec NoteSpec NoteEncSpec NoteEncFacts Toy ToyFacts ToyKeys ToyNote ToyNoteEnc.
Import ListNotations.
Open Scope Z_scope.

(** C26: an action whose ciphertext was made by the encryptor gives back the note, its address and
    the memo: to the recipient, in compact form, and to the holder of the outgoing viewing key. *)
Theorem C26_encryption_round_trip :
  forall (C : Curve) (OR : @Oracles C) (L : CurveLaws C) (A : Type)
    (ovk : option bytes) (n : note) (memo : bytes) (r : rng) (a : action A),
  gd_fallback_ok -> note_ok n -> length memo = 512%nat -> encrypts ovk n memo r a ->
  ct_ok (a_ct a) /\
  (forall k, ivk_ok k -> owned_by k (n_recipient n) ->
     try_note_decryption k a = Ret (Some (n, n_recipient n, memo)) /\
     try_compact_note_decryption k (compact_of_action a) = Ret (Some (n, n_recipient n))) /\
  (forall o, ovk = Some o -> try_output_recovery o a = Ret (Some (n, n_recipient n, memo))).
Proof. exact @encrypts_roundtrip. Qed.
Print Assumptions C26_encryption_round_trip.

Example C26_example : exists (a : action unit) (k : ivk),
  note_ok toy_sent /\ length toy_memo = 512%nat /\ encrypts (Some toy_ovk) toy_sent toy_memo toy_rng a /\
  ivk_ok k /\ owned_by k (n_recipient toy_sent).
Proof. exact toy_encrypted. Qed.

(** C27: on any action whatever (only array lengths and field ranges are assumed) decryption does
    not panic, and a note it returns is the one the action is about. *)
Theorem C27_full_decryption_sound :
  forall (C : Curve) (OR : @Oracles C) (L : CurveLaws C) (A : Type) (k : ivk) (a : action A),
  gd_fallback_ok -> ivk_ok k -> ct_ok (a_ct a) -> is_base (a_nf a) -> is_base (a_cmx a) ->
  exists r, try_note_decryption k a = Ret r /\
  forall n to memo, r = Some (n, to, memo) ->
    note_ok n /\ note_matches n (a_nf a) (a_cmx a) (ct_epk (a_ct a)) /\ to = n_recipient n /\
    owned_by k to /\ length memo = 512%nat.
Proof. exact @full_sound. Qed.
Print Assumptions C27_full_decryption_sound.

Theorem C27_compact_decryption_sound :
  forall (C : Curve) (OR : @Oracles C) (L : CurveLaws C) (k : ivk) (c : compact_action),
  gd_fallback_ok -> ivk_ok k -> length (c_enc c) = 52%nat -> is_base (c_nf c) -> is_base (c_cmx c) ->
  exists r, try_compact_note_decryption k c = Ret r /\
  forall n to, r = Some (n, to) ->
    note_ok n /\ note_matches n (c_nf c) (c_cmx c) (c_epk c) /\ to = n_recipient n /\ owned_by k to.
Proof. exact @compact_sound. Qed.
Print Assumptions C27_compact_decryption_sound.

Theorem C27_output_recovery_sound :
  forall (C : Curve) (OR : @Oracles C) (L : CurveLaws C) (A : Type) (ovk : bytes) (a : action A),
  ct_ok (a_ct a) -> is_base (a_nf a) -> is_base (a_cmx a) ->
  exists r, try_output_recovery ovk a = Ret r /\
  forall n to memo, r = Some (n, to, memo) ->
    note_ok n /\ note_matches n (a_nf a) (a_cmx a) (ct_epk (a_ct a)) /\ to = n_recipient n /\
    length memo = 512%nat.
Proof. exact @recovery_sound. Qed.
Print Assumptions C27_output_recovery_sound.

Example C27_example : exists (a : action unit) r,
  ct_ok (a_ct a) /\ is_base (a_nf a) /\ is_base (a_cmx a) /\ try_note_decryption toy_ivk a = Ret (Some r).
Proof. exact toy_decrypts. Qed.

(** C28: what full decryption returns, compact decryption returns; conversely when the tag is right. *)
Theorem C28_compact_agrees :
  forall (C : Curve) (OR : @Oracles C) (A : Type) (k : ivk) (a : action A), ct_ok (a_ct a) ->
  (forall n to memo, try_note_decryption k a = Ret (Some (n, to, memo)) ->
     try_compact_note_decryption k (compact_of_action a) = Ret (Some (n, to))) /\
  (forall n to epk, try_compact_note_decryption k (compact_of_action a) = Ret (Some (n, to)) ->
     epk_from_bytes (ct_epk (a_ct a)) = Some epk ->
     let key := dec_key (ivk_ivk k) epk (ct_epk (a_ct a)) in
     (skipn 564 (ct_enc (a_ct a)) = poly_tag key (firstn 564 (ct_enc (a_ct a))) ->
      exists memo, try_note_decryption k a = Ret (Some (n, to, memo)))).
Proof. exact @compact_agrees. Qed.
Print Assumptions C28_compact_agrees.

Example C28_example : exists (a : action unit) r, ct_ok (a_ct a) /\ try_note_decryption toy_ivk a = Ret (Some r).
Proof. destruct toy_decrypts as (a & r & H1 & _ & _ & H2). exists a, r. exact (conj H1 H2). Qed.
