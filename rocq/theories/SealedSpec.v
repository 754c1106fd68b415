(** The one ciphertext from which a note can be read (C91). *)
From Coq Require Import String ZArith List Bool.
From Coq Require Import Init.Byte.
From Verif Require Import Prelude Fields Curve Oracles Keys Note Action NoteEnc NoteSpec NoteEncSpec EncKeySpec.
Import ListNotations.
Open Scope Z_scope.

Section Spec.
  Context {C : Curve} {OR : @Oracles C}.

  (** The action is about the note [n], and its note ciphertext is [n] with [memo], sealed under the key of [n]. *)
  Definition sealed {A} (a : action A) (n : note) (memo : bytes) : Prop :=
    note_ok n /\ length memo = 512%nat /\ note_matches n (a_nf a) (a_cmx a) (ct_epk (a_ct a)) /\
    ct_enc (a_ct a) = aead_encrypt (note_key n (secret_of n)) (plaintext n memo).

  (** The same for the compact form: the part of the plaintext before the memo, without a tag. *)
  Definition compact_sealed (c : compact_action) (n : note) : Prop :=
    note_ok n /\ note_matches n (c_nf c) (c_cmx c) (c_epk c) /\
    c_enc c = xor_bytes (plaintext n []) (keystream (note_key n (secret_of n)) 52).

  (** The outgoing ciphertext is the recipient's key and the ephemeral secret of [n], sealed under the outgoing key. *)
  Definition sealed_for_sender {A} (ovk : bytes) (a : action A) (n : note) : Prop :=
    ct_out (a_ct a) = aead_encrypt (out_key ovk a) (out_plaintext n (secret_of n)).
End Spec.
