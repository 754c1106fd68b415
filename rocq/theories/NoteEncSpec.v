(** Small specifications for note encryption (C26-C28). *)
From Coq Require Import String ZArith List Bool.
From Coq Require Import Init.Byte.
From Verif Require Import Prelude Fields Curve Oracles Keys Note Action NoteEnc KeysSpec NoteSpec.
Import ListNotations.
Open Scope Z_scope.

(** The array lengths of TransmittedNoteCiphertext. *)
Record ct_ok (ct : note_ciphertext) : Prop := {
  co_epk : length (ct_epk ct) = 32%nat;
  co_enc : length (ct_enc ct) = 580%nat;
  co_out : length (ct_out ct) = 80%nat
}.

Section Spec.
  Context {C : Curve} {OR : @Oracles C}.

  (** [n] is the note that action data ([rho], [cmx], [epk]) is about. *)
  Definition note_matches (n : note) (rho cmx : Z) (epk : bytes) : Prop :=
    n_rho n = rho /\
    (exists cm, commitment n = Ret cm /\ pt_x cm = cmx) /\
    (exists esk, note_esk n = Ret esk /\ is_scalar esk /\ esk <> 0 /\
       epk = pt_encode (pt_mul esk (diversify_hash (ad_d (n_recipient n))))).

  (** The address belongs to the incoming viewing key. *)
  Definition owned_by (k : ivk) (a : address) : Prop :=
    ad_pk_d a = pt_mul (ivk_ivk k) (diversify_hash (ad_d a)).

  (** The action carries [n] and [memo] as written by the encryptor, with outgoing key [ovk]. *)
  Definition encrypts {A} (ovk : option bytes) (n : note) (memo : bytes) (r : rng) (a : action A) : Prop :=
    exists e cm,
      encryptor_new ovk n memo = Ret e /\ commitment n = Ret cm /\
      a_nf a = n_rho n /\ a_cmx a = cmx_of cm /\
      ct_epk (a_ct a) = epk_to_bytes (e_epk e) /\
      ct_enc (a_ct a) = encrypt_note_plaintext e /\
      ct_out (a_ct a) = fst (encrypt_outgoing_plaintext e (a_cv a) (a_cmx a) r).
End Spec.
