(** The symmetric keys of a note ciphertext and what they are derived from (C77), after section 4.7.3 and 5.4.4.6 of the
    protocol specification. *)
From Coq Require Import String ZArith List Bool.
From Coq Require Import Init.Byte.
From Verif Require Import Prelude Fields Curve Oracles Keys Note Action PrfSpec.
Import ListNotations.
Open Scope Z_scope.

Section Spec.
  Context {C : Curve} {OR : @Oracles C}.

  (** The key of the outgoing ciphertext. *)
  Definition out_key_input {A} (ovk : bytes) (a : action A) : bytes :=
    ovk ++ pt_encode (a_cv a) ++ to_repr (a_cmx a) ++ ct_epk (a_ct a).
  Definition out_key {A} (ovk : bytes) (a : action A) : bytes := blake2b 32 "Zcash_Orchardock" (out_key_input ovk a).

  (** The key of the note ciphertext, given the ephemeral secret. *)
  Definition ephemeral (n : note) (esk : Z) : point := pt_mul esk (diversify_hash (ad_d (n_recipient n))).
  Definition note_key_input (n : note) (esk : Z) : bytes :=
    pt_encode (pt_mul esk (ad_pk_d (n_recipient n))) ++ pt_encode (ephemeral n esk).
  Definition note_key (n : note) (esk : Z) : bytes := blake2b 32 "Zcash_OrchardKDF" (note_key_input n esk).

  (** The ephemeral secret of a note: derived from its seed and rho. *)
  Definition secret_of (n : note) : Z := to_scalar (prf64 (UEsk (n_rseed n) (n_rho n))).

  (** What is encrypted. *)
  Definition plaintext (n : note) (memo : bytes) : bytes :=
    x02 :: ad_d (n_recipient n) ++ le_bytes 8 (n_value n) ++ n_rseed n ++ memo.
  Definition out_plaintext (n : note) (esk : Z) : bytes := pt_encode (ad_pk_d (n_recipient n)) ++ to_repr esk.

  (** Two different strings with one digest. *)
  Definition same_digest (pers : string) (m m' : bytes) : Prop := m <> m' /\ blake2b 32 pers m = blake2b 32 pers m'.
  (** Two notes with different (seed, rho) and one ephemeral secret. *)
  Definition same_secret (n n' : note) : Prop := (n_rseed n, n_rho n) <> (n_rseed n', n_rho n') /\ secret_of n = secret_of n'.
  (** A relation between the bases of two different diversifiers. *)
  Definition base_relation (n n' : note) : Prop :=
    diversify_hash (ad_d (n_recipient n)) <> diversify_hash (ad_d (n_recipient n')) /\
    pt_mul (secret_of n) (diversify_hash (ad_d (n_recipient n))) = pt_mul (secret_of n') (diversify_hash (ad_d (n_recipient n'))).
End Spec.
