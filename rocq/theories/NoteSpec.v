(** When the values of src/note.rs are ones the Rust types can hold. *)
From Coq Require Import String ZArith List Bool.
From Coq Require Import Init.Byte.
From Verif Require Import Prelude Fields Curve Oracles Sinsemilla RedPallas Value Keys Note KeysSpec.
Import ListNotations.
Open Scope Z_scope.

Section NoteSpec.
  Context {C : Curve} {OR : @Oracles C}.

  Record note_ok (n : note) : Prop := {
    no_recipient : address_ok (n_recipient n);
    no_value : is_u64 (n_value n);
    no_rho : is_base (n_rho n);
    no_rseed : length (n_rseed n) = 32%nat
  }.

  (** What a note commits to. *)
  Definition note_contents (n : note) : point * point * Z * Z * Z :=
    (diversify_hash (ad_d (n_recipient n)), ad_pk_d (n_recipient n), n_value n, n_rho n,
     rseed_psi (n_rseed n) (n_rho n)).
  Definition note_msg (n : note) : list bool :=
    note_commit_msg (pt_encode (diversify_hash (ad_d (n_recipient n)))) (pt_encode (ad_pk_d (n_recipient n)))
      (n_value n) (n_rho n) (rseed_psi (n_rseed n) (n_rho n)).
End NoteSpec.
