(** src/action.rs. *)
From Coq Require Import String ZArith List Bool.
From Coq Require Import Init.Byte.
From Verif Require Import Prelude Fields Curve Oracles Note.
Import ListNotations.
Open Scope Z_scope.

(** action.rs:14-27 Action<A>. *)
Record action {C : Curve} {A : Type} := mk_action {
  a_nf : Z;
  a_rk : point;
  a_cmx : Z;
  a_ct : note_ciphertext;
  a_cv : point;
  a_auth : A
}.
Arguments mk_action {C A}.
Arguments action {C} A.

Section Action.
  Context {C : Curve}.

  (** action.rs:70-72 rho. *)
  Definition a_rho {A} (a : action A) : Z := rho_from_nf_old (a_nf a).

  (** action.rs:85-94 map; the closure also threads a context (bundle.rs:260). *)
  Definition a_map {A B} (f : A -> B) (a : action A) : action B :=
    mk_action (a_nf a) (a_rk a) (a_cmx a) (a_ct a) (a_cv a) (f (a_auth a)).

  (** action.rs:97-106 try_map. *)
  Definition a_try_map {E A B} (f : A -> result E B) (a : action A) : result E (action B) :=
    match f (a_auth a) with
    | Ok b => Ok (mk_action (a_nf a) (a_rk a) (a_cmx a) (a_ct a) (a_cv a) b)
    | Err e => Err e
    end.
End Action.
