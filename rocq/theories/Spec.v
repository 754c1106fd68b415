(** Small independent specifications shared by the property statements. *)
From Coq Require Import ZArith List.
From Coq Require Import Init.Byte.
From Verif Require Import Prelude Fields.
Import ListNotations.
Open Scope Z_scope.

(** The integer sum of a list. *)
Fixpoint zsum (l : list Z) : Z :=
  match l with [] => 0 | x :: l' => x + zsum l' end.

(** What a ValueSum may hold: value.rs says "any value in [-MAX_NOTE_VALUE, MAX_NOTE_VALUE]". *)
Definition value_sum_ok (v : Z) : Prop := -(2 ^ 64 - 1) <= v <= 2 ^ 64 - 1.
Definition i64_ok (v : Z) : Prop := - 2 ^ 63 <= v <= 2 ^ 63 - 1.

(** What it means for a 32-byte codec to be canonical. *)
Definition canonical_codec {A} (ok : A -> Prop) (enc : A -> bytes) (dec : bytes -> option A) : Prop :=
  (forall x, ok x -> length (enc x) = 32%nat /\ dec (enc x) = Some x) /\
  (forall b x, length b = 32%nat -> dec b = Some x -> ok x /\ enc x = b) /\
  (forall x y, ok x -> ok y -> enc x = enc y -> x = y).

(** The affine curve equation of Pallas. *)
Definition on_pallas (x y : Z) : Prop := (y * y) mod Fields.pmod = (x * x * x + 5) mod Fields.pmod.
