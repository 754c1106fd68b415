(** Basic data used by the whole model: outcomes, byte strings, little-endian codecs.
    Nothing here models a particular function of /repo except where a citation says so. *)
From Coq Require Import String ZArith List Bool.
From Coq Require Import Init.Byte.
Import ListNotations.
Open Scope Z_scope.

(** A computation that may hit a Rust panic (assert!, unwrap, expect, overflow, slice index)
    or, for an unbounded rejection loop given finite fuel, run out of fuel. *)
Inductive outcome (A : Type) : Type :=
| Ret (a : A)
| Panic (why : string)
| OutOfFuel.
Arguments Ret {A} a.
Arguments Panic {A} why.
Arguments OutOfFuel {A}.

(** Rust's [Result<A, E>]. *)
Inductive result (E A : Type) : Type :=
| Ok (a : A)
| Err (e : E).
Arguments Ok {E A} a.
Arguments Err {E A} e.

Definition obind {A B : Type} (m : outcome A) (k : A -> outcome B) : outcome B :=
  match m with
  | Ret a => k a
  | Panic w => Panic w
  | OutOfFuel => OutOfFuel
  end.

Definition optbind {A B : Type} (m : option A) (k : A -> option B) : option B :=
  match m with Some a => k a | None => None end.

Definition resbind {E A B : Type} (m : result E A) (k : A -> result E B) : result E B :=
  match m with Ok a => k a | Err e => Err e end.

Notation "'let!' x ':=' m 'in' k" := (obind m (fun x => k))
  (at level 200, x pattern, m at level 100, k at level 200, right associativity).
Notation "'let?' x ':=' m 'in' k" := (optbind m (fun x => k))
  (at level 200, x pattern, m at level 100, k at level 200, right associativity).

(** [Option::unwrap] / [expect]. *)
Definition unwrap {A} (why : string) (m : option A) : outcome A :=
  match m with Some a => Ret a | None => Panic why end.

(** [assert!]. *)
Definition assert_ (why : string) (b : bool) : outcome unit :=
  if b then Ret tt else Panic why.

Definition is_some {A} (m : option A) : bool :=
  match m with Some _ => true | None => false end.

(** * Bytes *)

Notation bytes := (list byte).

Definition byte_of_Z (z : Z) : byte :=
  match Byte.of_N (Z.to_N (z mod 256)) with Some b => b | None => x00 end.

Definition Z_of_byte (b : byte) : Z := Z.of_N (Byte.to_N b).

(** Little-endian encoding of [v] on [n] bytes (truncating). *)
Fixpoint le_bytes (n : nat) (v : Z) : bytes :=
  match n with
  | O => []
  | S n' => byte_of_Z v :: le_bytes n' (v / 256)
  end.

Fixpoint le_val (l : bytes) : Z :=
  match l with
  | [] => 0
  | b :: l' => Z_of_byte b + 256 * le_val l'
  end.

(** Little-endian bits of [v], [n] of them (truncating). *)
Fixpoint le_bits (n : nat) (v : Z) : list bool :=
  match n with
  | O => []
  | S n' => Z.odd v :: le_bits n' (v / 2)
  end.

Fixpoint bits_val (l : list bool) : Z :=
  match l with
  | [] => 0
  | b :: l' => Z.b2z b + 2 * bits_val l'
  end.

Definition byte_bits (b : byte) : list bool := le_bits 8 (Z_of_byte b).

(** [BitArray<_, Lsb0>] of a byte array: least significant bit of each byte first. *)
Definition bytes_bits (l : bytes) : list bool := flat_map byte_bits l.

(** The output of an external function normalised to [n] bytes (the identity when the
    function already returns [n] bytes, as the real ones do). *)
Definition fit (n : nat) (l : bytes) : bytes := firstn n (l ++ repeat x00 n).

Definition bytes_of_string (s : string) : bytes := list_byte_of_string s.

Definition byte_eqb := Byte.eqb.

Fixpoint bytes_eqb (a b : bytes) : bool :=
  match a, b with
  | [], [] => true
  | x :: a', y :: b' => Byte.eqb x y && bytes_eqb a' b'
  | _, _ => false
  end.

(** [&l[a..b]] of a Rust slice, for a <= b <= len (no panic modelled here: every use
    in the model is on an array of known length). *)
Definition slice (a b : nat) (l : bytes) : bytes := firstn (b - a) (skipn a l).

Definition byte_xor (a b : byte) : byte := byte_of_Z (Z.lxor (Z_of_byte a) (Z_of_byte b)).

Fixpoint xor_bytes (a b : bytes) : bytes :=
  match a, b with
  | x :: a', y :: b' => byte_xor x y :: xor_bytes a' b'
  | _, _ => []
  end.
