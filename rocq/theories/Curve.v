(** The Pallas group as used by the crate, behind a record, and the laws theorems need. *)
From Coq Require Import String ZArith List Bool.
From Coq Require Import Init.Byte.
From Verif Require Import Prelude Fields.
Import ListNotations.
Open Scope Z_scope.

(** pallas::Point of pasta_curves: [pt_x], [pt_y] are the affine coordinates (0 for the
    identity, which has none); [pt_decode] is GroupEncoding::from_bytes. *)
Class Curve : Type := {
  point : Type;
  pt_eqb : point -> point -> bool;
  pt_id : point;
  pt_add : point -> point -> point;
  pt_neg : point -> point;
  pt_x : point -> Z;
  pt_y : point -> Z;
  pt_decode : bytes -> option point
}.

Section Ops.
  Context {C : Curve}.

  Definition pt_is_id (P : point) : bool := pt_eqb P pt_id.
  Definition pt_sub (P Q : point) : point := pt_add P (pt_neg Q).

  (** Scalar multiplication (the crate's [*] on pallas::Point, and the wNAF product of
      src/spec.rs:254-259, whose result is the same group element). *)
  Fixpoint pt_mul_pos (k : positive) (P : point) : point :=
    match k with
    | xH => P
    | xO k' => let R := pt_mul_pos k' P in pt_add R R
    | xI k' => let R := pt_mul_pos k' P in pt_add P (pt_add R R)
    end.

  Definition pt_mul (k : Z) (P : point) : point :=
    match k with
    | Z0 => pt_id
    | Zpos k' => pt_mul_pos k' P
    | Zneg k' => pt_neg (pt_mul_pos k' P)
    end.

  (** GroupEncoding::to_bytes of pasta_curves: x little-endian, the parity of y in bit 255,
      all zeroes for the identity. *)
  Definition pt_encode (P : point) : bytes := le_bytes 32 (pt_x P + 2 ^ 255 * (pt_y P mod 2)).

  Definition pt_sum (l : list point) : point := fold_left pt_add l pt_id.

  (** src/spec.rs:266-272 extract_p: x-coordinate, 0 for the identity. *)
  Definition extract_p (P : point) : Z := pt_x P.
End Ops.

(** What is assumed about the curve by theorems that mention it. *)
Record CurveLaws (C : Curve) : Prop := {
  pt_eqb_spec : forall P Q : point, pt_eqb P Q = true <-> P = Q;
  pt_add_comm : forall P Q : point, pt_add P Q = pt_add Q P;
  pt_add_assoc : forall P Q R : point, pt_add P (pt_add Q R) = pt_add (pt_add P Q) R;
  pt_add_id : forall P : point, pt_add P pt_id = P;
  pt_add_neg : forall P : point, pt_add P (pt_neg P) = pt_id;
  pt_order : forall P : point, pt_mul qmod P = pt_id;
  pt_x_range : forall P : point, 0 <= pt_x P < pmod;
  pt_y_range : forall P : point, 0 <= pt_y P < pmod;
  pt_x_zero : forall P : point, pt_x P = 0 <-> P = pt_id;
  pt_y_zero : forall P : point, pt_y P = 0 <-> P = pt_id;
  pt_x_neg : forall P : point, pt_x (pt_neg P) = pt_x P;
  pt_y_neg : forall P : point, pt_y (pt_neg P) = (- pt_y P) mod pmod;
  pt_x_inj : forall P Q : point, pt_x P = pt_x Q -> P = Q \/ P = pt_neg Q;
  pt_decode_encode : forall P : point, pt_decode (pt_encode P) = Some P;
  pt_encode_decode : forall (b : bytes) (P : point),
    length b = 32%nat -> pt_decode b = Some P -> pt_encode P = b
}.
