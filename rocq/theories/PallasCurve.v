(** The Pallas curve itself (pasta_curves 0.5, pallas::{Base, Point, Affine}, which is not in
    /repo): y^2 = x^3 + 5 over F_p, in affine coordinates.  pasta_curves computes in Jacobian
    coordinates; the group element is the same.  [pallas] is the instance of [Curve] the crate
    uses (src/spec.rs:11 and every other module import pasta_curves::pallas). *)
From Coq Require Import String ZArith List Bool Zpow_facts.
From Coq Require Import Init.Byte.
From Verif Require Import Prelude Fields Curve.
Import ListNotations.
Open Scope Z_scope.

(** pallas::Base: Add, Sub, Neg, Mul, pow, invert. *)
Definition fadd (a b : Z) : Z := (a + b) mod pmod.
Definition fsub (a b : Z) : Z := (a - b) mod pmod.
Definition fopp (a : Z) : Z := (- a) mod pmod.
Definition fmul (a b : Z) : Z := (a * b) mod pmod.
Definition fpow (a e : Z) : Z := Zpow_mod a e pmod.
Definition finv (a : Z) : Z := fpow a (pmod - 2).
Definition fdiv (a b : Z) : Z := fmul a (finv b).

(** Field::sqrt.  p - 1 = 2^32 * T with T odd, and 5 generates the multiplicative group.
    pasta_curves uses a table-based method; this is the constant-time Tonelli-Shanks loop,
    which returns one of the same two roots. *)
Definition sqrt_t : Z := (pmod - 1) / 2 ^ 32.
Definition sqrt_root : Z := fpow 5 sqrt_t.

(** Repeated squaring. *)
Fixpoint fsquare_n (n : nat) (b : Z) : Z :=
  match n with O => b | S n' => fsquare_n n' (fmul b b) end.

(** The loop with [i] rounds left: z, t, c as in the usual presentation. *)
Fixpoint sqrt_loop (i : nat) (z t c : Z) : Z :=
  match i with
  | O => z
  | S i' =>
      let b := fsquare_n i' t in
      let c2 := fmul c c in
      if b =? 1 then sqrt_loop i' z t c2 else sqrt_loop i' (fmul z c) (fmul t c2) c2
  end.

Definition fsqrt (a : Z) : option Z :=
  let w := fpow a ((sqrt_t - 1) / 2) in
  let z := fmul a w in
  let t := fmul z w in
  let r := sqrt_loop 31 z t sqrt_root in
  if fmul r r =? a mod pmod then Some r else None.

(** A point: the identity or canonical affine coordinates satisfying the curve equation. *)
Definition affine_ok (x y : Z) : bool :=
  (0 <=? x) && (x <? pmod) && (0 <=? y) && (y <? pmod) &&
  (fmul y y =? fadd (fmul (fmul x x) x) 5).
Definition coords_ok (c : option (Z * Z)) : bool :=
  match c with None => true | Some (x, y) => affine_ok x y end.
Definition pallas_point : Type := { c : option (Z * Z) | coords_ok c = true }.
Definition coords (P : pallas_point) : option (Z * Z) := proj1_sig P.

Definition pallas_id : pallas_point := exist _ None eq_refl.
(** The point with these coordinates; the identity if they are not on the curve (which
    PallasFacts.v proves not to happen where this is used). *)
Definition of_coords (c : option (Z * Z)) : pallas_point :=
  match bool_dec (coords_ok c) true with
  | left H => exist _ c H
  | right _ => pallas_id
  end.

(** Chord and tangent. *)
Definition third_point (l x1 y1 x2 : Z) : Z * Z :=
  let x := fsub (fsub (fmul l l) x1) x2 in (x, fsub (fmul l (fsub x1 x)) y1).
Definition raw_add (P Q : option (Z * Z)) : option (Z * Z) :=
  match P, Q with
  | None, _ => Q
  | _, None => P
  | Some (x1, y1), Some (x2, y2) =>
      if x1 =? x2 then
        if y1 =? fopp y2 then None
        else Some (third_point (fdiv (fmul (fmul 3 x1) x1) (fmul 2 y1)) x1 y1 x2)
      else Some (third_point (fdiv (fsub y2 y1) (fsub x2 x1)) x1 y1 x2)
  end.
Definition raw_neg (P : option (Z * Z)) : option (Z * Z) :=
  match P with None => None | Some (x, y) => Some (x, fopp y) end.

Definition pallas_eqb (P Q : pallas_point) : bool :=
  match coords P, coords Q with
  | None, None => true
  | Some (x1, y1), Some (x2, y2) => (x1 =? x2) && (y1 =? y2)
  | _, _ => false
  end.

(** GroupEncoding::from_bytes: the top bit is the sign; x must be canonical; x = 0 with sign 0 is
    the identity; otherwise the root of x^3 + 5 with the given parity. *)
Definition pallas_decode (b : bytes) : option pallas_point :=
  let sign := le_val b / 2 ^ 255 in
  let x := le_val b mod 2 ^ 255 in
  if pmod <=? x then None
  else if (x =? 0) && (sign =? 0) then Some pallas_id
  else
    let? y := fsqrt (fadd (fmul (fmul x x) x) 5) in
    Some (of_coords (Some (x, if y mod 2 =? sign then y else fopp y))).

(** Not exported as an instance of the class: files name it. *)
Definition pallas : Curve := {|
  point := pallas_point;
  pt_eqb := pallas_eqb;
  pt_id := pallas_id;
  pt_add := fun P Q => of_coords (raw_add (coords P) (coords Q));
  pt_neg := fun P => of_coords (raw_neg (coords P));
  pt_x := fun P => match coords P with None => 0 | Some (x, _) => x end;
  pt_y := fun P => match coords P with None => 0 | Some (_, y) => y end;
  pt_decode := pallas_decode
|}.

(** The generator (-1, 2) of pasta_curves. *)
Definition pallas_generator : pallas_point := of_coords (Some (pmod - 1, 2)).
