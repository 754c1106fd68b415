(** pallas::Point::hash_to_curve (pasta_curves 0.5, hashtocurve.rs): hash to two field elements with
    expand_message_xmd over BLAKE2b-512, simplified SWU on the curve iso-Pallas, one addition there, and the
    3-isogeny to Pallas.  Not in /repo; called by src/spec.rs:220-226 and src/value.rs, and by halo2_gadgets'
    Sinsemilla and reddsa's basepoints.  The isogeny is written in Velu's form instead of with the thirteen
    expanded coefficients. *)
From Coq Require Import String ZArith List Bool.
From Coq Require Import Init.Byte.
From Verif Require Import Prelude Fields Curve PallasCurve Blake2b.
Import ListNotations.
Open Scope Z_scope.

(** iso-Pallas: y^2 = x^3 + iso_a x + iso_b. *)
Definition iso_a : Z := 0x18354a2eb0ea8c9c49be2d7258370742b74134581a27a59f92bb4b0b657a014b.
Definition iso_b : Z := 1265.
(** SWU's non-square Z. *)
Definition swu_z : Z := pmod - 13.
(** The kernel of the isogeny is the identity and the two points with this x. *)
Definition iso_x0 : Z := 0x115468c111fb318052cfc0198fdb5ac34301a71d1ff0c7cd6a57031b4ba19471.
Definition iso_v : Z := 0x1e710ed623621c1f41f2d5e3ab3e34a6ff2947a9a28d1e5e276abc2de11866a9.
Definition iso_u : Z := 0x14.
(** 1/3. *)
Definition iso_s : Z := 0x2aaaaaaaaaaaaaaaaaaaaaaaaaaaaaaac18465fd5b88a612661e209e00000001.

(** hash_to_field: two field elements from b_1 and b_2 read big-endian. *)
Definition xmd_dst (domain : bytes) : bytes :=
  let d := domain ++ bytes_of_string "-pallas_XMD:BLAKE2b_SSWU_RO_" in d ++ [byte_of_Z (Z.of_nat (length d))].
Definition b512 (m : bytes) : bytes := blake2b_real 64 (repeat x00 16) m.
Definition hash_to_field (domain msg : bytes) : Z * Z :=
  let dst := xmd_dst domain in
  let b0 := b512 (repeat x00 128 ++ msg ++ [x00; x80; x00] ++ dst) in
  let b1 := b512 (b0 ++ [x01] ++ dst) in
  let b2 := b512 (xor_bytes b0 b1 ++ [x02] ++ dst) in
  (le_val (rev b1) mod pmod, le_val (rev b2) mod pmod).

Definition iso_rhs (x : Z) : Z := fadd (fadd (fmul (fmul x x) x) (fmul iso_a x)) iso_b.

(** map_to_curve_simple_swu. *)
Definition swu_map (u : Z) : Z * Z :=
  let t := fmul swu_z (fmul u u) in
  let d := fadd (fmul t t) t in
  let x1 := if d =? 0 then fdiv iso_b (fmul swu_z iso_a)
            else fmul (fdiv (fopp iso_b) iso_a) (fadd 1 (finv d)) in
  let '(x, y) :=
    match fsqrt (iso_rhs x1) with
    | Some y => (x1, y)
    | None => let x2 := fmul t x1 in
              (x2, match fsqrt (iso_rhs x2) with Some y => y | None => 0 end)
    end in
  (x, if Z.odd u then (if Z.odd y then y else fopp y) else (if Z.odd y then fopp y else y)).

(** Addition on iso-Pallas. *)
Definition iso_add (P Q : option (Z * Z)) : option (Z * Z) :=
  match P, Q with
  | None, _ => Q
  | _, None => P
  | Some (x1, y1), Some (x2, y2) =>
      if x1 =? x2 then
        if y1 =? fopp y2 then None
        else Some (third_point (fdiv (fadd (fmul (fmul 3 x1) x1) iso_a) (fmul 2 y1)) x1 y1 x2)
      else Some (third_point (fdiv (fsub y2 y1) (fsub x2 x1)) x1 y1 x2)
  end.

(** iso_map. *)
Definition iso_map (P : option (Z * Z)) : option (Z * Z) :=
  match P with
  | None => None
  | Some (x, y) =>
      if x =? iso_x0 then None else
      let d := finv (fsub x iso_x0) in
      let d2 := fmul d d in
      let X := fadd (fadd x (fmul iso_v d)) (fmul iso_u d2) in
      let Y := fmul y (fsub (fsub 1 (fmul iso_v d2)) (fmul (fmul 2 iso_u) (fmul d2 d))) in
      Some (fmul (fmul iso_s iso_s) X, fmul (fmul (fmul iso_s iso_s) iso_s) Y)
  end.

Definition hash_to_curve_coords (domain msg : bytes) : option (Z * Z) :=
  let (u0, u1) := hash_to_field domain msg in
  iso_map (iso_add (Some (swu_map u0)) (Some (swu_map u1))).

Definition hash_to_curve_real (domain msg : bytes) : pallas_point := of_coords (hash_to_curve_coords domain msg).
