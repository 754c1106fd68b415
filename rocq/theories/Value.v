(** src/value.rs. A NoteValue is a Z in the u64 range, a ValueSum a Z (i128 in Rust). *)
From Coq Require Import String ZArith List Bool.
From Coq Require Import Init.Byte.
From Verif Require Import Prelude Fields Curve Oracles RedPallas.
Import ListNotations.
Open Scope Z_scope.

(** value.rs:63 MAX_NOTE_VALUE. *)
Definition max_note_value : Z := 2 ^ 64 - 1.

(** value.rs:70-71 VALUE_SUM_RANGE.contains. *)
Definition in_value_sum_range (v : Z) : bool := (- max_note_value <=? v) && (v <=? max_note_value).

(** i128::checked_sub / checked_add. *)
Definition i128_checked (v : Z) : option Z :=
  if (- 2 ^ 127 <=? v) && (v <? 2 ^ 127) then Some v else None.

Definition opt_filter {A} (f : A -> bool) (m : option A) : option A :=
  match m with Some a => if f a then Some a else None | None => None end.

(** value.rs:107-113 NoteValue::from_bytes / to_bytes. *)
Definition note_value_from_bytes (b : bytes) : Z := le_val b.
Definition note_value_to_bytes (v : Z) : bytes := le_bytes 8 v.

(** value.rs:116-118 NoteValue::to_le_bits. *)
Definition note_value_bits (v : Z) : list bool := bytes_bits (le_bytes 8 v).

(** value.rs:127-139 impl Sub for NoteValue. *)
Definition note_value_sub (a b : Z) : outcome Z :=
  unwrap "u64 - u64 result is always in VALUE_SUM_RANGE"
    (opt_filter in_value_sum_range (i128_checked (a - b))).

(** value.rs:162-164 ValueSum::from_raw (i64 as i128). *)
Definition value_sum_from_raw (v : Z) : Z := v.

Inductive vsign := Positive | Negative.
Definition vsign_val (s : vsign) : Z := match s with Positive => 1 | Negative => -1 end.

(** value.rs:167-178 ValueSum::magnitude_sign. *)
Definition magnitude_sign (v : Z) : outcome (Z * vsign) :=
  let (m, s) := if v <? 0 then (- v, Negative) else (v, Positive) in
  let! m' := unwrap "ValueSum magnitude is in range for u64 by construction"
               (if (0 <=? m) && (m <? 2 ^ 64) then Some m else None) in
  Ret (m', s).

(** value.rs:181-191 impl Add for ValueSum. *)
Definition value_sum_add (a b : Z) : option Z :=
  opt_filter in_value_sum_range (i128_checked (a + b)).

Inductive overflow_error := OverflowError.

(** value.rs:193-203 impl Sum for Result<ValueSum, OverflowError>. *)
Definition value_sum_fold (l : list Z) : result overflow_error Z :=
  fold_left (fun acc v =>
               match acc with
               | Ok a => match value_sum_add a v with Some s => Ok s | None => Err OverflowError end
               | Err e => Err e
               end) l (Ok 0).

(** value.rs:205-211 TryFrom<ValueSum> for i64. *)
Definition i64_try_from (v : Z) : result overflow_error Z :=
  if (- 2 ^ 63 <=? v) && (v <? 2 ^ 63) then Ok v else Err OverflowError.

(** * Trapdoors: value.rs:215-266, scalars. *)

(** value.rs:224-226. *)
Definition trapdoor_from_bytes (b : bytes) : option Z := scalar_from_repr b.
(** value.rs:229-235 Add. *)
Definition trapdoor_add (a b : Z) : Z := (a + b) mod qmod.
(** value.rs:237-241 Sum. *)
Definition trapdoor_sum (l : list Z) : Z := fold_left trapdoor_add l 0.

Section Commit.
  Context {C : Curve} {OR : @Oracles C}.

  (** value.rs:245-247 random. *)
  Definition trapdoor_random (r : rng) : Z * rng := rng_scalar r.

  (** value.rs:254-257 into_bsk: to_repr().try_into().unwrap(). *)
  Definition into_bsk (t : Z) : outcome Z :=
    unwrap "into_bsk" (signing_key_from_bytes (to_repr t)).

  (** value.rs:311-313: the two bases. *)
  Definition value_base_V : point := hash_to_curve "z.cash:Orchard-cv" (bytes_of_string "v").
  Definition value_base_R : point := hash_to_curve "z.cash:Orchard-cv" (bytes_of_string "r").

  (** value.rs:311-324 ValueCommitment::derive. *)
  Definition derive_cv (value : Z) (rcv : Z) : outcome point :=
    let! abs_value := unwrap "value must be in valid range"
                        (if Z.abs value <? 2 ^ 64 then Some (Z.abs value) else None) in
    let s := if value <? 0 then (- abs_value) mod qmod else abs_value in
    Ret (pt_add (pt_mul s value_base_V) (pt_mul rcv value_base_R)).

  (** value.rs:287-303 Sum for ValueCommitment; 278-285 Sub. *)
  Definition cv_sum (l : list point) : point := fold_left pt_add l pt_id.
  Definition cv_sub (a b : point) : point := pt_sub a b.

  (** value.rs:326-329 into_bvk: to_bytes().try_into().unwrap(). *)
  Definition into_bvk (cv : point) : outcome point :=
    unwrap "into_bvk" (vk_from_bytes (pt_encode cv)).

  (** value.rs:332-339 from_bytes / to_bytes. *)
  Definition cv_from_bytes (b : bytes) : option point := pt_decode b.
  Definition cv_to_bytes (cv : point) : bytes := pt_encode cv.

  (** value.rs:342-357 x(), y(): 0 for the identity. *)
  Definition cv_x (cv : point) : Z := if pt_eqb cv pt_id then 0 else pt_x cv.
  Definition cv_y (cv : point) : Z := if pt_eqb cv pt_id then 0 else pt_y cv.
End Commit.
