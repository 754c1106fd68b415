(** A computable curve and computable oracles, used only by the [Example]s that show
    the hypotheses of the theorems can be met. The group is Z/q. *)
From Coq Require Import String ZArith List Bool.
From Coq Require Import Init.Byte.
From Verif Require Import Prelude Fields Curve Oracles.
Import ListNotations.
Open Scope Z_scope.

Definition toy_ok (k : Z) : bool := (0 <=? k) && (k <? qmod).
Definition toy_point : Type := { k : Z | toy_ok k = true }.
Definition toy_k (P : toy_point) : Z := proj1_sig P.

(** [k mod qmod], without the division in the common cases. *)
Definition toy_red (k : Z) : Z :=
  if toy_ok k then k else if toy_ok (k - qmod) then k - qmod else k mod qmod.

Lemma toy_mod_ok : forall k, toy_ok (toy_red k) = true.
Proof.
  intro k. unfold toy_red. destruct (toy_ok k) eqn:E1; [exact E1|].
  destruct (toy_ok (k - qmod)) eqn:E2; [exact E2|].
  unfold toy_ok. assert (H : 0 < qmod) by reflexivity.
  destruct (Z.mod_pos_bound k qmod H) as [H1 H2].
  rewrite (proj2 (Z.leb_le _ _) H1), (proj2 (Z.ltb_lt _ _) H2). reflexivity.
Qed.

Definition toy_pt (k : Z) : toy_point := exist _ (toy_red k) (toy_mod_ok k).

Definition toy_half : Z := (qmod - 1) / 2.
Definition toy_x (P : toy_point) : Z :=
  if toy_k P <=? toy_half then toy_k P else qmod - toy_k P.
Definition toy_y (P : toy_point) : Z :=
  if toy_k P =? 0 then 0 else if toy_k P <=? toy_half then 2 else pmod - 2.

Definition toy_decode (b : bytes) : option toy_point :=
  let s := le_val b / 2 ^ 255 in
  let x := le_val b mod 2 ^ 255 in
  if x =? 0 then (if s =? 0 then Some (toy_pt 0) else None)
  else if x <=? toy_half then Some (toy_pt (if s =? 0 then x else qmod - x))
  else None.

#[export] Instance toy_curve : Curve := {|
  point := toy_point;
  pt_eqb := fun P Q => toy_k P =? toy_k Q;
  pt_id := toy_pt 0;
  pt_add := fun P Q => toy_pt (toy_k P + toy_k Q);
  pt_neg := fun P => toy_pt (- toy_k P);
  pt_x := toy_x;
  pt_y := toy_y;
  pt_decode := toy_decode
|}.

(** Small outputs keep the examples cheap to check. *)
Definition toy_mix (seed : Z) (l : bytes) : Z :=
  fold_left (fun acc b => Z.land (acc * 33 + Z_of_byte b + 1) 65535) l (Z.land seed 65535) + 1.

#[export] Instance toy_oracles : @Oracles toy_curve := {|
  o_blake2b := fun n pers msg => le_bytes n (toy_mix (toy_mix 3 pers) msg);
  o_hash_to_curve := fun d m => toy_pt (toy_mix (toy_mix 5 d) m);
  o_poseidon := fun a b => 3 * a + 5 * b + 7;
  o_keystream := fun key i => byte_of_Z (toy_mix (Z.of_nat i) key);
  o_tag := fun key ct => le_bytes 16 (toy_mix (toy_mix 7 key) ct);
  o_ff1 := fun key i b => toy_mix (Z.of_nat i + b) key;
  rng := Z;
  o_rng_bytes := fun r n => (le_bytes n (1000 + 17 * r), r + 1);
  o_rng_below := fun r n => (Z.to_nat (r mod 7), r + 1);
  o_rng_point := fun r => (toy_pt (2000 + 19 * r), r + 1)
|}.
