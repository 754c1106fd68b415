(** Collisions of the Sinsemilla hash on the toy curve, whose group hash is short. *)
From Coq Require Import String ZArith List Bool Lia.
From Coq Require Import Init.Byte.
From Verif Require Import Prelude Fields Curve Oracles Sinsemilla Tree Toy.
Import ListNotations.
Open Scope Z_scope.

Lemma root_same_first {C : Curve} {OR : @Oracles C} : forall x y s rest,
  combine 0 x s = combine 0 y s -> mp_root (mk_path 0 (s :: rest)) x = mp_root (mk_path 0 (s :: rest)) y.
Proof.
  intros x y s rest H. unfold mp_root. cbn [root_loop mp_position mp_auth_path].
  change (Z.land 0 (2 ^ Z.of_nat 0) =? 0) with true. cbv iota. rewrite H. reflexivity.
Qed.

Lemma small_is_base : forall x, 0 <= x < 2 ^ 20 -> is_base x.
Proof. intros x H. unfold is_base. assert (2 ^ 20 < pmod) by (vm_compute; reflexivity). lia. Qed.

Lemma fives_are_base : Forall is_base (repeat 5 32).
Proof. apply Forall_forall; intros x X; apply repeat_spec in X; subst; apply small_is_base; lia. Qed.

Lemma toy_collision : @combine toy_curve toy_oracles 0 10240 5 = @combine toy_curve toy_oracles 0 8193 5.
Proof. vm_compute. reflexivity. Qed.

Lemma toy_messages : merkle_msg 0 10240 5 <> merkle_msg 0 8193 5.
Proof. vm_compute. discriminate. Qed.

Lemma toy_same_root :
  @mp_root toy_curve toy_oracles (mk_path 0 (repeat 5 32)) 10240 =
  @mp_root toy_curve toy_oracles (mk_path 0 (repeat 5 32)) 8193.
Proof. exact (@root_same_first toy_curve toy_oracles 10240 8193 5 (repeat 5 31) toy_collision). Qed.

Definition same_some (a b : option Z) : bool := match a, b with Some x, Some y => x =? y | _, _ => false end.
Lemma same_some_spec : forall a b, same_some a b = true -> exists x, a = Some x /\ b = Some x.
Proof.
  intros [x|] [y|] H; try discriminate H. apply Z.eqb_eq in H. subst y. exists x. split; reflexivity.
Qed.

Lemma toy_hash_collision : exists x,
  @sins_hash toy_curve toy_oracles "z.cash:Orchard-MerkleCRH" (merkle_msg 0 10240 5) = Some x /\
  @sins_hash toy_curve toy_oracles "z.cash:Orchard-MerkleCRH" (merkle_msg 0 8193 5) = Some x.
Proof. apply same_some_spec. vm_compute. reflexivity. Qed.

(** In the domain "hh" the starting point is the generator of word 236. *)
Lemma toy_hash_undefined : @sins_hash toy_curve toy_oracles "hh" (le_bits 10 236) = None.
Proof. vm_compute. reflexivity. Qed.
