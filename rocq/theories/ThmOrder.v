(** Property C75: comparing keys, nullifiers, tree nodes, addresses. *)
From Coq Require Import String ZArith List Bool.
From Coq Require Import Init.Byte.
From Verif Require Import Prelude Fields Curve Oracles RedPallas Keys KeysSpec Zip32 Order OrderSpec OrderFacts Toy ToyFacts ToyKeys.
Import ListNotations.
Open Scope Z_scope.

Theorem C75_viewing_keys_are_totally_ordered :
  forall (C : Curve) (OR : @Oracles C) (L : CurveLaws C), total_order fvk_ok fvk_eqb fvk_cmp.
Proof. exact @fvk_order. Qed.
Print Assumptions C75_viewing_keys_are_totally_ordered.

Theorem C75_incoming_viewing_keys_are_totally_ordered : total_order ivk_ok ivk_eqb ivk_cmp.
Proof. exact ivk_order. Qed.
Print Assumptions C75_incoming_viewing_keys_are_totally_ordered.

(** Nullifiers, rho, tree nodes and nk are ordered as integers; rivk likewise. *)
Theorem C75_field_elements_are_ordered_as_integers :
  total_order is_base field_eqb field_cmp /\ total_order is_scalar field_eqb field_cmp /\
  (forall a b, is_base a -> is_base b -> field_cmp a b = Z.compare a b).
Proof. exact field_order. Qed.
Print Assumptions C75_field_elements_are_ordered_as_integers.

Theorem C75_addresses_and_extended_keys_are_compared_in_full :
  forall (C : Curve) (L : CurveLaws C),
  (forall a b : address, address_eqb a b = true <-> a = b) /\ (forall a b : xsk, xsk_eqb a b = true <-> a = b).
Proof. exact (fun C L => conj (address_equality L) xsk_equality). Qed.
Print Assumptions C75_addresses_and_extended_keys_are_compared_in_full.

Example C75_ex : fvk_ok toy_fvk /\ ivk_ok (mk_ivk (repeat x00 32) 5) /\ ivk_cmp (mk_ivk (repeat x00 32) 256) (mk_ivk (repeat x00 32) 5) = Gt.
Proof. split; [exact toy_fvk_ok|]. split; [split; [reflexivity|split; reflexivity]|reflexivity]. Qed.
