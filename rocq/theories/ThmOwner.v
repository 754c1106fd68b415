(** Property C87: an address belongs to one wallet. *)
From Coq Require Import String ZArith List Bool.
From Coq Require Import Init.Byte.
From Verif Require Import Prelude Fields Curve Oracles Sinsemilla Spec RedPallas Keys KeysSpec WalletSpec OwnerFacts Toy ToyFacts ToyKeys ToyOwner.
Import ListNotations.
Open Scope Z_scope.

(** C87. Two full viewing keys that derive the same address, in whatever scopes, agree on everything that
    determines the address: the spend validating key, the nullifier key and the randomness of the scope.
    Otherwise their keys are two openings of one incoming viewing key, which is a discrete-log relation
    between the generators computed from them. *)
Theorem C87_one_owner :
  forall (C : Curve) (OR : @Oracles C) (L : CurveLaws C) (f : fvk) (s : scope) (f' : fvk) (s' : scope) (a : address),
  gd_fallback_ok -> fvk_ok f -> fvk_ok f' -> derives f s a -> derives f' s' a ->
  exists r r', fvk_rivk_scope f s = Ret r /\ fvk_rivk_scope f' s' = Ret r' /\
    ((fvk_ak f = fvk_ak f' /\ fvk_nk f = fvk_nk f' /\ r = r') \/
     ivk_relation (pt_x (fvk_ak f)) (fvk_nk f) r (pt_x (fvk_ak f')) (fvk_nk f') r').
Proof. exact @one_owner. Qed.
Print Assumptions C87_one_owner.

(** C87. An external address is an external address of one full viewing key only. *)
Theorem C87_external_address_has_one_key :
  forall (C : Curve) (OR : @Oracles C) (L : CurveLaws C) (f f' : fvk) (a : address),
  gd_fallback_ok -> fvk_ok f -> fvk_ok f' -> derives f External a -> derives f' External a ->
  f = f' \/ ivk_relation (pt_x (fvk_ak f)) (fvk_nk f) (fvk_rivk f) (pt_x (fvk_ak f')) (fvk_nk f') (fvk_rivk f').
Proof. exact @one_external_owner. Qed.
Print Assumptions C87_external_address_has_one_key.

(** C87. The external and the change addresses of a wallet do not overlap, unless its derived internal randomness
    happens to be its external one, or the two are openings of one incoming viewing key. *)
Theorem C87_scopes_do_not_overlap :
  forall (C : Curve) (OR : @Oracles C) (L : CurveLaws C) (f : fvk) (a : address),
  gd_fallback_ok -> fvk_ok f -> derives f External a -> derives f Internal a ->
  exists r, fvk_rivk_scope f Internal = Ret r /\
    (r = fvk_rivk f \/ ivk_relation (pt_x (fvk_ak f)) (fvk_nk f) (fvk_rivk f) (pt_x (fvk_ak f)) (fvk_nk f) r).
Proof. exact @scopes_separate. Qed.
Print Assumptions C87_scopes_do_not_overlap.

(** C87. Two spending keys with a common address have the same spend authorizing key. *)
Theorem C87_one_spender :
  forall (C : Curve) (OR : @Oracles C) (L : CurveLaws C) (sk sk' : bytes) (f f' : fvk) (s s' : scope) (a : address),
  gd_fallback_ok -> basepoint SpendAuth <> pt_id ->
  fvk_from_sk sk = Ret f -> fvk_from_sk sk' = Ret f' -> fvk_ok f -> fvk_ok f' -> derives f s a -> derives f' s' a ->
  ask_from_sk sk = ask_from_sk sk' \/
  exists r r', fvk_rivk_scope f s = Ret r /\ fvk_rivk_scope f' s' = Ret r' /\
    ivk_relation (pt_x (fvk_ak f)) (fvk_nk f) r (pt_x (fvk_ak f')) (fvk_nk f') r'.
Proof. exact @one_spender. Qed.
Print Assumptions C87_one_spender.

(** The change addresses of a wallet are external addresses of its internal viewing key. *)
Example C87_ex : exists f fi a, fvk_ok f /\ fvk_ok fi /\ f <> fi /\ derives f Internal a /\ derives fi External a.
Proof. exact toy_shared. Qed.
