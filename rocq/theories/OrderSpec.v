(** What a comparison must satisfy for sorting and ordered maps to work (C75). *)
From Coq Require Import Bool.

Record total_order {A} (ok : A -> Prop) (eqb : A -> A -> bool) (cmp : A -> A -> comparison) : Prop := {
  to_eqb : forall a b, ok a -> ok b -> (eqb a b = true <-> a = b);
  to_eq : forall a b, ok a -> ok b -> (cmp a b = Eq <-> a = b);
  to_sym : forall a b, cmp b a = CompOpp (cmp a b);
  to_trans : forall a b c, cmp a b = Lt -> cmp b c = Lt -> cmp a c = Lt
}.
