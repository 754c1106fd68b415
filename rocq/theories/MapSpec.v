(** A small specification of a callback that is run on a list of items in order, sharing one mutable
    context. *)
From Coq Require Import List.
Import ListNotations.

(** [runs f r l l' r']: calling [f] once on each item of [l], from left to right, with the context starting at
    [r], gives the items [l'] and leaves the context at [r']. [f r a b r1] reads: called on [a] with the
    context [r], the callback returns [b] and leaves [r1]. *)
Inductive runs {R A B : Type} (f : R -> A -> B -> R -> Prop) : R -> list A -> list B -> R -> Prop :=
| runs_nil : forall r, runs f r [] [] r
| runs_cons : forall r a b r1 l l' r', f r a b r1 -> runs f r1 l l' r' -> runs f r (a :: l) (b :: l') r'.
