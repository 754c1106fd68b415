(** Property C95: a waiting transaction stays valid, and independent transactions may be taken in any order. *)
From Coq Require Import String ZArith List Bool Permutation.
From Coq Require Import Init.Byte.
From Verif Require Import Prelude Fields Curve Oracles Keys Note Action Bundle LedgerSpec BalanceSpec MempoolSpec MempoolFacts
  Toy ToyPipeline ToyMempool.
Import ListNotations.
Open Scope Z_scope.

(** C95. A transaction that is accepted in some state is still accepted after any further transactions exactly
    when none of them revealed one of its nullifiers and the tree has room for it. The root it was made for may
    by then be an old one. *)
Theorem C95_stays_valid_exactly :
  forall (C : Curve) (OR : @Oracles C) (V : Type) (halo2_verify : bytes -> list (list Z) -> bool) (into : V -> Z)
    (lg : ledger) (t : @tx C V) (ts : list (@tx C V)) (lg' : ledger),
  accepts halo2_verify into lg t -> applied halo2_verify into lg ts lg' ->
  (accepts halo2_verify into lg' t <->
   disjoint (tx_nfs t) (flat_map tx_nfs ts) /\ Z.of_nat (length (lg_cmxs lg') + tx_size t) <= 2 ^ 32).
Proof. exact @stays_valid. Qed.
Print Assumptions C95_stays_valid_exactly.

(** C95. Transactions each accepted in the current state can all be taken one after another exactly when no
    nullifier occurs twice and the tree has room for them. *)
Theorem C95_taken_together_exactly :
  forall (C : Curve) (OR : @Oracles C) (V : Type) (halo2_verify : bytes -> list (list Z) -> bool) (into : V -> Z)
    (h : list (@tx C V)) (lg : ledger) (ts : list (@tx C V)),
  reached halo2_verify into h lg -> Forall (accepts halo2_verify into lg) ts ->
  ((exists lg', applied halo2_verify into lg ts lg') <->
   NoDup (lg_nfs lg ++ flat_map tx_nfs ts) /\ (ts = [] \/ Z.of_nat (length (lg_cmxs lg) + list_sum (map tx_size ts)) <= 2 ^ 32)).
Proof. exact @together. Qed.
Print Assumptions C95_taken_together_exactly.

(** C95. The order does not matter: if they can be taken in one order they can be taken in any other, and then
    the pool, the nullifiers, the commitments as a collection and the balance of every wallet are the same. *)
Theorem C95_any_order :
  forall (C : Curve) (OR : @Oracles C) (V : Type) (halo2_verify : bytes -> list (list Z) -> bool) (into : V -> Z)
    (h : list (@tx C V)) (lg : ledger) (ts ts' : list (@tx C V)) (lg1 : ledger),
  reached halo2_verify into h lg -> Forall (accepts halo2_verify into lg) ts ->
  applied halo2_verify into lg ts lg1 -> Permutation ts ts' ->
  exists lg2, applied halo2_verify into lg ts' lg2 /\ reached halo2_verify into (h ++ ts') lg2 /\
    lg_pool lg2 = lg_pool lg1 /\ Permutation (lg_nfs lg1) (lg_nfs lg2) /\ Permutation (lg_cmxs lg1) (lg_cmxs lg2) /\
    forall f, balance f (h ++ ts') = balance f (h ++ ts).
Proof. exact @any_order. Qed.
Print Assumptions C95_any_order.

(** C95. Of two transactions that reveal a common nullifier, no chain holds both, wherever they stand. *)
Theorem C95_conflicting_transactions :
  forall (C : Curve) (OR : @Oracles C) (V : Type) (halo2_verify : bytes -> list (list Z) -> bool) (into : V -> Z)
    (h1 : list (@tx C V)) (t : @tx C V) (h2 : list (@tx C V)) (t' : @tx C V) (h3 : list (@tx C V)) (lg : ledger),
  reached halo2_verify into (h1 ++ t :: h2 ++ t' :: h3) lg -> disjoint (tx_nfs t) (tx_nfs t').
Proof. exact @conflict. Qed.
Print Assumptions C95_conflicting_transactions.

(** Two transactions of two actions each wait for the empty chain and are taken one after the other. *)
Example C95_ex : exists (t t' : @tx toy_curve Z) lg,
  accepts toy_verifier (fun i => i) genesis t /\ accepts toy_verifier (fun i => i) genesis t' /\
  applied toy_verifier (fun i => i) genesis [t; t'] lg /\ length (tx_nfs t) = 2%nat /\ length (tx_nfs t') = 2%nat.
Proof. exact toy_mempool. Qed.
