(** A complete binary tree over an assignment of leaves to positions, and what "the tree has
    this root" and "this is the authentication path" mean, independently of src/tree.rs. *)
From Coq Require Import String ZArith List Bool.
From Verif Require Import Prelude Fields Curve Oracles Sinsemilla Tree.
Import ListNotations.
Open Scope Z_scope.

Section TreeSpec.
  Context {C : Curve} {OR : @Oracles C}.

  (** The node of height [h] covering the leaves [i * 2^h .. (i+1) * 2^h - 1]. *)
  Fixpoint node (leaves : Z -> Z) (h : nat) (i : Z) : Z :=
    match h with
    | O => leaves i
    | S h' => combine h' (node leaves h' (2 * i)) (node leaves h' (2 * i + 1))
    end.
  Definition tree_root (leaves : Z -> Z) (h : nat) : Z := node leaves h 0.

  (** The neighbour of index [i]: the other child of its parent. *)
  Definition neighbour (i : Z) : Z := if Z.even i then i + 1 else i - 1.
  (** The authentication path of a position: the neighbours of its ancestors, from the leaf up. *)
  Definition auth_path (leaves : Z -> Z) (position : Z) (h : nat) : list Z :=
    map (fun l => node leaves l (neighbour (position / 2 ^ Z.of_nat l))) (seq 0 h).

  (** The (level, left, right) triples hashed while computing a root from a path. *)
  Fixpoint root_inputs (position : Z) (l : nat) (x : Z) (siblings : list Z) : list (nat * Z * Z) :=
    match siblings with
    | [] => []
    | s :: rest =>
        let lr := if Z.even (position / 2 ^ Z.of_nat l) then (x, s) else (s, x) in
        (l, fst lr, snd lr) :: root_inputs position (S l) (combine l (fst lr) (snd lr)) rest
    end.
End TreeSpec.
