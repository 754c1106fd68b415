(** src/tree.rs. Anchors and MerkleHashOrchard are base field elements. *)
From Coq Require Import String ZArith List Bool.
From Coq Require Import Init.Byte.
From Verif Require Import Prelude Fields Curve Oracles Sinsemilla.
Import ListNotations.
Open Scope Z_scope.

(** tree.rs:87-91 MerklePath. *)
Record merkle_path := mk_path { mp_position : Z; mp_auth_path : list Z }.

Section Tree.
  Context {C : Curve} {OR : @Oracles C}.

  (** tree.rs:28, 211-213 the uncommitted leaf. *)
  Definition empty_leaf : Z := 2.

  (** The bits hashed by combine, tree.rs:232-235, for a level below 2^10 (i2lebsp_k). *)
  Definition merkle_msg (level : nat) (left right : Z) : list bool :=
    le_bits 10 (Z.of_nat level) ++ le_bits 255 left ++ le_bits 255 right.

  (** tree.rs:225-239 combine. Level is a u8, so the assertion of i2lebsp_k holds. *)
  Definition combine (level : nat) (left right : Z) : Z :=
    match sins_hash "z.cash:Orchard-MerkleCRH" (merkle_msg level left right) with
    | Some x => x
    | None => 0
    end.

  (** tree.rs:29-40 EMPTY_ROOTS: the leaf, then the scan over levels 0..32. *)
  Fixpoint empty_roots_scan (n l : nat) (state : Z) : list Z :=
    match n with
    | O => []
    | S n' => let s := combine l state state in s :: empty_roots_scan n' (S l) s
    end.
  Definition empty_roots : list Z := empty_leaf :: empty_roots_scan merkle_depth 0 empty_leaf.

  (** tree.rs:241-243 empty_root: indexing, which panics past the end. *)
  Definition empty_root (level : nat) : outcome Z :=
    unwrap "EMPTY_ROOTS index" (nth_error empty_roots level).

  (** tree.rs:66-68 Anchor::empty_tree. *)
  Definition anchor_empty_tree : outcome Z := empty_root merkle_depth.

  (** tree.rs:146-159 MerklePath::root: fold over the siblings with their level. *)
  Fixpoint root_loop (position : Z) (l : nat) (node : Z) (siblings : list Z) : Z :=
    match siblings with
    | [] => node
    | s :: rest =>
        let node' := if Z.land position (2 ^ Z.of_nat l) =? 0
                     then combine l node s else combine l s node in
        root_loop position (S l) node' rest
    end.
  Definition mp_root (path : merkle_path) (cmx : Z) : Z :=
    root_loop (mp_position path) 0 cmx (mp_auth_path path).

  (** tree.rs:95-113 From<(Position, Vec)> and From<incrementalmerkletree::MerklePath>:
      [position as u32], and a length check that panics. *)
  Definition mp_from_position (position : Z) (elems : list Z) : outcome merkle_path :=
    let! _ := assert_ "auth_path length" (Nat.eqb (length elems) merkle_depth) in
    Ret (mk_path (position mod 2 ^ 32) elems).

  (** tree.rs:117-123 MerklePath::dummy. *)
  Fixpoint random_bases (n : nat) (r : rng) : list Z * rng :=
    match n with
    | O => ([], r)
    | S n' => let (x, r1) := rng_base r in
              let (l, r2) := random_bases n' r1 in (x :: l, r2)
    end.
  Definition mp_dummy (r : rng) : merkle_path * rng :=
    let (pos, r1) := rng_u32 r in
    let (l, r2) := random_bases merkle_depth r1 in
    (mk_path pos l, r2).

  (** tree.rs:75-82, 190-201 codecs. *)
  Definition anchor_from_bytes (b : bytes) : option Z := base_from_repr b.
  Definition anchor_to_bytes (a : Z) : bytes := to_repr a.
  Definition merkle_hash_from_bytes (b : bytes) : option Z := base_from_repr b.
  Definition merkle_hash_to_bytes (a : Z) : bytes := to_repr a.
End Tree.
