(** Properties C41, C42 (src/tree.rs). [node], [tree_root], [auth_path], [root_inputs] are in
    TreeSpec.v. *)
From Coq Require Import String ZArith List Bool Lia.
From Coq Require Import Init.Byte.
From Verif Require Import Prelude Fields Curve Oracles Sinsemilla Tree CurveFacts TreeSpec TreeFacts Toy ToyFacts ToyTree.
Import ListNotations.
Open Scope Z_scope.

(** C41: for every assignment of leaves, the authentication path of any position together with
    the leaf there gives the root. *)
Theorem C41_path_gives_root :
  forall (C : Curve) (OR : @Oracles C) (leaves : Z -> Z) (pos : Z), 0 <= pos < 2 ^ 32 ->
  mp_from_position pos (auth_path leaves pos 32) = Ret (mk_path pos (auth_path leaves pos 32)) /\
  mp_root (mk_path pos (auth_path leaves pos 32)) (leaves pos) = tree_root leaves 32.
Proof. exact @path_gives_root_full. Qed.
Print Assumptions C41_path_gives_root.

(** C41: the table of empty roots, and its use for the part of a tree not filled yet. *)
Theorem C41_empty_roots :
  forall (C : Curve) (OR : @Oracles C),
  anchor_empty_tree = Ret (tree_root (fun _ => empty_leaf) 32) /\
  (forall h, (h <= 32)%nat -> empty_root h = Ret (tree_root (fun _ => empty_leaf) h)) /\
  (forall h, (32 < h)%nat -> exists w, empty_root h = Panic w) /\
  (forall leaves n h i, 0 <= i -> (forall p, n <= p -> leaves p = empty_leaf) ->
     n <= i * 2 ^ Z.of_nat h -> node leaves h i = tree_root (fun _ => empty_leaf) h).
Proof. exact @empty_roots_full. Qed.
Print Assumptions C41_empty_roots.

Example C41_example :
  let leaves := fun p => if p <? 5 then 100 + p else empty_leaf in
  0 <= 3 < 2 ^ 32 /\ (forall p, 5 <= p -> leaves p = empty_leaf) /\ leaves 3 <> leaves 2.
Proof.
  cbv zeta. split; [lia|]. split; [|intro H; discriminate H].
  intros p H. rewrite (proj2 (Z.ltb_ge p 5)) by lia. reflexivity.
Qed.

(** C42: same position and same root give the same leaf and the same path, unless two distinct
    messages hashed at the same level in the two evaluations have the same hash. *)
Theorem C42_root_binds_leaf :
  forall (C : Curve) (OR : @Oracles C) (L : CurveLaws C) (pos x1 x2 : Z) (s1 s2 : list Z),
  length s1 = 32%nat -> length s2 = 32%nat ->
  is_base x1 -> is_base x2 -> Forall is_base s1 -> Forall is_base s2 ->
  mp_root (mk_path pos s1) x1 = mp_root (mk_path pos s2) x2 ->
  (x1 = x2 /\ s1 = s2) \/
  exists l a b c d,
    In (l, a, b) (root_inputs pos 0 x1 s1) /\ In (l, c, d) (root_inputs pos 0 x2 s2) /\
    combine l a b = combine l c d /\ merkle_msg l a b <> merkle_msg l c d.
Proof. exact @merkle_binding. Qed.
Print Assumptions C42_root_binds_leaf.

(** Two different leaves with the same path and the same root (the toy hash has collisions): all
    premises hold, and the exception is the case that is met. *)
Example C42_example :
  length (repeat 5 32) = 32%nat /\ is_base 10240 /\ is_base 8193 /\ Forall is_base (repeat 5 32) /\
  @mp_root toy_curve toy_oracles (mk_path 0 (repeat 5 32)) 10240 =
  @mp_root toy_curve toy_oracles (mk_path 0 (repeat 5 32)) 8193 /\
  @combine toy_curve toy_oracles 0 10240 5 = @combine toy_curve toy_oracles 0 8193 5 /\
  merkle_msg 0 10240 5 <> merkle_msg 0 8193 5.
Proof.
  split; [reflexivity|]. split; [apply small_is_base; lia|]. split; [apply small_is_base; lia|].
  split; [exact fives_are_base|]. split; [exact toy_same_root|]. split; [exact toy_collision|exact toy_messages].
Qed.
