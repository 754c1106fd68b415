(** Discrete-log relations between the Sinsemilla generators, as explicit linear combinations.
    The group has prime order, so SOME relation always exists; what matters is that the
    relations named here are computed from the two colliding inputs. *)
From Coq Require Import String ZArith List Bool.
From Verif Require Import Prelude Fields Curve Oracles Sinsemilla.
Import ListNotations.
Open Scope Z_scope.

(** A Sinsemilla word: 10 bits. *)
Definition is_word (w : Z) : Prop := 0 <= w < 1024.

(** How often generator [j] is used in the hash of [ws], with the doublings that follow. *)
Fixpoint weight (ws : list Z) (j : Z) : Z :=
  match ws with
  | [] => 0
  | w :: ws' => (if w =? j then 2 ^ Z.of_nat (length ws') else 0) + weight ws' j
  end.

Section SinsSpec.
  Context {C : Curve} {OR : @Oracles C}.

  (** The sum over all 1024 generators S_j of [c j] S_j. *)
  Definition gens_sum (c : Z -> Z) : point :=
    pt_sum (map (fun j => pt_mul (c j) (sins_S j)) (map Z.of_nat (seq 0 1024))).

  (** [cq] Q + sum_j [cs j] S_j. *)
  Definition lin (Q : point) (cq : Z) (cs : Z -> Z) : point := pt_add (pt_mul cq Q) (gens_sum cs).

  (** Two word lists of one length whose hashes meet in the same x-coordinate: a relation whose
      coefficients are the differences (or sums) of the weights, not all zero modulo the order. *)
  Definition sins_relation (Q : point) (ws ws' : list Z) : Prop :=
    (lin Q 0 (fun j => weight ws j - weight ws' j) = pt_id /\
       exists j, is_word j /\ (weight ws j - weight ws' j) mod qmod <> 0) \/
    lin Q (2 * 2 ^ Z.of_nat (length ws)) (fun j => weight ws j + weight ws' j) = pt_id.

  (** The same with a blinding term. *)
  Definition sins_relation_R (Q R : point) (ws ws' : list Z) (r r' : Z) : Prop :=
    (pt_add (lin Q 0 (fun j => weight ws j - weight ws' j)) (pt_mul (r - r') R) = pt_id /\
       ((exists j, is_word j /\ (weight ws j - weight ws' j) mod qmod <> 0) \/ (r - r') mod qmod <> 0)) \/
    pt_add (lin Q (2 * 2 ^ Z.of_nat (length ws)) (fun j => weight ws j + weight ws' j))
           (pt_mul (r + r') R) = pt_id.

  (** The hash of [ws] is undefined: some prefix already gives a relation. *)
  Definition sins_exception (Q : point) (ws : list Z) : Prop :=
    exists pre w post, ws = pre ++ w :: post /\
      let acc := lin Q (2 ^ Z.of_nat (length pre)) (weight pre) in
      acc = pt_id \/ sins_S w = pt_id \/ acc = sins_S w \/ pt_add acc (sins_S w) = pt_id \/
      pt_add (pt_add acc (sins_S w)) acc = pt_id.
End SinsSpec.
