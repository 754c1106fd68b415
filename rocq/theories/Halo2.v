(** What the Action circuit uses of halo2_proofs and halo2_gadgets 0.3: cells, regions, gates,
    10-bit lookups, Sinsemilla, ECC and Merkle chips.  None of this is in /repo.  Everything
    here is a definition stating the documented contract of the gadget as a relation between
    the cells it is given and the cells it returns; it is part of the trusted base (DESIGN.md).

    Cells hold base field elements, kept as integers in [0, p).  A malicious prover chooses
    every cell freely, subject to these relations. *)
From Coq Require Import String ZArith List Bool.
From Verif Require Import Prelude Fields Curve Oracles Sinsemilla.
Import ListNotations.
Open Scope Z_scope.

(** ** Cells, regions and gates *)

(** A region: the cells assigned or copied at (advice column, row offset). *)
Definition region : Type := list ((nat * nat) * Z).
Definition at_cell (col row : nat) (v : Z) : (nat * nat) * Z := ((col, row), v).

(** meta.query_advice(advices[col], Rotation(row)) with the selector enabled at offset 0. *)
Fixpoint query (r : region) (col row : nat) : Z :=
  match r with
  | [] => 0
  | ((c, o), v) :: r' => if Nat.eqb c col && Nat.eqb o row then v else query r' col row
  end.

(** A gate polynomial vanishes.  Gates are written with integer operations; being polynomials,
    they vanish in the field exactly when the integer value is a multiple of p. *)
Definition vanishes (poly : Z) : Prop := poly mod pmod = 0.

(** Constraints::with_selector: with the selector on, every polynomial of the gate vanishes. *)
Definition gate_holds (polys : list Z) : Prop := Forall vanishes polys.

(** halo2_gadgets::utilities::bool_check. *)
Definition bool_check (x : Z) : Z := x * (1 - x).

(** halo2_gadgets::utilities::bitrange_subset / RangeConstrained::bitrange_of. *)
Definition bitrange (x : Z) (lo hi : Z) : Z := (x / 2 ^ lo) mod 2 ^ (hi - lo).

(** MessagePiece::from_subpieces: concatenate little-endian subpieces given with their length. *)
Fixpoint subpieces (l : list (Z * Z)) : Z :=
  match l with
  | [] => 0
  | (v, bits) :: l' => v + 2 ^ bits * subpieces l'
  end.

(** ** 10-bit lookups *)

(** The lookup table holds 0..2^10-1. *)
Definition in_table (x : Z) : Prop := 0 <= x < 2 ^ 10.

(** One running-sum step: the word z_i - 2^10 z_{i+1}, an element of the field. *)
Definition sum_word (z z' : Z) : Z := (z - 2 ^ 10 * z') mod pmod.

(** The words of a running sum z_0, ..., z_n. *)
Fixpoint sum_words (zs : list Z) : list Z :=
  match zs with
  | z :: ((z' :: _) as zs') => sum_word z z' :: sum_words zs'
  | _ => []
  end.

(** LookupRangeCheckConfig::witness_check(value, num_words, strict): returns z_0, ..., z_n with
    every word in the table; if strict, z_n = 0. *)
Definition witness_check (n : nat) (strict : bool) (zs : list Z) : Prop :=
  length zs = S n /\ Forall is_base zs /\ Forall in_table (sum_words zs) /\
  (strict = true -> nth n zs 0 = 0).

(** The prover's assignment in witness_check. *)
Fixpoint honest_sum (n : nat) (x : Z) : list Z :=
  match n with
  | O => [x]
  | S n' => x :: honest_sum n' (x / 2 ^ 10)
  end.

(** RangeConstrained::witness_short / witness_short_check(value, num_bits): both the value and
    the value shifted up by K - num_bits are in the table. *)
Definition witness_short (bits : Z) (x : Z) : Prop :=
  is_base x /\ in_table x /\ in_table ((x * 2 ^ (10 - bits)) mod pmod).

(** ** Sinsemilla chip *)

(** A message piece of n words inside hash_to_point: the chip decomposes it with a running sum
    whose last value is 0.  The chip returns z_0, ..., z_{n-1}; z_0 is the piece itself. *)
Definition piece (n : nat) (zs : list Z) : Prop :=
  length zs = n /\ Forall is_base zs /\ Forall in_table (sum_words (zs ++ [0])).
Definition piece_words (zs : list Z) : list Z := sum_words (zs ++ [0]).

(** The prover's running sum for a piece of n words. *)
Fixpoint honest_piece (n : nat) (x : Z) : list Z :=
  match n with
  | O => []
  | S n' => x :: honest_piece n' (x / 2 ^ 10)
  end.

Section Chips.
  Context {C : Curve} {OR : @Oracles C}.

  (** hash_to_point: incomplete additions.  Where the hash is defined the gates force the
      result; where it is undefined (an exceptional addition) the result is unconstrained. *)
  Definition hash_chip (Q : point) (words : list Z) (out : point) : Prop :=
    forall P, sins_hash_words Q words = Some P -> out = P.

  (** ScalarFixed: 85 windows of 3 bits, each constrained to [0,8). *)
  Definition scalar_fixed (k : Z) : Prop := 0 <= k < 2 ^ 255.

  (** CommitDomain::commit: complete addition of [r]R. *)
  Definition commit_chip (domain : string) (words : list Z) (r : Z) (out : point) : Prop :=
    exists P, hash_chip (sins_Q (domain ++ "-M")) words P /\
              out = pt_add P (pt_mul r (commit_R domain)).

  (** ScalarFixedShort: a 64-bit magnitude and a sign of 1 or -1 in the field. *)
  Definition short_magnitude (m : Z) : Prop := 0 <= m < 2 ^ 64.
  Definition short_sign (s : Z) : Prop := s = 1 \/ s = pmod - 1.
  Definition short_value (m s : Z) : Z := if s =? 1 then m else - m.

  (** One layer of the Merkle gadget: the sibling, the position bit (constrained boolean by
      cond_swap), the 255-bit strings hashed for the left and right node, and the output. *)
  Record layer := mk_layer {
    ml_sibling : Z; ml_swap : bool; ml_left : Z; ml_right : Z; ml_out : Z
  }.

  (** MerkleInstructions::hash_layer.  The two nodes are decomposed into 255-bit strings that
      represent them modulo p, NOT necessarily canonically; the level prefix is fixed. *)
  Definition represents (bits255 x : Z) : Prop :=
    0 <= bits255 < 2 ^ 255 /\ vanishes (bits255 - x).
  Definition layer_words (l : Z) (m : layer) : list Z :=
    msg_words (le_bits 10 l ++ le_bits 255 (ml_left m) ++ le_bits 255 (ml_right m)).
  Definition hash_layer (domain : string) (l left right : Z) (m : layer) : Prop :=
    represents (ml_left m) left /\ represents (ml_right m) right /\
    exists P, hash_chip (sins_Q domain) (layer_words l m) P /\ ml_out m = pt_x P.

  (** MerklePath::calculate_root: cond_swap by the position bit, then hash_layer, from the leaf. *)
  Fixpoint merkle_chip (domain : string) (l : Z) (node : Z) (layers : list layer) (root : Z) : Prop :=
    match layers with
    | [] => root = node
    | m :: layers' =>
        is_base (ml_sibling m) /\
        hash_layer domain l (if ml_swap m then ml_sibling m else node)
                            (if ml_swap m then node else ml_sibling m) m /\
        merkle_chip domain (l + 1) (ml_out m) layers' root
    end.
End Chips.
