(** The CommitIvk gadget of the Action circuit: src/circuit/commit_ivk.rs.  The gadget is the
    relation [ivk_sat]: a prover picks all cells of [ivk_cells]; the gadget's gates, range
    checks and copy constraints must hold.  [ivk_honest] is the assignment the code computes. *)
From Coq Require Import String ZArith List Bool.
From Verif Require Import Prelude Fields Curve Oracles Sinsemilla Halo2.
Import ListNotations.
Open Scope Z_scope.

(** The cells of the gadget: commit_ivk.rs:622-641 GateCells and the running sums of 237-482.
    [zs_a], .. are the running sums returned by the Sinsemilla chip for pieces a, b, c, d
    (their heads are the pieces); [zs_ap], [zs_np] those of ak_canonicity and nk_canonicity. *)
Record ivk_cells : Type := mk_ivk_cells {
  iv_zs_a : list Z; iv_zs_b : list Z; iv_zs_c : list Z; iv_zs_d : list Z;
  iv_b_0 : Z; iv_b_1 : Z; iv_b_2 : Z; iv_d_0 : Z; iv_d_1 : Z;
  iv_zs_ap : list Z; iv_zs_np : list Z
}.

(** commit_ivk.rs:66-219, the gate "CommitIvk canonicity check". *)
Definition ivk_gate (r : region) : list Z :=
  let ak := query r 0 0 in
  let nk := query r 0 1 in
  let a := query r 1 0 in
  let b_whole := query r 2 0 in
  let c := query r 1 1 in
  let d_whole := query r 2 1 in
  let b_0 := query r 3 0 in
  let b_1 := query r 4 0 in
  let b_2 := query r 5 0 in
  let b_decomposition_check := b_whole - (b_0 + b_1 * 2 ^ 4 + b_2 * 2 ^ 5) in
  let d_0 := query r 3 1 in
  let d_1 := query r 4 1 in
  let d_decomposition_check := d_whole - (d_0 + d_1 * 2 ^ 9) in
  let ak_decomposition_check := a + b_0 * 2 ^ 250 + b_1 * 2 ^ 254 - ak in
  let nk_decomposition_check := b_2 + c * 2 ^ 5 + d_0 * 2 ^ 245 + d_1 * 2 ^ 254 - nk in
  let z13_a := query r 6 0 in
  let a_prime := query r 7 0 in
  let z13_a_prime := query r 8 0 in
  let z13_c := query r 6 1 in
  let b2_c_prime := query r 7 1 in
  let z14_b2_c_prime := query r 8 1 in
  [ bool_check b_1;
    bool_check d_1;
    b_decomposition_check;
    d_decomposition_check;
    ak_decomposition_check;
    nk_decomposition_check;
    (* ak_canonicity_checks *)
    b_1 * b_0;
    b_1 * z13_a;
    a + 2 ^ 130 - t_p - a_prime;
    b_1 * z13_a_prime;
    (* nk_canonicity_checks *)
    d_1 * d_0;
    d_1 * z13_c;
    b_2 + c * 2 ^ 5 + 2 ^ 140 - t_p - b2_c_prime;
    d_1 * z14_b2_c_prime ].

(** commit_ivk.rs:484-620 assign_gate: where each cell is copied or witnessed. *)
Definition ivk_region (ak nk : Z) (k : ivk_cells) : region :=
  [ at_cell 0 0 ak;
    at_cell 1 0 (nth 0 (iv_zs_a k) 0);
    at_cell 2 0 (nth 0 (iv_zs_b k) 0);
    at_cell 3 0 (iv_b_0 k);
    at_cell 4 0 (iv_b_1 k);
    at_cell 5 0 (iv_b_2 k);
    at_cell 6 0 (nth 13 (iv_zs_a k) 0);
    at_cell 7 0 (nth 0 (iv_zs_ap k) 0);
    at_cell 8 0 (nth 13 (iv_zs_ap k) 0);
    at_cell 0 1 nk;
    at_cell 1 1 (nth 0 (iv_zs_c k) 0);
    at_cell 2 1 (nth 0 (iv_zs_d k) 0);
    at_cell 3 1 (iv_d_0 k);
    at_cell 4 1 (iv_d_1 k);
    at_cell 6 1 (nth 13 (iv_zs_c k) 0);
    at_cell 7 1 (nth 0 (iv_zs_np k) 0);
    at_cell 8 1 (nth 14 (iv_zs_np k) 0) ].

(** commit_ivk.rs:241-482: all constraints of the gadget on its cells. *)
Definition ivk_sat (ak nk : Z) (k : ivk_cells) : Prop :=
  piece 25 (iv_zs_a k) /\ piece 1 (iv_zs_b k) /\ piece 24 (iv_zs_c k) /\ piece 1 (iv_zs_d k) /\
  witness_short 4 (iv_b_0 k) /\ is_base (iv_b_1 k) /\ witness_short 5 (iv_b_2 k) /\
  witness_short 9 (iv_d_0 k) /\ is_base (iv_d_1 k) /\
  witness_check 13 false (iv_zs_ap k) /\ witness_check 14 false (iv_zs_np k) /\
  gate_holds (ivk_gate (ivk_region ak nk k)).

(** commit_ivk.rs:332-344: the message [a, b, c, d] hashed by the Sinsemilla chip. *)
Definition ivk_words (k : ivk_cells) : list Z :=
  piece_words (iv_zs_a k) ++ piece_words (iv_zs_b k) ++ piece_words (iv_zs_c k) ++
  piece_words (iv_zs_d k).

(** The prover's assignment: commit_ivk.rs:270-322 (pieces) and 407-424, 456-470 (a', b2c'). *)
Definition ivk_honest (ak nk : Z) : ivk_cells :=
  let a := subpieces [(bitrange ak 0 250, 250)] in
  let b_0 := bitrange ak 250 254 in
  let b_1 := bitrange ak 254 255 in
  let b_2 := bitrange nk 0 5 in
  let b := subpieces [(b_0, 4); (b_1, 1); (b_2, 5)] in
  let c := subpieces [(bitrange nk 5 245, 240)] in
  let d_0 := bitrange nk 245 254 in
  let d_1 := bitrange nk 254 255 in
  let d := subpieces [(d_0, 9); (d_1, 1)] in
  let a_prime := (a + 2 ^ 130 - t_p) mod pmod in
  let b2_c_prime := (b_2 + c * 2 ^ 5 + 2 ^ 140 - t_p) mod pmod in
  mk_ivk_cells (honest_piece 25 a) (honest_piece 1 b) (honest_piece 24 c) (honest_piece 1 d)
    b_0 b_1 b_2 d_0 d_1 (honest_sum 13 a_prime) (honest_sum 14 b2_c_prime).

Section Ivk.
  Context {C : Curve} {OR : @Oracles C}.

  (** commit_ivk.rs:241-391 commit_ivk as a relation: the X cell returned by short_commit. *)
  Definition commit_ivk_chip (ak nk rivk : Z) (k : ivk_cells) (ivk : Z) : Prop :=
    ivk_sat ak nk k /\
    exists P, commit_chip "z.cash:Orchard-CommitIvk" (ivk_words k) rivk P /\ ivk = pt_x P.
End Ivk.
