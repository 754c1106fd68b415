(** The NoteCommit gadget of the Action circuit: src/circuit/note_commit.rs.  As in
    CircuitIvk.v: gates over regions, the assignment of cells to regions, the relation
    [nc_sat] over all prover-chosen cells and the prover's own assignment [nc_honest]. *)
From Coq Require Import String ZArith List Bool.
From Verif Require Import Prelude Fields Curve Oracles Sinsemilla Halo2 CircuitIvk.
Import ListNotations.
Open Scope Z_scope.

(** note_commit.rs:1468-1471: the columns of the NoteCommit gates. *)
Definition col_l : nat := 6.
Definition col_m : nat := 7.
Definition col_r : nat := 8.
Definition col_z : nat := 9.

(** note_commit.rs:85-111 gate "NoteCommit MessagePiece b"; 181-193 assign. *)
Definition gate_b (r : region) : list Z :=
  let b := query r col_l 0 in
  let b_0 := query r col_m 0 in
  let b_1 := query r col_r 0 in
  let b_2 := query r col_m 1 in
  let b_3 := query r col_r 1 in
  [ bool_check b_1; bool_check b_2; b - (b_0 + b_1 * 2 ^ 4 + b_2 * 2 ^ 5 + b_3 * 2 ^ 6) ].
Definition region_b (b b_0 b_1 b_2 b_3 : Z) : region :=
  [ at_cell col_l 0 b; at_cell col_m 0 b_0; at_cell col_r 0 b_1; at_cell col_m 1 b_2; at_cell col_r 1 b_3 ].

(** note_commit.rs:230-256 gate "NoteCommit MessagePiece d"; 320-331 assign. *)
Definition gate_d (r : region) : list Z :=
  let d := query r col_l 0 in
  let d_0 := query r col_m 0 in
  let d_1 := query r col_r 0 in
  let d_2 := query r col_m 1 in
  let d_3 := query r col_r 1 in
  [ bool_check d_0; bool_check d_1; d - (d_0 + d_1 * 2 + d_2 * 2 ^ 2 + d_3 * 2 ^ 10) ].
Definition region_d (d d_0 d_1 d_2 z1_d : Z) : region :=
  [ at_cell col_l 0 d; at_cell col_m 0 d_0; at_cell col_r 0 d_1; at_cell col_m 1 d_2; at_cell col_r 1 z1_d ].

(** note_commit.rs:364-378 gate "NoteCommit MessagePiece e"; 440-448 assign. *)
Definition gate_e (r : region) : list Z :=
  let e := query r col_l 0 in
  let e_0 := query r col_m 0 in
  let e_1 := query r col_r 0 in
  [ e - (e_0 + e_1 * 2 ^ 6) ].
Definition region_e (e e_0 e_1 : Z) : region :=
  [ at_cell col_l 0 e; at_cell col_m 0 e_0; at_cell col_r 0 e_1 ].

(** note_commit.rs:482-504 gate "NoteCommit MessagePiece g"; 562-571 assign. *)
Definition gate_g (r : region) : list Z :=
  let g := query r col_l 0 in
  let g_0 := query r col_m 0 in
  let g_1 := query r col_l 1 in
  let g_2 := query r col_m 1 in
  [ bool_check g_0; g - (g_0 + g_1 * 2 + g_2 * 2 ^ 10) ].
Definition region_g (g g_0 g_1 z1_g : Z) : region :=
  [ at_cell col_l 0 g; at_cell col_m 0 g_0; at_cell col_l 1 g_1; at_cell col_m 1 z1_g ].

(** note_commit.rs:605-625 gate "NoteCommit MessagePiece h"; 683-690 assign. *)
Definition gate_h (r : region) : list Z :=
  let h := query r col_l 0 in
  let h_0 := query r col_m 0 in
  let h_1 := query r col_r 0 in
  [ bool_check h_1; h - (h_0 + h_1 * 2 ^ 5) ].
Definition region_h (h h_0 h_1 : Z) : region :=
  [ at_cell col_l 0 h; at_cell col_m 0 h_0; at_cell col_r 0 h_1 ].

(** note_commit.rs:728-769 gate "NoteCommit input g_d"; 795-809 assign. *)
Definition gate_g_d (r : region) : list Z :=
  let gd_x := query r col_l 0 in
  let b_0 := query r col_m 0 in
  let b_1 := query r col_m 1 in
  let a := query r col_r 0 in
  let a_prime := query r col_r 1 in
  let z13_a := query r col_z 0 in
  let z13_a_prime := query r col_z 1 in
  [ (a + b_0 * 2 ^ 250 + b_1 * 2 ^ 254) - gd_x;
    a + 2 ^ 130 - t_p - a_prime;
    b_1 * b_0; b_1 * z13_a; b_1 * z13_a_prime ].
Definition region_g_d (gd_x a b_0 b_1 a_prime z13_a z13_a_prime : Z) : region :=
  [ at_cell col_l 0 gd_x; at_cell col_m 0 b_0; at_cell col_m 1 b_1; at_cell col_r 0 a;
    at_cell col_r 1 a_prime; at_cell col_z 0 z13_a; at_cell col_z 1 z13_a_prime ].

(** note_commit.rs:845-885 gate "NoteCommit input pk_d"; 910-926 assign. *)
Definition gate_pk_d (r : region) : list Z :=
  let pkd_x := query r col_l 0 in
  let b_3 := query r col_m 0 in
  let d_0 := query r col_m 1 in
  let c := query r col_r 0 in
  let b3_c_prime := query r col_r 1 in
  let z13_c := query r col_z 0 in
  let z14_b3_c_prime := query r col_z 1 in
  [ (b_3 + c * 2 ^ 4 + d_0 * 2 ^ 254) - pkd_x;
    b_3 + c * 2 ^ 4 + 2 ^ 140 - t_p - b3_c_prime;
    d_0 * z13_c; d_0 * z14_b3_c_prime ].
Definition region_pk_d (pkd_x b_3 c d_0 b3_c_prime z13_c z14_b3_c_prime : Z) : region :=
  [ at_cell col_l 0 pkd_x; at_cell col_m 0 b_3; at_cell col_m 1 d_0; at_cell col_r 0 c;
    at_cell col_r 1 b3_c_prime; at_cell col_z 0 z13_c; at_cell col_z 1 z14_b3_c_prime ].

(** note_commit.rs:958-974 gate "NoteCommit input value"; 996-1003 assign. *)
Definition gate_value (r : region) : list Z :=
  let value := query r col_l 0 in
  let d_2 := query r col_m 0 in
  let d_3 := query r col_r 0 in
  let e_0 := query r col_z 0 in
  [ d_2 + d_3 * 2 ^ 8 + e_0 * 2 ^ 58 - value ].
Definition region_value (value d_2 z1_d e_0 : Z) : region :=
  [ at_cell col_l 0 value; at_cell col_m 0 d_2; at_cell col_r 0 z1_d; at_cell col_z 0 e_0 ].

(** note_commit.rs:1039-1078 gate "NoteCommit input rho"; 1104-1118 assign. *)
Definition gate_rho (r : region) : list Z :=
  let rho := query r col_l 0 in
  let e_1 := query r col_m 0 in
  let g_0 := query r col_m 1 in
  let f := query r col_r 0 in
  let e1_f_prime := query r col_r 1 in
  let z13_f := query r col_z 0 in
  let z14_e1_f_prime := query r col_z 1 in
  [ (e_1 + f * 2 ^ 4 + g_0 * 2 ^ 254) - rho;
    e_1 + f * 2 ^ 4 + 2 ^ 140 - t_p - e1_f_prime;
    g_0 * z13_f; g_0 * z14_e1_f_prime ].
Definition region_rho (rho e_1 f g_0 e1_f_prime z13_f z14_e1_f_prime : Z) : region :=
  [ at_cell col_l 0 rho; at_cell col_m 0 e_1; at_cell col_m 1 g_0; at_cell col_r 0 f;
    at_cell col_r 1 e1_f_prime; at_cell col_z 0 z13_f; at_cell col_z 1 z14_e1_f_prime ].

(** note_commit.rs:1155-1198 gate "NoteCommit input psi"; 1225-1239 assign. *)
Definition gate_psi (r : region) : list Z :=
  let psi := query r col_l 0 in
  let h_0 := query r col_l 1 in
  let g_1 := query r col_m 0 in
  let h_1 := query r col_m 1 in
  let g_2 := query r col_r 0 in
  let g1_g2_prime := query r col_r 1 in
  let z13_g := query r col_z 0 in
  let z13_g1_g2_prime := query r col_z 1 in
  [ (g_1 + g_2 * 2 ^ 9 + h_0 * 2 ^ 249 + h_1 * 2 ^ 254) - psi;
    g_1 + g_2 * 2 ^ 9 + 2 ^ 130 - t_p - g1_g2_prime;
    h_1 * h_0; h_1 * z13_g; h_1 * z13_g1_g2_prime ].
Definition region_psi (psi g_1 z1_g h_0 h_1 g1_g2_prime z13_g z13_g1_g2_prime : Z) : region :=
  [ at_cell col_l 0 psi; at_cell col_l 1 h_0; at_cell col_m 0 g_1; at_cell col_m 1 h_1; at_cell col_r 0 z1_g;
    at_cell col_r 1 g1_g2_prime; at_cell col_z 0 z13_g; at_cell col_z 1 z13_g1_g2_prime ].

(** note_commit.rs:1277-1331 gate "y coordinate checks"; 1352-1407 assign. *)
Definition gate_y (r : region) : list Z :=
  let y := query r 5 0 in
  let lsb := query r 6 0 in
  let k_0 := query r 7 0 in
  let k_2 := query r 8 0 in
  let k_3 := query r 9 0 in
  let j := query r 5 1 in
  let z1_j := query r 6 1 in
  let z13_j := query r 7 1 in
  let j_prime := query r 8 1 in
  let z13_j_prime := query r 9 1 in
  [ bool_check k_3;
    j - (lsb + k_0 * 2 + z1_j * 2 ^ 10);
    y - (j + k_2 * 2 ^ 250 + k_3 * 2 ^ 254);
    j + 2 ^ 130 - t_p - j_prime;
    k_3 * k_2; k_3 * z13_j; k_3 * z13_j_prime ].
Definition region_y (y lsb k_0 k_2 k_3 j z1_j z13_j j_prime z13_j_prime : Z) : region :=
  [ at_cell 5 0 y; at_cell 6 0 lsb; at_cell 7 0 k_0; at_cell 8 0 k_2; at_cell 9 0 k_3;
    at_cell 5 1 j; at_cell 6 1 z1_j; at_cell 7 1 z13_j; at_cell 8 1 j_prime; at_cell 9 1 z13_j_prime ].

(** note_commit.rs:1936-2009 y_canonicity: its cells and constraints. *)
Record y_cells : Type := mk_y_cells {
  y_k_0 : Z; y_k_2 : Z; y_k_3 : Z; y_zs_j : list Z; y_zs_jp : list Z
}.
Definition y_sat (y lsb : Z) (k : y_cells) : Prop :=
  witness_short 9 (y_k_0 k) /\ witness_short 4 (y_k_2 k) /\ is_base (y_k_3 k) /\
  witness_check 25 true (y_zs_j k) /\ witness_check 13 false (y_zs_jp k) /\
  gate_holds (gate_y (region_y y lsb (y_k_0 k) (y_k_2 k) (y_k_3 k)
    (nth 0 (y_zs_j k) 0) (nth 1 (y_zs_j k) 0) (nth 13 (y_zs_j k) 0)
    (nth 0 (y_zs_jp k) 0) (nth 13 (y_zs_jp k) 0))).

(** note_commit.rs:1951-1994: the prover's assignment (bits of y; j from its parts). *)
Definition y_honest (y lsb : Z) : y_cells :=
  let k_0 := bitrange y 1 10 in
  let k_1 := bitrange y 10 250 in
  let k_2 := bitrange y 250 254 in
  let k_3 := bitrange y 254 255 in
  let j := lsb + 2 * k_0 + 2 ^ 10 * k_1 in
  mk_y_cells k_0 k_2 k_3 (honest_sum 25 j) (honest_sum 13 ((j + 2 ^ 130 - t_p) mod pmod)).

(** The cells of note_commit (1572-1775): running sums of the eight message pieces, the
    sub-pieces, the two y decompositions and the four canonicity running sums. *)
Record nc_cells : Type := mk_nc_cells {
  nc_zs_a : list Z; nc_zs_b : list Z; nc_zs_c : list Z; nc_zs_d : list Z;
  nc_zs_e : list Z; nc_zs_f : list Z; nc_zs_g : list Z; nc_zs_h : list Z;
  nc_b_0 : Z; nc_b_1 : Z; nc_b_2 : Z; nc_b_3 : Z;
  nc_d_0 : Z; nc_d_1 : Z; nc_d_2 : Z;
  nc_e_0 : Z; nc_e_1 : Z;
  nc_g_0 : Z; nc_g_1 : Z;
  nc_h_0 : Z; nc_h_1 : Z;
  nc_y_gd : y_cells; nc_y_pkd : y_cells;
  nc_zs_gdp : list Z; nc_zs_pkdp : list Z; nc_zs_rhop : list Z; nc_zs_psip : list Z
}.

(** note_commit.rs:1565-2010: all constraints of the gadget on its cells. *)
Definition nc_sat (gd_x gd_y pkd_x pkd_y value rho psi : Z) (k : nc_cells) : Prop :=
  let hd zs := nth 0 zs 0 in
  let z13_a := nth 13 (nc_zs_a k) 0 in
  let z13_c := nth 13 (nc_zs_c k) 0 in
  let z1_d := nth 1 (nc_zs_d k) 0 in
  let z13_f := nth 13 (nc_zs_f k) 0 in
  let z1_g := nth 1 (nc_zs_g k) 0 in
  let z13_g := nth 13 (nc_zs_g k) 0 in
  (* message pieces, through the Sinsemilla chip *)
  (piece 25 (nc_zs_a k) /\ piece 1 (nc_zs_b k) /\ piece 25 (nc_zs_c k) /\ piece 6 (nc_zs_d k) /\
   piece 1 (nc_zs_e k) /\ piece 25 (nc_zs_f k) /\ piece 25 (nc_zs_g k) /\ piece 1 (nc_zs_h k)) /\
  (* short range checks and unchecked single-bit cells: decompose functions of B, D, E, G, H *)
  (witness_short 4 (nc_b_0 k) /\ is_base (nc_b_1 k) /\ is_base (nc_b_2 k) /\
   witness_short 4 (nc_b_3 k) /\
   is_base (nc_d_0 k) /\ is_base (nc_d_1 k) /\ witness_short 8 (nc_d_2 k) /\
   witness_short 6 (nc_e_0 k) /\ witness_short 4 (nc_e_1 k) /\
   is_base (nc_g_0 k) /\ witness_short 9 (nc_g_1 k) /\
   witness_short 5 (nc_h_0 k) /\ is_base (nc_h_1 k)) /\
  (* y(g_d), y(pk_d) *)
  y_sat gd_y (nc_b_2 k) (nc_y_gd k) /\
  y_sat pkd_y (nc_d_1 k) (nc_y_pkd k) /\
  (* canonicity running sums *)
  (witness_check 13 false (nc_zs_gdp k) /\ witness_check 14 false (nc_zs_pkdp k) /\
   witness_check 14 false (nc_zs_rhop k) /\ witness_check 13 false (nc_zs_psip k)) /\
  (* gates *)
  gate_holds (gate_b (region_b (hd (nc_zs_b k)) (nc_b_0 k) (nc_b_1 k) (nc_b_2 k) (nc_b_3 k))) /\
  gate_holds (gate_d (region_d (hd (nc_zs_d k)) (nc_d_0 k) (nc_d_1 k) (nc_d_2 k) z1_d)) /\
  gate_holds (gate_e (region_e (hd (nc_zs_e k)) (nc_e_0 k) (nc_e_1 k))) /\
  gate_holds (gate_g (region_g (hd (nc_zs_g k)) (nc_g_0 k) (nc_g_1 k) z1_g)) /\
  gate_holds (gate_h (region_h (hd (nc_zs_h k)) (nc_h_0 k) (nc_h_1 k))) /\
  gate_holds (gate_g_d (region_g_d gd_x (hd (nc_zs_a k)) (nc_b_0 k) (nc_b_1 k)
                          (hd (nc_zs_gdp k)) z13_a (nth 13 (nc_zs_gdp k) 0))) /\
  gate_holds (gate_pk_d (region_pk_d pkd_x (nc_b_3 k) (hd (nc_zs_c k)) (nc_d_0 k)
                          (hd (nc_zs_pkdp k)) z13_c (nth 14 (nc_zs_pkdp k) 0))) /\
  gate_holds (gate_value (region_value value (nc_d_2 k) z1_d (nc_e_0 k))) /\
  gate_holds (gate_rho (region_rho rho (nc_e_1 k) (hd (nc_zs_f k)) (nc_g_0 k)
                          (hd (nc_zs_rhop k)) z13_f (nth 14 (nc_zs_rhop k) 0))) /\
  gate_holds (gate_psi (region_psi psi (nc_g_1 k) z1_g (nc_h_0 k) (nc_h_1 k)
                          (hd (nc_zs_psip k)) z13_g (nth 13 (nc_zs_psip k) 0))).

(** note_commit.rs:1654-1668: the message [a, .., h]. *)
Definition nc_words (k : nc_cells) : list Z :=
  piece_words (nc_zs_a k) ++ piece_words (nc_zs_b k) ++ piece_words (nc_zs_c k) ++
  piece_words (nc_zs_d k) ++ piece_words (nc_zs_e k) ++ piece_words (nc_zs_f k) ++
  piece_words (nc_zs_g k) ++ piece_words (nc_zs_h k).

(** The prover's assignment: note_commit.rs:1586-1628 and the decompose functions
    (138-166, 276-305, 398-427, 529-548, 645-670), the canonicity values of 1782-1934. *)
Definition nc_honest (gd_x gd_y pkd_x pkd_y value rho psi : Z) : nc_cells :=
  let a := subpieces [(bitrange gd_x 0 250, 250)] in
  let b_0 := bitrange gd_x 250 254 in
  let b_1 := bitrange gd_x 254 255 in
  let b_2 := bitrange gd_y 0 1 in
  let b_3 := bitrange pkd_x 0 4 in
  let b := subpieces [(b_0, 4); (b_1, 1); (b_2, 1); (b_3, 4)] in
  let c := subpieces [(bitrange pkd_x 4 254, 250)] in
  let d_0 := bitrange pkd_x 254 255 in
  let d_1 := bitrange pkd_y 0 1 in
  let d_2 := bitrange value 0 8 in
  let d_3 := bitrange value 8 58 in
  let d := subpieces [(d_0, 1); (d_1, 1); (d_2, 8); (d_3, 50)] in
  let e_0 := bitrange value 58 64 in
  let e_1 := bitrange rho 0 4 in
  let e := subpieces [(e_0, 6); (e_1, 4)] in
  let f := subpieces [(bitrange rho 4 254, 250)] in
  let g_0 := bitrange rho 254 255 in
  let g_1 := bitrange psi 0 9 in
  let g_2 := bitrange psi 9 249 in
  let g := subpieces [(g_0, 1); (g_1, 9); (g_2, 240)] in
  let h_0 := bitrange psi 249 254 in
  let h_1 := bitrange psi 254 255 in
  let h := subpieces [(h_0, 5); (h_1, 1); (bitrange 0 0 4, 4)] in
  let z1_g := g / 2 ^ 10 in
  mk_nc_cells
    (honest_piece 25 a) (honest_piece 1 b) (honest_piece 25 c) (honest_piece 6 d)
    (honest_piece 1 e) (honest_piece 25 f) (honest_piece 25 g) (honest_piece 1 h)
    b_0 b_1 b_2 b_3 d_0 d_1 d_2 e_0 e_1 g_0 g_1 h_0 h_1
    (y_honest gd_y b_2) (y_honest pkd_y d_1)
    (honest_sum 13 ((a + 2 ^ 130 - t_p) mod pmod))
    (honest_sum 14 ((b_3 + 2 ^ 4 * c + 2 ^ 140 - t_p) mod pmod))
    (honest_sum 14 ((e_1 + 2 ^ 4 * f + 2 ^ 140 - t_p) mod pmod))
    (honest_sum 13 ((g_1 + 2 ^ 9 * z1_g + 2 ^ 130 - t_p) mod pmod)).

Section NoteCommit.
  Context {C : Curve} {OR : @Oracles C}.

  (** note_commit.rs:1572-1775 note_commit as a relation: the point returned by commit. *)
  Definition note_commit_chip (g_d pk_d : point) (value rho psi rcm : Z) (k : nc_cells) (cm : point)
    : Prop :=
    nc_sat (pt_x g_d) (pt_y g_d) (pt_x pk_d) (pt_y pk_d) value rho psi k /\
    commit_chip "z.cash:Orchard-NoteCommit" (nc_words k) rcm cm.
End NoteCommit.
