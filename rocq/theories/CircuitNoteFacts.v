(** Soundness and completeness of the NoteCommit gadget. *)
From Coq Require Import String ZArith List Bool Lia.
From Verif Require Import Prelude PreludeFacts Fields Curve CurveFacts Oracles Sinsemilla SinsSpec SinsFacts Value Keys Note Halo2 Halo2Facts CircuitIvk CircuitNote.
Import ListNotations.
Open Scope Z_scope.

#[local] Opaque bool_check.

(** ** The y-coordinate check *)
Lemma y_sound : forall y lsb k, is_base y -> lsb = 0 \/ lsb = 1 -> y_sat y lsb k -> lsb = y mod 2.
Proof.
  intros y lsb k Hy HL (K0 & K2 & B3 & WJ & WP & G).
  destruct (witness_check_zero 25 true _ ltac:(lia) WJ (proj2 (proj2 (proj2 WJ)) eq_refl)) as (RJ & NJ).
  pose proof (NJ 1%nat ltac:(lia)) as Z1. pose proof (NJ 13%nat ltac:(lia)) as Z13. clear NJ.
  pose proof (witness_check_base _ _ _ 0%nat WJ) as BJ. pose proof (witness_check_base _ _ _ 13%nat WJ) as B13.
  unfold gate_y, region_y in G. cbn [query at_cell fst snd Nat.eqb andb] in G. cbv zeta in G.
  remember (nth 0 (y_zs_j k) 0) as j eqn:Ej. clear Ej.
  remember (nth 1 (y_zs_j k) 0) as z1 eqn:E1. clear E1. remember (nth 13 (y_zs_j k) 0) as z13 eqn:E13. clear E13.
  change (10 * Z.of_nat 25) with 250 in RJ. change (10 * Z.of_nat 1) with 10 in Z1. change (10 * Z.of_nat 13) with 130 in Z13.
  pose proof (proj1 (witness_short_iff 9 _ ltac:(lia)) K0) as R0.
  pose proof (proj1 (witness_short_iff 4 _ ltac:(lia)) K2) as R2.
  pose proof (proj1 K2) as BK2. remember (y_k_0 k) as k0 eqn:E. clear E. remember (y_k_2 k) as k2 eqn:E. clear E.
  remember (y_k_3 k) as k3 eqn:E. clear E.
  assert (R1 : 0 <= z1 < 2 ^ 240).
  { rewrite Z1. split; [apply Z.div_pos; lia|apply Z.div_lt_upper_bound; lia]. }
  repeat rewrite gate_cons in G. destruct G as (G1 & G2 & G3 & G4 & G5 & G6 & G7 & _).
  apply (bool_check_iff _ B3) in G1.
  assert (Ejv : j = lsb + k0 * 2 + z1 * 2 ^ 10).
  { apply vanishes_eq; [exact BJ|apply base_of_lt; clear -HL R0 R1; lia|exact G2]. }
  assert (Ey : y = j + k2 * 2 ^ 250 + k3 * 2 ^ 254).
  { apply (canon_gen 13 (y_zs_jp k)); try assumption.
    - lia.
    - apply RJ.
    - clear -R2; lia.
    - clear -RJ R2; lia.
    - replace (j + k2 * 2 ^ 250 + k3 * 2 ^ 254 - y) with (- (y - (j + k2 * 2 ^ 250 + k3 * 2 ^ 254))) by ring.
      apply vanishes_opp. exact G3.
    - intro E. rewrite (guarded _ _ BK2 G5 E). reflexivity.
    - intro E. pose proof (guarded _ _ B13 G6 E) as Z0. rewrite Z13 in Z0. change (10 * Z.of_nat 13) with 130.
      apply Z.div_small_iff in Z0; clear -Z0 RJ; lia. }
  rewrite Ey, Ejv.
  replace (lsb + k0 * 2 + z1 * 2 ^ 10 + k2 * 2 ^ 250 + k3 * 2 ^ 254)
    with (lsb + (k0 + z1 * 2 ^ 9 + k2 * 2 ^ 249 + k3 * 2 ^ 253) * 2) by ring.
  rewrite Z.mod_add by lia. rewrite Z.mod_small by (clear -HL; lia). reflexivity.
Qed.

Lemma y_complete : forall y, is_base y -> y_sat y (y mod 2) (y_honest y (y mod 2)).
Proof.
  intros y Hy. destruct (base_top y Hy) as (T & T' & E & _ & CA).
  pose proof (bitrange_range y 1 10 ltac:(lia)) as R0. pose proof (bitrange_range y 10 250 ltac:(lia)) as R1.
  pose proof (bitrange_range y 250 254 ltac:(lia)) as R2.
  assert (RL : 0 <= y mod 2 < 2) by (apply Z.mod_pos_bound; lia).
  assert (Cut : y mod 2 ^ 254 = (y mod 2 + 2 * bitrange y 1 10 + 2 ^ 10 * bitrange y 10 250) + 2 ^ 250 * bitrange y 250 254).
  { rewrite <- bitrange_low. rewrite (bitrange_cut y 0 1 254) by lia. rewrite (bitrange_cut y 1 10 254) by lia.
    rewrite (bitrange_cut y 10 250 254) by lia. rewrite bitrange_low.
    change (2 ^ (1 - 0)) with 2. change (2 ^ (10 - 1)) with (2 ^ 9). change (2 ^ (250 - 10)) with (2 ^ 240). change (2 ^ 1) with 2. ring. }
  unfold y_sat, y_honest. cbn [y_k_0 y_k_2 y_k_3 y_zs_j y_zs_jp]. rewrite T.
  unfold gate_y, region_y. cbn [query at_cell fst snd Nat.eqb andb]. cbv zeta.
  rewrite Cut in E, CA. clear Cut. change (10 - 1) with 9 in *. change (250 - 10) with 240 in *. change (254 - 250) with 4 in *.
  remember (y mod 2) as lsb. remember (bitrange y 1 10) as k0. remember (bitrange y 10 250) as k1.
  remember (bitrange y 250 254) as k2. remember (y / 2 ^ 254) as k3.
  clear Heqlsb Heqk0 Heqk1 Heqk2 Heqk3 T.
  remember (lsb + 2 * k0 + 2 ^ 10 * k1) as j eqn:Ej.
  assert (RJ : 0 <= j < 2 ^ 250) by (clear -Ej RL R0 R1; lia).
  pose proof t_p_val as HTP.
  destruct (canon_honest 13 j (k2 * 2 ^ 250) k3 ltac:(lia) ltac:(apply RJ) ltac:(clear -R2; lia) T' ltac:(clear -CA; lia)) as (WA & VA & ZA).
  change (10 * Z.of_nat 13) with 130 in *.
  split; [apply witness_short_iff; [lia|exact R0]|]. split; [apply witness_short_iff; [lia|exact R2]|].
  split; [apply base_of_lt; clear -T'; lia|].
  split; [apply honest_sum_sat; [apply base_of_lt|intros _; change (10 * Z.of_nat 25) with 250]; clear -RJ; lia|].
  split; [exact WA|]. rewrite !(honest_sum_nth 25) by lia.
  change (10 * Z.of_nat 0) with 0. change (10 * Z.of_nat 1) with 10. change (10 * Z.of_nat 13) with 130.
  rewrite Z.pow_0_r, !Z.div_1_r.
  assert (EZ : j / 2 ^ 10 = k1).
  { rewrite Ej. rewrite (Z.mul_comm (2 ^ 10) k1), Z.div_add by lia. rewrite Z.div_small by (clear -RL R0; lia). reflexivity. }
  rewrite EZ. repeat rewrite gate_cons.
  split; [apply bool_check_iff; [apply base_of_lt; clear -T'; lia|exact T']|].
  split; [match goal with |- vanishes ?e => replace e with 0 by (rewrite Ej; ring) end; apply vanishes_zero|].
  split; [match goal with |- vanishes ?e => replace e with 0 by (rewrite E; ring) end; apply vanishes_zero|].
  split; [exact VA|].
  split; [apply guard_honest; [exact T'|clear -CA RJ R2 HTP; lia]|].
  split; [apply guard_honest; [exact T'|intro X; apply Z.div_small; specialize (CA X); clear -CA RJ R2 HTP; lia]|].
  split; [exact ZA|]. apply gate_nil.
Qed.

(** ** The message decomposition *)
Ltac cells G := cbn [query at_cell fst snd Nat.eqb andb col_l col_m col_r col_z] in G; cbv zeta in G;
                repeat rewrite gate_cons in G.

(** x(g_d) = a || b_0 || b_1. *)
Lemma gd_sound : forall x a b0 b1 zs z13, is_base x -> 0 <= a < 2 ^ 250 -> is_base z13 -> z13 = a / 2 ^ 130 ->
  is_base b0 -> 0 <= b0 < 2 ^ 4 -> b1 = 0 \/ b1 = 1 -> witness_check 13 false zs ->
  gate_holds (gate_g_d (region_g_d x a b0 b1 (nth 0 zs 0) z13 (nth 13 zs 0))) ->
  x = a + b0 * 2 ^ 250 + b1 * 2 ^ 254.
Proof.
  intros x a b0 b1 zs z13 Hx Ra B13 Z13 B0 R0 H1 W G. unfold gate_g_d, region_g_d in G. cells G.
  destruct G as (G1 & G2 & G3 & G4 & G5 & _).
  apply (canon_gen 13 zs); try assumption.
  - lia.
  - apply Ra.
  - clear -R0; lia.
  - clear -Ra R0; lia.
  - intro E. rewrite (guarded _ _ B0 G3 E). reflexivity.
  - intro E. pose proof (guarded _ _ B13 G4 E) as Z0. rewrite Z13 in Z0. change (10 * Z.of_nat 13) with 130.
    apply Z.div_small_iff in Z0; clear -Z0 Ra; lia.
Qed.

(** x(pk_d) = b_3 || c || d_0 and rho = e_1 || f || g_0. *)
Lemma low4_sound : forall x b c d zs z13, is_base x -> 0 <= c < 2 ^ 250 -> is_base z13 -> z13 = c / 2 ^ 130 ->
  0 <= b < 2 ^ 4 -> d = 0 \/ d = 1 -> witness_check 14 false zs ->
  vanishes ((b + c * 2 ^ 4 + d * 2 ^ 254) - x) ->
  vanishes (b + c * 2 ^ 4 + 2 ^ 140 - t_p - nth 0 zs 0) ->
  vanishes (d * z13) -> vanishes (d * nth 14 zs 0) ->
  x = b + c * 2 ^ 4 + d * 2 ^ 254.
Proof.
  intros x b c d zs z13 Hx Rc B13 Z13 Rb HD W G1 G2 G3 G4.
  replace (b + c * 2 ^ 4 + d * 2 ^ 254) with (b + c * 2 ^ 4 + 0 + d * 2 ^ 254) by ring.
  apply (canon_gen 14 zs); try assumption.
  - lia.
  - clear -Rb Rc; lia.
  - lia.
  - clear -Rb Rc; lia.
  - replace (b + c * 2 ^ 4 + 0 + d * 2 ^ 254 - x) with (b + c * 2 ^ 4 + d * 2 ^ 254 - x) by ring. exact G1.
  - reflexivity.
  - intro E. pose proof (guarded _ _ B13 G3 E) as Z0. rewrite Z13 in Z0. change (10 * Z.of_nat 14) with 140.
    apply Z.div_small_iff in Z0; clear -Z0 Rb Rc; lia.
Qed.

(** psi = g_1 || g_2 || h_0 || h_1, with g = g_0 || g_1 || g_2. *)
Lemma psi_sound : forall x g g0 g1 g2 h0 h1 zs z13, is_base x -> 0 <= g < 2 ^ 250 -> is_base z13 -> z13 = g / 2 ^ 130 ->
  g = g0 + g1 * 2 + g2 * 2 ^ 10 -> g0 = 0 \/ g0 = 1 -> 0 <= g1 < 2 ^ 9 -> 0 <= g2 < 2 ^ 240 ->
  is_base h0 -> 0 <= h0 < 2 ^ 5 -> h1 = 0 \/ h1 = 1 -> witness_check 13 false zs ->
  gate_holds (gate_psi (region_psi x g1 g2 h0 h1 (nth 0 zs 0) z13 (nth 13 zs 0))) ->
  x = g1 + g2 * 2 ^ 9 + h0 * 2 ^ 249 + h1 * 2 ^ 254.
Proof.
  intros x g g0 g1 g2 h0 h1 zs z13 Hx Rg B13 Z13 Eg H0 R1 R2 Bh Rh H1 W G. unfold gate_psi, region_psi in G. cells G.
  destruct G as (G1 & G2 & G3 & G4 & G5 & _).
  apply (canon_gen 13 zs); try assumption.
  - lia.
  - clear -R1 R2; lia.
  - clear -Rh; lia.
  - clear -R1 R2 Rh; lia.
  - intro E. rewrite (guarded _ _ Bh G3 E). reflexivity.
  - intro E. pose proof (guarded _ _ B13 G4 E) as Z0. rewrite Z13 in Z0. change (10 * Z.of_nat 13) with 130.
    apply Z.div_small_iff in Z0; [|lia]. clear -Z0 Rg Eg H0 R1 R2; lia.
Qed.

Definition nc_val (gd_x gd_y pkd_x pkd_y value rho psi : Z) : Z :=
  (gd_x + 2 ^ 255 * (gd_y mod 2)) + 2 ^ 256 * ((pkd_x + 2 ^ 255 * (pkd_y mod 2)) +
  2 ^ 256 * (value + 2 ^ 64 * (rho + 2 ^ 255 * psi))).

Lemma nc_cells_sound : forall gd_x gd_y pkd_x pkd_y value rho psi k,
  is_base gd_x -> is_base gd_y -> is_base pkd_x -> is_base pkd_y -> is_base value -> is_base rho -> is_base psi ->
  nc_sat gd_x gd_y pkd_x pkd_y value rho psi k ->
  is_u64 value /\ length (nc_words k) = 109%nat /\ Forall in_table (nc_words k) /\
  wval (nc_words k) = nc_val gd_x gd_y pkd_x pkd_y value rho psi.
Proof.
  intros gd_x gd_y pkd_x pkd_y value rho psi k Hgx Hgy Hpx Hpy Hv Hrho Hpsi.
  unfold nc_sat. cbv zeta.
  intros ((Pa & Pb & Pc & Pd & Pe & Pf & Pg & Ph) & (SB0 & BB1 & BB2 & SB3 & BD0 & BD1 & SD2 & SE0 & SE1 & BG0 & SG1 & SH0 & BH1)
    & YG & YP & (WG & WP & WR & WS) & Gb & Gd & Ge & Gg & Gh & Ggd & Gpkd & Gv & Grho & Gpsi).
  assert (LEN : length (nc_words k) = 109%nat).
  { unfold nc_words. rewrite !app_length, (piece_words_length _ _ Pa), (piece_words_length _ _ Pb), (piece_words_length _ _ Pc),
      (piece_words_length _ _ Pd), (piece_words_length _ _ Pe), (piece_words_length _ _ Pf), (piece_words_length _ _ Pg),
      (piece_words_length _ _ Ph). reflexivity. }
  assert (TAB : Forall in_table (nc_words k)).
  { unfold nc_words. repeat (apply Forall_app; split); eapply piece_words_table; eassumption. }
  destruct (piece_inv 25 _ ltac:(lia) Pa) as (Ra & _ & Va). destruct (piece_inv 1 _ ltac:(lia) Pb) as (Rb & _ & Vb).
  destruct (piece_inv 25 _ ltac:(lia) Pc) as (Rc & _ & Vc). destruct (piece_inv 6 _ ltac:(lia) Pd) as (Rd & _ & Vd).
  destruct (piece_inv 1 _ ltac:(lia) Pe) as (Re & _ & Ve). destruct (piece_inv 25 _ ltac:(lia) Pf) as (Rf & _ & Vf).
  destruct (piece_inv 25 _ ltac:(lia) Pg) as (Rg & _ & Vg). destruct (piece_inv 1 _ ltac:(lia) Ph) as (Rh & _ & Vh).
  assert (VAL : wval (nc_words k) = nth 0 (nc_zs_a k) 0 + 2 ^ 250 * (nth 0 (nc_zs_b k) 0 + 2 ^ 10 * (nth 0 (nc_zs_c k) 0 +
     2 ^ 250 * (nth 0 (nc_zs_d k) 0 + 2 ^ 60 * (nth 0 (nc_zs_e k) 0 + 2 ^ 10 * (nth 0 (nc_zs_f k) 0 +
     2 ^ 250 * (nth 0 (nc_zs_g k) 0 + 2 ^ 250 * nth 0 (nc_zs_h k) 0))))))).
  { unfold nc_words. rewrite !wval_app, Va, Vb, Vc, Vd, Ve, Vf, Vg, Vh, (piece_words_length _ _ Pa), (piece_words_length _ _ Pb),
      (piece_words_length _ _ Pc), (piece_words_length _ _ Pd), (piece_words_length _ _ Pe), (piece_words_length _ _ Pf),
      (piece_words_length _ _ Pg). reflexivity. }
  clear Va Vb Vc Vd Ve Vf Vg Vh.
  pose proof (piece_nth 25 _ 13 ltac:(lia) ltac:(lia) Pa) as Z13a. pose proof (piece_nth 25 _ 13 ltac:(lia) ltac:(lia) Pc) as Z13c.
  pose proof (piece_nth 25 _ 13 ltac:(lia) ltac:(lia) Pf) as Z13f. pose proof (piece_nth 25 _ 13 ltac:(lia) ltac:(lia) Pg) as Z13g.
  pose proof (piece_nth 6 _ 1 ltac:(lia) ltac:(lia) Pd) as Z1d. pose proof (piece_nth 25 _ 1 ltac:(lia) ltac:(lia) Pg) as Z1g.
  pose proof (piece_base _ _ 13%nat Pa) as Ba13. pose proof (piece_base _ _ 13%nat Pc) as Bc13.
  pose proof (piece_base _ _ 13%nat Pf) as Bf13. pose proof (piece_base _ _ 13%nat Pg) as Bg13.
  pose proof (piece_base _ _ 0%nat Pb) as Bb. pose proof (piece_base _ _ 0%nat Pd) as Bd.
  pose proof (piece_base _ _ 0%nat Pe) as Be. pose proof (piece_base _ _ 0%nat Pg) as Bg. pose proof (piece_base _ _ 0%nat Ph) as Bh.
  change (10 * Z.of_nat 25) with 250 in *. change (10 * Z.of_nat 6) with 60 in *. change (10 * Z.of_nat 1) with 10 in *.
  change (10 * Z.of_nat 13) with 130 in *.
  clear Pa Pb Pc Pd Pe Pf Pg Ph.
  pose proof (proj1 (witness_short_iff 4 _ ltac:(lia)) SB0) as RB0. pose proof (proj1 SB0) as BB0. clear SB0.
  pose proof (proj1 (witness_short_iff 4 _ ltac:(lia)) SB3) as RB3. clear SB3.
  pose proof (proj1 (witness_short_iff 8 _ ltac:(lia)) SD2) as RD2. clear SD2.
  pose proof (proj1 (witness_short_iff 6 _ ltac:(lia)) SE0) as RE0. clear SE0.
  pose proof (proj1 (witness_short_iff 4 _ ltac:(lia)) SE1) as RE1. clear SE1.
  pose proof (proj1 (witness_short_iff 9 _ ltac:(lia)) SG1) as RG1. clear SG1.
  pose proof (proj1 (witness_short_iff 5 _ ltac:(lia)) SH0) as RH0. pose proof (proj1 SH0) as BH0. clear SH0.
  remember (nth 0 (nc_zs_a k) 0) as a eqn:E; clear E. remember (nth 0 (nc_zs_b k) 0) as b eqn:E; clear E.
  remember (nth 0 (nc_zs_c k) 0) as c eqn:E; clear E. remember (nth 0 (nc_zs_d k) 0) as d eqn:E; clear E.
  remember (nth 0 (nc_zs_e k) 0) as e eqn:E; clear E. remember (nth 0 (nc_zs_f k) 0) as f eqn:E; clear E.
  remember (nth 0 (nc_zs_g k) 0) as g eqn:E; clear E. remember (nth 0 (nc_zs_h k) 0) as h eqn:E; clear E.
  remember (nth 13 (nc_zs_a k) 0) as z13a eqn:E; clear E. remember (nth 13 (nc_zs_c k) 0) as z13c eqn:E; clear E.
  remember (nth 13 (nc_zs_f k) 0) as z13f eqn:E; clear E. remember (nth 13 (nc_zs_g k) 0) as z13g eqn:E; clear E.
  remember (nth 1 (nc_zs_d k) 0) as d3 eqn:E; clear E. remember (nth 1 (nc_zs_g k) 0) as g2 eqn:E; clear E.
  remember (nc_b_0 k) as b0 eqn:E; clear E. remember (nc_b_1 k) as b1 eqn:E; clear E. remember (nc_b_2 k) as b2 eqn:E; clear E.
  remember (nc_b_3 k) as b3 eqn:E; clear E. remember (nc_d_0 k) as d0 eqn:E; clear E. remember (nc_d_1 k) as d1 eqn:E; clear E.
  remember (nc_d_2 k) as d2 eqn:E; clear E. remember (nc_e_0 k) as e0 eqn:E; clear E. remember (nc_e_1 k) as e1 eqn:E; clear E.
  remember (nc_g_0 k) as g0 eqn:E; clear E. remember (nc_g_1 k) as g1 eqn:E; clear E. remember (nc_h_0 k) as h0 eqn:E; clear E.
  remember (nc_h_1 k) as h1 eqn:E; clear E.
  assert (RD3 : 0 <= d3 < 2 ^ 50) by (rewrite Z1d; split; [apply Z.div_pos; lia|apply Z.div_lt_upper_bound; lia]).
  assert (RG2 : 0 <= g2 < 2 ^ 240) by (rewrite Z1g; split; [apply Z.div_pos; lia|apply Z.div_lt_upper_bound; lia]).
  (* bits and pieces *)
  unfold gate_b, region_b in Gb. cells Gb. destruct Gb as (Gb1 & Gb2 & Gb3 & _).
  apply (bool_check_iff _ BB1) in Gb1. apply (bool_check_iff _ BB2) in Gb2.
  unfold gate_d, region_d in Gd. cells Gd. destruct Gd as (Gd1 & Gd2 & Gd3 & _).
  apply (bool_check_iff _ BD0) in Gd1. apply (bool_check_iff _ BD1) in Gd2.
  unfold gate_e, region_e in Ge. cells Ge. destruct Ge as (Ge1 & _).
  unfold gate_g, region_g in Gg. cells Gg. destruct Gg as (Gg1 & Gg2 & _). apply (bool_check_iff _ BG0) in Gg1.
  unfold gate_h, region_h in Gh. cells Gh. destruct Gh as (Gh1 & Gh2 & _). apply (bool_check_iff _ BH1) in Gh1.
  assert (Eb : b = b0 + b1 * 2 ^ 4 + b2 * 2 ^ 5 + b3 * 2 ^ 6)
    by (apply vanishes_eq; [exact Bb|apply base_of_lt; clear -RB0 Gb1 Gb2 RB3; lia|exact Gb3]).
  assert (Ed : d = d0 + d1 * 2 + d2 * 2 ^ 2 + d3 * 2 ^ 10)
    by (apply vanishes_eq; [exact Bd|apply base_of_lt; clear -Gd1 Gd2 RD2 RD3; lia|exact Gd3]).
  assert (Ee : e = e0 + e1 * 2 ^ 6)
    by (apply vanishes_eq; [exact Be|apply base_of_lt; clear -RE0 RE1; lia|exact Ge1]).
  assert (Eg : g = g0 + g1 * 2 + g2 * 2 ^ 10)
    by (apply vanishes_eq; [exact Bg|apply base_of_lt; clear -Gg1 RG1 RG2; lia|exact Gg2]).
  assert (Eh : h = h0 + h1 * 2 ^ 5)
    by (apply vanishes_eq; [exact Bh|apply base_of_lt; clear -RH0 Gh1; lia|exact Gh2]).
  (* inputs *)
  pose proof (y_sound _ _ _ Hgy Gb2 YG) as Eyg. pose proof (y_sound _ _ _ Hpy Gd2 YP) as Eyp.
  pose proof (gd_sound _ _ _ _ _ _ Hgx Ra Ba13 Z13a BB0 RB0 Gb1 WG Ggd) as Egx.
  unfold gate_pk_d, region_pk_d in Gpkd. cells Gpkd. destruct Gpkd as (Gp1 & Gp2 & Gp3 & Gp4 & _).
  pose proof (low4_sound _ _ _ _ _ _ Hpx Rc Bc13 Z13c RB3 Gd1 WP Gp1 Gp2 Gp3 Gp4) as Epx.
  unfold gate_rho, region_rho in Grho. cells Grho. destruct Grho as (Gr1 & Gr2 & Gr3 & Gr4 & _).
  pose proof (low4_sound _ _ _ _ _ _ Hrho Rf Bf13 Z13f RE1 Gg1 WR Gr1 Gr2 Gr3 Gr4) as Erho.
  pose proof (psi_sound _ _ _ _ _ _ _ _ _ Hpsi Rg Bg13 Z13g Eg Gg1 RG1 RG2 BH0 RH0 Gh1 WS Gpsi) as Epsi.
  unfold gate_value, region_value in Gv. cells Gv. destruct Gv as (Gv1 & _).
  assert (Ev : value = d2 + d3 * 2 ^ 8 + e0 * 2 ^ 58)
    by (symmetry; apply vanishes_eq; [apply base_of_lt; clear -RD2 RD3 RE0; lia|exact Hv|exact Gv1]).
  split; [unfold is_u64; clear -Ev RD2 RD3 RE0; lia|]. split; [exact LEN|]. split; [exact TAB|].
  rewrite VAL. unfold nc_val. rewrite <- Eyg, <- Eyp, Egx, Epx, Erho, Epsi, Ev, Eb, Ed, Ee, Eg, Eh. ring.
Qed.

(** ** Completeness *)
Ltac show_zero := match goal with |- vanishes ?e => replace e with 0 by ring end; apply vanishes_zero.
Ltac gcells := cbn [query at_cell fst snd Nat.eqb andb col_l col_m col_r col_z]; cbv zeta; repeat rewrite gate_cons.

Lemma gd_complete : forall x a b0 b1, 0 <= a < 2 ^ 250 -> 0 <= b0 < 2 ^ 4 -> b1 = 0 \/ b1 = 1 ->
  x = a + 2 ^ 250 * b0 + 2 ^ 254 * b1 -> (b1 = 1 -> a + 2 ^ 250 * b0 < t_p) ->
  let zs := honest_sum 13 ((a + 2 ^ 130 - t_p) mod pmod) in
  witness_check 13 false zs /\
  gate_holds (gate_g_d (region_g_d x a b0 b1 (nth 0 zs 0) (a / 2 ^ 130) (nth 13 zs 0))).
Proof.
  intros x a b0 b1 Ra R0 H1 Ex HC zs. pose proof t_p_val as HTP.
  destruct (canon_honest 13 a (b0 * 2 ^ 250) b1 ltac:(lia) ltac:(apply Ra) ltac:(clear -R0; lia) H1 ltac:(clear -HC; lia)) as (WA & VA & ZA).
  change (10 * Z.of_nat 13) with 130 in *. fold zs in WA, VA, ZA. clearbody zs. split; [exact WA|].
  unfold gate_g_d, region_g_d. gcells.
  split; [rewrite Ex; show_zero|]. split; [exact VA|].
  split; [apply guard_honest; [exact H1|clear -HC Ra R0 HTP; lia]|].
  split; [apply guard_honest; [exact H1|intro X; apply Z.div_small; specialize (HC X); clear -HC Ra R0 HTP; lia]|].
  split; [exact ZA|apply gate_nil].
Qed.

Lemma low4_complete : forall x b c d, 0 <= c < 2 ^ 250 -> 0 <= b < 2 ^ 4 -> d = 0 \/ d = 1 ->
  x = b + 2 ^ 4 * c + 2 ^ 254 * d -> (d = 1 -> b + 2 ^ 4 * c < t_p) ->
  let zs := honest_sum 14 ((b + 2 ^ 4 * c + 2 ^ 140 - t_p) mod pmod) in
  witness_check 14 false zs /\
  gate_holds (gate_pk_d (region_pk_d x b c d (nth 0 zs 0) (c / 2 ^ 130) (nth 14 zs 0))).
Proof.
  intros x b c d Rc Rb HD Ex HC zs. pose proof t_p_val as HTP.
  destruct (canon_honest 14 (b + 2 ^ 4 * c) 0 d ltac:(lia) ltac:(clear -Rb Rc; lia) ltac:(lia) HD ltac:(clear -HC; lia)) as (WA & VA & ZA).
  change (10 * Z.of_nat 14) with 140 in *. fold zs in WA, VA, ZA. clearbody zs. split; [exact WA|].
  unfold gate_pk_d, region_pk_d. gcells.
  split; [rewrite Ex; show_zero|].
  split; [replace (b + c * 2 ^ 4) with (b + 2 ^ 4 * c) by ring; exact VA|].
  split; [apply guard_honest; [exact HD|intro X; apply Z.div_small; specialize (HC X); clear -HC Rb Rc HTP; lia]|].
  split; [exact ZA|apply gate_nil].
Qed.

Lemma psi_complete : forall x g g0 g1 g2 h0 h1, g = g0 + 2 * (g1 + 2 ^ 9 * g2) -> g0 = 0 \/ g0 = 1 ->
  0 <= g1 < 2 ^ 9 -> 0 <= g2 < 2 ^ 240 -> 0 <= h0 < 2 ^ 5 -> h1 = 0 \/ h1 = 1 ->
  x = g1 + 2 ^ 9 * g2 + 2 ^ 249 * h0 + 2 ^ 254 * h1 -> (h1 = 1 -> g1 + 2 ^ 9 * g2 + 2 ^ 249 * h0 < t_p) ->
  let zs := honest_sum 13 ((g1 + 2 ^ 9 * g2 + 2 ^ 130 - t_p) mod pmod) in
  witness_check 13 false zs /\
  gate_holds (gate_psi (region_psi x g1 g2 h0 h1 (nth 0 zs 0) (g / 2 ^ 130) (nth 13 zs 0))).
Proof.
  intros x g g0 g1 g2 h0 h1 Eg H0 R1 R2 Rh H1 Ex HC zs. pose proof t_p_val as HTP.
  destruct (canon_honest 13 (g1 + 2 ^ 9 * g2) (2 ^ 249 * h0) h1 ltac:(lia) ltac:(clear -R1 R2; lia) ltac:(clear -Rh; lia) H1 ltac:(clear -HC; lia)) as (WA & VA & ZA).
  change (10 * Z.of_nat 13) with 130 in *. fold zs in WA, VA, ZA. clearbody zs. split; [exact WA|].
  unfold gate_psi, region_psi. gcells.
  split; [rewrite Ex; show_zero|].
  split; [replace (g1 + g2 * 2 ^ 9) with (g1 + 2 ^ 9 * g2) by ring; exact VA|].
  split; [apply guard_honest; [exact H1|clear -HC R1 R2 Rh HTP; lia]|].
  split; [apply guard_honest; [exact H1|intro X; apply Z.div_small; specialize (HC X); clear -HC R1 R2 Rh HTP Eg H0; lia]|].
  split; [exact ZA|apply gate_nil].
Qed.

Lemma nc_cells_complete : forall gd_x gd_y pkd_x pkd_y value rho psi,
  is_base gd_x -> is_base gd_y -> is_base pkd_x -> is_base pkd_y -> is_u64 value -> is_base rho -> is_base psi ->
  nc_sat gd_x gd_y pkd_x pkd_y value rho psi (nc_honest gd_x gd_y pkd_x pkd_y value rho psi).
Proof.
  intros gd_x gd_y pkd_x pkd_y value rho psi Hgx Hgy Hpx Hpy Hv Hrho Hpsi.
  pose proof (y_complete gd_y Hgy) as YG. pose proof (y_complete pkd_y Hpy) as YP.
  destruct (base_top gd_x Hgx) as (TG & TG' & EG & _ & CG). destruct (base_top pkd_x Hpx) as (TP & TP' & EP & _ & CP).
  destruct (base_top rho Hrho) as (TR & TR' & ER & _ & CR). destruct (base_top psi Hpsi) as (TS & TS' & ES & _ & CS).
  assert (CutG : gd_x mod 2 ^ 254 = bitrange gd_x 0 250 + 2 ^ 250 * bitrange gd_x 250 254).
  { rewrite <- bitrange_low. apply (bitrange_cut gd_x 0 250 254); lia. }
  assert (CutP : pkd_x mod 2 ^ 254 = bitrange pkd_x 0 4 + 2 ^ 4 * bitrange pkd_x 4 254).
  { rewrite <- bitrange_low. apply (bitrange_cut pkd_x 0 4 254); lia. }
  assert (CutR : rho mod 2 ^ 254 = bitrange rho 0 4 + 2 ^ 4 * bitrange rho 4 254).
  { rewrite <- bitrange_low. apply (bitrange_cut rho 0 4 254); lia. }
  assert (CutS : psi mod 2 ^ 254 = bitrange psi 0 9 + 2 ^ 9 * bitrange psi 9 249 + 2 ^ 249 * bitrange psi 249 254).
  { rewrite <- bitrange_low. rewrite (bitrange_cut psi 0 9 254) by lia. rewrite (bitrange_cut psi 9 249 254) by lia.
    change (2 ^ (9 - 0)) with (2 ^ 9). change (2 ^ (249 - 9)) with (2 ^ 240). ring. }
  assert (CutV : value = bitrange value 0 8 + 2 ^ 8 * bitrange value 8 58 + 2 ^ 58 * bitrange value 58 64).
  { rewrite <- (bitrange_all value 64 Hv) at 1. rewrite (bitrange_cut value 0 8 64) by lia. rewrite (bitrange_cut value 8 58 64) by lia.
    change (2 ^ (8 - 0)) with (2 ^ 8). change (2 ^ (58 - 8)) with (2 ^ 50). ring. }
  rewrite CutG in EG, CG. rewrite CutP in EP, CP. rewrite CutR in ER, CR. rewrite CutS in ES, CS. clear CutG CutP CutR CutS.
  pose proof (bitrange_range gd_x 0 250 ltac:(lia)) as Ra. pose proof (bitrange_range gd_x 250 254 ltac:(lia)) as Rb0.
  pose proof (bitrange_range pkd_x 0 4 ltac:(lia)) as Rb3. pose proof (bitrange_range pkd_x 4 254 ltac:(lia)) as Rc.
  pose proof (bitrange_range value 0 8 ltac:(lia)) as Rd2. pose proof (bitrange_range value 8 58 ltac:(lia)) as Rd3.
  pose proof (bitrange_range value 58 64 ltac:(lia)) as Re0. pose proof (bitrange_range rho 0 4 ltac:(lia)) as Re1.
  pose proof (bitrange_range rho 4 254 ltac:(lia)) as Rf. pose proof (bitrange_range psi 0 9 ltac:(lia)) as Rg1.
  pose proof (bitrange_range psi 9 249 ltac:(lia)) as Rg2. pose proof (bitrange_range psi 249 254 ltac:(lia)) as Rh0.
  change (250 - 0) with 250 in Ra. change (254 - 250) with 4 in Rb0. change (4 - 0) with 4 in Rb3, Re1. change (254 - 4) with 250 in Rc, Rf.
  change (8 - 0) with 8 in Rd2. change (58 - 8) with 50 in Rd3. change (64 - 58) with 6 in Re0. change (9 - 0) with 9 in Rg1.
  change (249 - 9) with 240 in Rg2. change (254 - 249) with 5 in Rh0.
  unfold nc_sat, nc_honest. cbv zeta.
  cbn [nc_zs_a nc_zs_b nc_zs_c nc_zs_d nc_zs_e nc_zs_f nc_zs_g nc_zs_h nc_b_0 nc_b_1 nc_b_2 nc_b_3 nc_d_0 nc_d_1 nc_d_2 nc_e_0 nc_e_1
       nc_g_0 nc_g_1 nc_h_0 nc_h_1 nc_y_gd nc_y_pkd nc_zs_gdp nc_zs_pkdp nc_zs_rhop nc_zs_psip subpieces].
  rewrite TG, TP, TR, TS. rewrite !(bitrange_low _ 1). change (2 ^ 1) with 2. change (bitrange 0 0 4) with 0.
  assert (RLG : 0 <= gd_y mod 2 < 2) by (apply Z.mod_pos_bound; lia).
  assert (RLP : 0 <= pkd_y mod 2 < 2) by (apply Z.mod_pos_bound; lia).
  remember (gd_y mod 2) as b2 eqn:E; clear E. remember (pkd_y mod 2) as d1 eqn:E; clear E.
  remember (bitrange gd_x 0 250) as a eqn:E; clear E. remember (bitrange gd_x 250 254) as b0 eqn:E; clear E.
  remember (gd_x / 2 ^ 254) as b1 eqn:E; clear E. remember (bitrange pkd_x 0 4) as b3 eqn:E; clear E.
  remember (bitrange pkd_x 4 254) as c eqn:E; clear E. remember (pkd_x / 2 ^ 254) as d0 eqn:E; clear E.
  remember (bitrange value 0 8) as d2 eqn:E; clear E. remember (bitrange value 8 58) as d3 eqn:E; clear E.
  remember (bitrange value 58 64) as e0 eqn:E; clear E. remember (bitrange rho 0 4) as e1 eqn:E; clear E.
  remember (bitrange rho 4 254) as f eqn:E; clear E. remember (rho / 2 ^ 254) as g0 eqn:E; clear E.
  remember (bitrange psi 0 9) as g1 eqn:E; clear E. remember (bitrange psi 9 249) as g2 eqn:E; clear E.
  remember (bitrange psi 249 254) as h0 eqn:E; clear E. remember (psi / 2 ^ 254) as h1 eqn:E; clear E.
  clear TG TP TR TS. rewrite !Z.mul_0_r, !Z.add_0_r.
  assert (Eb : b0 + 2 ^ 4 * (b1 + 2 * (b2 + 2 * b3)) = b0 + b1 * 2 ^ 4 + b2 * 2 ^ 5 + b3 * 2 ^ 6) by ring.
  assert (Ed : d0 + 2 * (d1 + 2 * (d2 + 2 ^ 8 * d3)) = d0 + d1 * 2 + d2 * 2 ^ 2 + d3 * 2 ^ 10) by ring.
  assert (Ee : e0 + 2 ^ 6 * e1 = e0 + e1 * 2 ^ 6) by ring.
  assert (Eg : g0 + 2 * (g1 + 2 ^ 9 * g2) = g0 + g1 * 2 + g2 * 2 ^ 10) by ring.
  assert (Eh : h0 + 2 ^ 5 * h1 = h0 + h1 * 2 ^ 5) by ring.
  assert (Zg : (g0 + 2 * (g1 + 2 ^ 9 * g2)) / 2 ^ 10 = g2).
  { rewrite Eg, Z.div_add by lia. rewrite Z.div_small by (clear -TR' Rg1; lia). reflexivity. }
  assert (Zd : (d0 + 2 * (d1 + 2 * (d2 + 2 ^ 8 * d3))) / 2 ^ 10 = d3).
  { rewrite Ed, Z.div_add by lia. rewrite Z.div_small by (clear -TP' RLP Rd2; lia). reflexivity. }
  rewrite Zg.
  destruct (gd_complete gd_x a b0 b1 Ra Rb0 TG' EG CG) as (WG & GG).
  destruct (low4_complete pkd_x b3 c d0 Rc Rb3 TP' EP CP) as (WP & GP).
  destruct (low4_complete rho e1 f g0 Rf Re1 TR' ER CR) as (WR & GR).
  destruct (psi_complete psi _ g0 g1 g2 h0 h1 eq_refl TR' Rg1 Rg2 Rh0 TS' ES CS) as (WS & GS).
  split.
  { split; [apply honest_piece_sat; [apply base_of_lt|change (10 * Z.of_nat 25) with 250]; clear -Ra; lia|].
    split; [rewrite Eb; apply honest_piece_sat; [apply base_of_lt|change (10 * Z.of_nat 1) with 10]; clear -Rb0 TG' RLG Rb3; lia|].
    split; [apply honest_piece_sat; [apply base_of_lt|change (10 * Z.of_nat 25) with 250]; clear -Rc; lia|].
    split; [rewrite Ed; apply honest_piece_sat; [apply base_of_lt|change (10 * Z.of_nat 6) with 60]; clear -TP' RLP Rd2 Rd3; lia|].
    split; [rewrite Ee; apply honest_piece_sat; [apply base_of_lt|change (10 * Z.of_nat 1) with 10]; clear -Re0 Re1; lia|].
    split; [apply honest_piece_sat; [apply base_of_lt|change (10 * Z.of_nat 25) with 250]; clear -Rf; lia|].
    split; [rewrite Eg; apply honest_piece_sat; [apply base_of_lt|change (10 * Z.of_nat 25) with 250]; clear -TR' Rg1 Rg2; lia|].
    rewrite Eh; apply honest_piece_sat; [apply base_of_lt|change (10 * Z.of_nat 1) with 10]; clear -Rh0 TS'; lia. }
  split.
  { split; [apply witness_short_iff; [lia|exact Rb0]|]. split; [apply base_of_lt; clear -TG'; lia|].
    split; [apply base_of_lt; clear -RLG; lia|]. split; [apply witness_short_iff; [lia|exact Rb3]|].
    split; [apply base_of_lt; clear -TP'; lia|]. split; [apply base_of_lt; clear -RLP; lia|].
    split; [apply witness_short_iff; [lia|exact Rd2]|]. split; [apply witness_short_iff; [lia|exact Re0]|].
    split; [apply witness_short_iff; [lia|exact Re1]|]. split; [apply base_of_lt; clear -TR'; lia|].
    split; [apply witness_short_iff; [lia|exact Rg1]|]. split; [apply witness_short_iff; [lia|exact Rh0]|].
    apply base_of_lt; clear -TS'; lia. }
  split; [exact YG|]. split; [exact YP|].
  split; [split; [exact WG|split; [exact WP|split; [exact WR|exact WS]]]|].
  rewrite !(honest_piece_nth 25) by lia. rewrite !(honest_piece_nth 6) by lia. rewrite !(honest_piece_nth 1) by lia.
  change (10 * Z.of_nat 0) with 0. change (10 * Z.of_nat 13) with 130. change (10 * Z.of_nat 1) with 10.
  rewrite Z.pow_0_r, !Z.div_1_r, Zd, Zg.
  split; [|split; [|split; [|split; [|split; [|split; [|split; [|split; [|split]]]]]]]].
  - unfold gate_b, region_b. gcells.
    split; [apply bool_check_iff; [apply base_of_lt; clear -TG'; lia|exact TG']|].
    split; [apply bool_check_iff; [apply base_of_lt; clear -RLG; lia|clear -RLG; lia]|].
    split; [show_zero|apply gate_nil].
  - unfold gate_d, region_d. gcells.
    split; [apply bool_check_iff; [apply base_of_lt; clear -TP'; lia|exact TP']|].
    split; [apply bool_check_iff; [apply base_of_lt; clear -RLP; lia|clear -RLP; lia]|].
    split; [show_zero|apply gate_nil].
  - unfold gate_e, region_e. gcells. split; [show_zero|apply gate_nil].
  - unfold gate_g, region_g. gcells.
    split; [apply bool_check_iff; [apply base_of_lt; clear -TR'; lia|exact TR']|].
    split; [show_zero|apply gate_nil].
  - unfold gate_h, region_h. gcells.
    split; [apply bool_check_iff; [apply base_of_lt; clear -TS'; lia|exact TS']|].
    split; [show_zero|apply gate_nil].
  - exact GG.
  - exact GP.
  - unfold gate_value, region_value. gcells. split; [rewrite CutV; show_zero|apply gate_nil].
  - exact GR.
  - exact GS.
Qed.
