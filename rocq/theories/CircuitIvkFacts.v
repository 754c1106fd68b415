(** Soundness and completeness of the CommitIvk gadget. *)
From Coq Require Import String ZArith List Bool Lia.
From Verif Require Import Prelude PreludeFacts Fields Curve CurveFacts Oracles Sinsemilla SinsSpec SinsFacts Keys Halo2 Halo2Facts CircuitIvk.
Import ListNotations.
Open Scope Z_scope.

Lemma ivk_gate_cells : forall ak nk k, ivk_gate (ivk_region ak nk k) =
  let a := nth 0 (iv_zs_a k) 0 in let b := nth 0 (iv_zs_b k) 0 in
  let c := nth 0 (iv_zs_c k) 0 in let d := nth 0 (iv_zs_d k) 0 in
  [ bool_check (iv_b_1 k);
    bool_check (iv_d_1 k);
    b - (iv_b_0 k + iv_b_1 k * 2 ^ 4 + iv_b_2 k * 2 ^ 5);
    d - (iv_d_0 k + iv_d_1 k * 2 ^ 9);
    a + iv_b_0 k * 2 ^ 250 + iv_b_1 k * 2 ^ 254 - ak;
    iv_b_2 k + c * 2 ^ 5 + iv_d_0 k * 2 ^ 245 + iv_d_1 k * 2 ^ 254 - nk;
    iv_b_1 k * iv_b_0 k;
    iv_b_1 k * nth 13 (iv_zs_a k) 0;
    a + 2 ^ 130 - t_p - nth 0 (iv_zs_ap k) 0;
    iv_b_1 k * nth 13 (iv_zs_ap k) 0;
    iv_d_1 k * iv_d_0 k;
    iv_d_1 k * nth 13 (iv_zs_c k) 0;
    iv_b_2 k + c * 2 ^ 5 + 2 ^ 140 - t_p - nth 0 (iv_zs_np k) 0;
    iv_d_1 k * nth 14 (iv_zs_np k) 0 ].
Proof. intros. reflexivity. Qed.

#[local] Opaque bool_check.

Lemma ivk_cells_sound : forall ak nk k, is_base ak -> is_base nk -> ivk_sat ak nk k ->
  ivk_words k = msg_words (commit_ivk_msg ak nk).
Proof.
  intros ak nk k Hak Hnk (Pa & Pb & Pc & Pd & B0 & B1 & B2 & D0 & D1 & WA & WN & G).
  rewrite ivk_gate_cells in G. cbv zeta in G.
  destruct (piece_inv 25 _ ltac:(lia) Pa) as (Ra & _ & Va).
  destruct (piece_inv 1 _ ltac:(lia) Pb) as (Rb & _ & Vb).
  destruct (piece_inv 24 _ ltac:(lia) Pc) as (Rc & _ & Vc).
  destruct (piece_inv 1 _ ltac:(lia) Pd) as (Rd & _ & Vd).
  pose proof (piece_nth 25 _ 13 ltac:(lia) ltac:(lia) Pa) as Z13a.
  pose proof (piece_nth 24 _ 13 ltac:(lia) ltac:(lia) Pc) as Z13c.
  pose proof (piece_base _ _ 13%nat Pa) as Ba13. pose proof (piece_base _ _ 13%nat Pc) as Bc13.
  pose proof (piece_base _ _ 0%nat Pb) as Bb. pose proof (piece_base _ _ 0%nat Pd) as Bd.
  change (10 * Z.of_nat 25) with 250 in Ra. change (10 * Z.of_nat 24) with 240 in Rc.
  change (10 * Z.of_nat 1) with 10 in Rb, Rd. change (10 * Z.of_nat 13) with 130 in *.
  pose proof (proj1 (witness_short_iff 4 _ ltac:(lia)) B0) as R0.
  pose proof (proj1 (witness_short_iff 5 _ ltac:(lia)) B2) as R2.
  pose proof (proj1 (witness_short_iff 9 _ ltac:(lia)) D0) as RD0.
  pose proof (proj1 B0) as BB0. pose proof (proj1 D0) as BD0.
  remember (nth 0 (iv_zs_a k) 0) as a eqn:Ea. remember (nth 0 (iv_zs_b k) 0) as b eqn:Eb.
  remember (nth 0 (iv_zs_c k) 0) as c eqn:Ec. remember (nth 0 (iv_zs_d k) 0) as d eqn:Ed.
  repeat rewrite gate_cons in G.
  destruct G as (G1 & G2 & G3 & G4 & G5 & G6 & G7 & G8 & G9 & G10 & G11 & G12 & G13 & G14 & _).
  apply (bool_check_iff _ B1) in G1. apply (bool_check_iff _ D1) in G2.
  assert (Ebv : b = iv_b_0 k + iv_b_1 k * 2 ^ 4 + iv_b_2 k * 2 ^ 5).
  { apply vanishes_eq; [exact Bb|apply base_of_lt; lia|exact G3]. }
  assert (Edv : d = iv_d_0 k + iv_d_1 k * 2 ^ 9).
  { apply vanishes_eq; [exact Bd|apply base_of_lt; lia|exact G4]. }
  assert (Eak : ak = a + iv_b_0 k * 2 ^ 250 + iv_b_1 k * 2 ^ 254).
  { apply (canon_gen 13 (iv_zs_ap k)); try assumption; [lia|lia|lia|lia| |].
    - intro E. rewrite (guarded _ _ BB0 G7 E). reflexivity.
    - intro E. pose proof (guarded _ _ Ba13 G8 E) as Z0. rewrite Z13a in Z0.
      change (10 * Z.of_nat 13) with 130. apply Z.div_small_iff in Z0; lia. }
  assert (Enk : nk = iv_b_2 k + c * 2 ^ 5 + iv_d_0 k * 2 ^ 245 + iv_d_1 k * 2 ^ 254).
  { apply (canon_gen 14 (iv_zs_np k)); try assumption; [lia|lia|lia|lia| |].
    - intro E. rewrite (guarded _ _ BD0 G11 E). reflexivity.
    - intro E. pose proof (guarded _ _ Bc13 G12 E) as Z0. rewrite Z13c in Z0.
      change (10 * Z.of_nat 14) with 140. apply Z.div_small_iff in Z0; lia. }
  apply words_are.
  - unfold ivk_words. rewrite !app_length, (piece_words_length _ _ Pa), (piece_words_length _ _ Pb),
      (piece_words_length _ _ Pc), (piece_words_length _ _ Pd).
    unfold commit_ivk_msg, base_bits. rewrite app_length, !le_bits_length. reflexivity.
  - unfold ivk_words. repeat (apply Forall_app; split); eapply piece_words_table; eassumption.
  - unfold ivk_words. rewrite !wval_app, Va, Vb, Vc, Vd, (piece_words_length _ _ Pa), (piece_words_length _ _ Pb),
      (piece_words_length _ _ Pc).
    unfold commit_ivk_msg, base_bits. rewrite bits_val_app, le_bits_length.
    unfold is_base in *. pose proof pmod_lt_pow255.
    rewrite !bits_val_le_bits by (change (Z.of_nat l_orchard_base) with 255; lia).
    change (10 * Z.of_nat 25) with 250. change (10 * Z.of_nat 1) with 10. change (10 * Z.of_nat 24) with 240.
    change (Z.of_nat l_orchard_base) with 255. rewrite Eak, Enk, Ebv, Edv. ring.
Qed.

Lemma ivk_cells_complete : forall ak nk, is_base ak -> is_base nk -> ivk_sat ak nk (ivk_honest ak nk).
Proof.
  intros ak nk Hak Hnk.
  destruct (base_top ak Hak) as (TA & TA' & EA & LA & CA).
  destruct (base_top nk Hnk) as (TN & TN' & EN & LN & CN).
  pose proof (bitrange_range ak 0 250 ltac:(lia)) as Ra. pose proof (bitrange_range ak 250 254 ltac:(lia)) as R0.
  pose proof (bitrange_range nk 0 5 ltac:(lia)) as R2. pose proof (bitrange_range nk 5 245 ltac:(lia)) as Rc.
  pose proof (bitrange_range nk 245 254 ltac:(lia)) as RD0.
  assert (CutA : ak mod 2 ^ 254 = bitrange ak 0 250 + 2 ^ 250 * bitrange ak 250 254).
  { rewrite <- bitrange_low. apply (bitrange_cut ak 0 250 254); lia. }
  assert (CutN : nk mod 2 ^ 254 = bitrange nk 0 5 + 2 ^ 5 * (bitrange nk 5 245 + 2 ^ 240 * bitrange nk 245 254)).
  { rewrite <- bitrange_low. rewrite (bitrange_cut nk 0 5 254) by lia. rewrite (bitrange_cut nk 5 245 254) by lia. reflexivity. }
  unfold ivk_sat. rewrite ivk_gate_cells. cbv zeta. unfold ivk_honest. cbv zeta.
  cbn [iv_zs_a iv_zs_b iv_zs_c iv_zs_d iv_b_0 iv_b_1 iv_b_2 iv_d_0 iv_d_1 iv_zs_ap iv_zs_np subpieces].
  rewrite TA, TN.
  remember (bitrange ak 0 250) as a. remember (bitrange ak 250 254) as b0. remember (ak / 2 ^ 254) as b1.
  remember (bitrange nk 0 5) as b2. remember (bitrange nk 5 245) as c. remember (bitrange nk 245 254) as d0.
  remember (nk / 2 ^ 254) as d1. clear Heqa Heqb0 Heqb1 Heqb2 Heqc Heqd0 Heqd1 TA TN.
  rewrite CutA in EA, CA. rewrite CutN in EN, CN. clear CutA CutN LA LN.
  change (250 - 0) with 250 in *. change (254 - 250) with 4 in *. change (5 - 0) with 5 in *.
  change (245 - 5) with 240 in *. change (254 - 245) with 9 in *.
  rewrite !Z.mul_0_r, !Z.add_0_r.
  replace (b0 + 2 ^ 4 * (b1 + 2 ^ 1 * b2)) with (b0 + b1 * 2 ^ 4 + b2 * 2 ^ 5) by ring.
  replace (d0 + 2 ^ 9 * d1) with (d0 + d1 * 2 ^ 9) by ring.
  destruct (canon_honest 13 a (b0 * 2 ^ 250) b1 ltac:(lia) ltac:(lia) ltac:(lia) TA' ltac:(lia)) as (WA & VA & ZA).
  destruct (canon_honest 14 (b2 + c * 2 ^ 5) (d0 * 2 ^ 245) d1 ltac:(lia) ltac:(lia) ltac:(lia) TN' ltac:(lia)) as (WN & VN & ZN).
  change (10 * Z.of_nat 13) with 130 in *. change (10 * Z.of_nat 14) with 140 in *.
  pose proof t_p_val as HTP.
  split; [apply honest_piece_sat; [apply base_of_lt|change (10 * Z.of_nat 25) with 250]; clear -Ra; lia|].
  split; [apply honest_piece_sat; [apply base_of_lt|change (10 * Z.of_nat 1) with 10]; clear -R0 TA' R2; lia|].
  split; [apply honest_piece_sat; [apply base_of_lt|change (10 * Z.of_nat 24) with 240]; clear -Rc; lia|].
  split; [apply honest_piece_sat; [apply base_of_lt|change (10 * Z.of_nat 1) with 10]; clear -RD0 TN'; lia|].
  split; [apply witness_short_iff; [lia|exact R0]|].
  split; [apply base_of_lt; clear -TA'; lia|].
  split; [apply witness_short_iff; [lia|exact R2]|].
  split; [apply witness_short_iff; [lia|exact RD0]|].
  split; [apply base_of_lt; clear -TN'; lia|].
  split; [exact WA|]. split; [exact WN|].
  rewrite !honest_piece_nth by lia.
  change (10 * Z.of_nat 0) with 0. change (10 * Z.of_nat 13) with 130. rewrite Z.pow_0_r, !Z.div_1_r.
  repeat rewrite gate_cons.
  split; [apply bool_check_iff; [apply base_of_lt; clear -TA'; lia|exact TA']|].
  split; [apply bool_check_iff; [apply base_of_lt; clear -TN'; lia|exact TN']|].
  split; [apply vanishes_id|]. split; [apply vanishes_id|].
  split; [rewrite EA; match goal with |- vanishes ?e => replace e with 0 by ring end; apply vanishes_zero|].
  split; [rewrite EN; match goal with |- vanishes ?e => replace e with 0 by ring end; apply vanishes_zero|].
  split; [apply guard_honest; [exact TA'|clear -CA Ra R0 HTP; lia]|].
  split; [apply guard_honest; [exact TA'|intro E; apply Z.div_small; specialize (CA E); clear -CA Ra R0 HTP; lia]|].
  split; [exact VA|]. split; [exact ZA|].
  split; [apply guard_honest; [exact TN'|clear -CN Rc R2 RD0 HTP; lia]|].
  split; [apply guard_honest; [exact TN'|intro E; apply Z.div_small; specialize (CN E); clear -CN Rc R2 RD0 HTP; lia]|].
  split; [exact VN|]. split; [exact ZN|]. apply gate_nil.
Qed.
