(** The toy curve satisfies every law. *)
From Coq Require Import String ZArith List Bool Lia Eqdep_dec.
From Coq Require Import Init.Byte.
From Verif Require Import Prelude Fields Curve Oracles PreludeFacts NumTheory CurveFacts Toy.
Import ListNotations.
Open Scope Z_scope.

Lemma toy_half_spec : qmod = 2 * toy_half + 1.
Proof. vm_compute. reflexivity. Qed.
Lemma toy_half_lt : 0 < toy_half < pmod.
Proof. vm_compute. split; reflexivity. Qed.
Lemma pmod_gt_4 : 4 < pmod. Proof. vm_compute. reflexivity. Qed.

#[global] Opaque toy_half.

Lemma toy_k_range : forall P, 0 <= toy_k P < qmod.
Proof.
  intros [k H]. cbn [toy_k proj1_sig]. unfold toy_ok in H. apply andb_true_iff in H. lia.
Qed.

Lemma toy_ext : forall P Q : toy_point, toy_k P = toy_k Q -> P = Q.
Proof.
  intros [a Ha] [b Hb] H. cbn [toy_k proj1_sig] in H. subst b. f_equal.
  apply UIP_dec. decide equality.
Qed.

Lemma toy_k_pt : forall k, toy_k (toy_pt k) = k mod qmod.
Proof.
  intro k. unfold toy_k, toy_pt, proj1_sig, toy_red, toy_ok. pose proof qmod_pos.
  destruct ((0 <=? k) && (k <? qmod)) eqn:E1.
  - apply andb_true_iff in E1 as [E1 E2]. symmetry. apply Z.mod_small. lia.
  - destruct ((0 <=? k - qmod) && (k - qmod <? qmod)) eqn:E2; [|reflexivity].
    apply andb_true_iff in E2 as [E2 E3]. apply (Z.mod_unique _ _ 1); [left; lia|ring].
Qed.

Lemma toy_neg_k : forall k, 0 < k < qmod -> (- k) mod qmod = qmod - k.
Proof. intros k H. symmetry. apply (Z.mod_unique _ _ (-1)); [left; lia|ring]. Qed.

Lemma toy_mul_pos : forall k P, pt_mul_pos k P = toy_pt (Z.pos k * toy_k P).
Proof.
  pose proof qmod_pos.
  induction k as [k IH|k IH|]; intro P; cbn [pt_mul_pos].
  - rewrite IH. apply toy_ext. cbn [pt_add toy_curve]. rewrite !toy_k_pt.
    rewrite <- Zplus_mod, Zplus_mod_idemp_r. f_equal. lia.
  - rewrite IH. apply toy_ext. cbn [pt_add toy_curve]. rewrite !toy_k_pt.
    rewrite <- Zplus_mod. f_equal. lia.
  - apply toy_ext. rewrite toy_k_pt. rewrite Z.mul_1_l. symmetry. apply Z.mod_small. apply toy_k_range.
Qed.

Theorem toy_laws : CurveLaws toy_curve.
Proof.
  pose proof qmod_pos as Hq. pose proof toy_half_spec as HH. pose proof toy_half_lt as HL.
  pose proof pmod_gt_4 as H4. pose proof pmod_odd as Hodd.
  constructor; cbn [point pt_eqb pt_id pt_add pt_neg pt_x pt_y pt_decode toy_curve].
  - intros P Q. rewrite Z.eqb_eq. split; [apply toy_ext | congruence].
  - intros. rewrite Z.add_comm. reflexivity.
  - intros. apply toy_ext. rewrite !toy_k_pt, Zplus_mod_idemp_r, Zplus_mod_idemp_l, Z.add_assoc. reflexivity.
  - intros P. apply toy_ext. rewrite !toy_k_pt. rewrite Z.mod_0_l by lia. rewrite Z.add_0_r.
    apply Z.mod_small. apply toy_k_range.
  - intro P. apply toy_ext. rewrite !toy_k_pt, Zplus_mod_idemp_r, Z.add_opp_diag_r. reflexivity.
  - intro P. destruct qmod as [|q|q] eqn:E; try lia. cbn [pt_mul]. rewrite toy_mul_pos.
    apply toy_ext. rewrite !toy_k_pt. rewrite E. rewrite Z.mul_comm, Z_mod_mult. reflexivity.
  - intro P. unfold toy_x. pose proof (toy_k_range P). destruct (Z.leb_spec (toy_k P) toy_half); lia.
  - intro P. unfold toy_y. destruct (toy_k P =? 0), (toy_k P <=? toy_half); lia.
  - intro P. unfold toy_x. pose proof (toy_k_range P). split; intro H0.
    + apply toy_ext. rewrite toy_k_pt, Z.mod_0_l by lia. destruct (Z.leb_spec (toy_k P) toy_half); lia.
    + subst. rewrite toy_k_pt, Z.mod_0_l by lia. destruct (Z.leb_spec 0 toy_half); lia.
  - intro P. unfold toy_y. pose proof (toy_k_range P). split; intro H0.
    + apply toy_ext. rewrite toy_k_pt, Z.mod_0_l by lia.
      destruct (Z.eqb_spec (toy_k P) 0); [assumption|].
      destruct (Z.leb_spec (toy_k P) toy_half); lia.
    + subst. rewrite toy_k_pt, Z.mod_0_l by lia. reflexivity.
  - intro P. unfold toy_x. pose proof (toy_k_range P). rewrite toy_k_pt.
    destruct (Z.eq_dec (toy_k P) 0) as [->|].
    + cbn [Z.opp]. rewrite Z.mod_0_l by lia. reflexivity.
    + rewrite toy_neg_k by lia.
      destruct (Z.leb_spec (toy_k P) toy_half), (Z.leb_spec (qmod - toy_k P) toy_half); lia.
  - intro P. unfold toy_y. pose proof (toy_k_range P). rewrite toy_k_pt.
    destruct (Z.eq_dec (toy_k P) 0) as [->|].
    + cbn [Z.opp]. rewrite !Z.mod_0_l by lia. reflexivity.
    + rewrite toy_neg_k by lia.
      rewrite (proj2 (Z.eqb_neq _ _)) by lia. rewrite (proj2 (Z.eqb_neq (toy_k P) 0)) by lia.
      destruct (Z.leb_spec (toy_k P) toy_half), (Z.leb_spec (qmod - toy_k P) toy_half); try lia.
      * apply (Z.mod_unique _ _ (-1)); [left; lia|ring].
      * apply (Z.mod_unique _ _ (-1)); [left; lia|ring].
  - intros P Q. unfold toy_x. pose proof (toy_k_range P). pose proof (toy_k_range Q). intro HX.
    destruct (Z.eq_dec (toy_k P) (toy_k Q)); [left; apply toy_ext; assumption|right].
    apply toy_ext. rewrite toy_k_pt.
    destruct (Z.leb_spec (toy_k P) toy_half), (Z.leb_spec (toy_k Q) toy_half); try lia;
      rewrite toy_neg_k; lia.
  - intro P. pose proof (toy_k_range P) as HK.
    assert (HX : 0 <= toy_x P < 2 ^ 255).
    { unfold toy_x. pose proof qmod_lt_pow255. destruct (Z.leb_spec (toy_k P) toy_half); lia. }
    assert (HE : le_val (pt_encode P) = toy_x P + 2 ^ 255 * (toy_y P mod 2)).
    { unfold pt_encode. cbn [pt_x pt_y toy_curve]. apply le_val_le_bytes. rewrite pow256_32.
      pose proof (Z.mod_pos_bound (toy_y P) 2). nia. }
    unfold toy_decode. rewrite HE.
    replace ((toy_x P + 2 ^ 255 * (toy_y P mod 2)) / 2 ^ 255) with (toy_y P mod 2)
      by (apply (Z.div_unique_pos _ _ _ (toy_x P)); lia).
    replace ((toy_x P + 2 ^ 255 * (toy_y P mod 2)) mod 2 ^ 255) with (toy_x P)
      by (apply (Z.mod_unique_pos _ _ (toy_y P mod 2)); lia).
    assert (HY1 : toy_k P <> 0 -> toy_k P <= toy_half -> toy_y P mod 2 = 0).
    { intros. unfold toy_y. rewrite (proj2 (Z.eqb_neq _ _)) by lia.
      rewrite (proj2 (Z.leb_le _ _)) by lia. reflexivity. }
    assert (HY2 : toy_half < toy_k P -> toy_y P mod 2 = 1).
    { intros. unfold toy_y. rewrite (proj2 (Z.eqb_neq _ _)) by lia.
      rewrite (proj2 (Z.leb_gt _ _)) by lia. Z.div_mod_to_equations. lia. }
    destruct (Z.eqb_spec (toy_x P) 0) as [H0|H0].
    + assert (HK0 : toy_k P = 0).
      { unfold toy_x in H0. destruct (Z.leb_spec (toy_k P) toy_half); lia. }
      unfold toy_y. rewrite HK0. cbn [Z.eqb]. change (0 mod 2 =? 0) with true. cbn iota. f_equal.
      apply toy_ext. rewrite toy_k_pt, HK0. apply Z.mod_0_l. lia.
    + unfold toy_x in *. destruct (Z.leb_spec (toy_k P) toy_half) as [HP|HP].
      * rewrite (proj2 (Z.leb_le _ _)) by lia. rewrite HY1 by lia. cbn [Z.eqb]. f_equal.
        apply toy_ext. rewrite toy_k_pt. apply Z.mod_small. lia.
      * rewrite (proj2 (Z.leb_le _ _)) by lia. rewrite HY2 by lia. cbn [Z.eqb]. f_equal.
        apply toy_ext. rewrite toy_k_pt. rewrite Z.mod_small; lia.
  - intros b P Hlen HD.
    pose proof (le_val_range b) as HV. rewrite Hlen, pow256_32 in HV.
    unfold toy_decode in HD.
    set (v := le_val b) in *. set (s := v / 2 ^ 255) in *. set (x := v mod 2 ^ 255) in *.
    assert (Hv : v = x + 2 ^ 255 * s).
    { unfold x, s. rewrite (Z.div_mod v (2 ^ 255)) at 1 by lia. lia. }
    assert (Hs : s = 0 \/ s = 1).
    { unfold s. assert (0 <= v / 2 ^ 255 < 2); [|lia]. split.
      - apply Z.div_pos; lia.
      - apply Z.div_lt_upper_bound; lia. }
    assert (Hx : 0 <= x < 2 ^ 255) by (unfold x; apply Z.mod_pos_bound; lia).
    apply le_val_inj; [rewrite Hlen; apply le_bytes_length|].
    fold v. rewrite Hv. unfold pt_encode. cbn [pt_x pt_y toy_curve].
    assert (G : toy_x P = x /\ toy_y P mod 2 = s).
    { destruct (Z.eqb_spec x 0) as [H0|H0].
      - destruct (Z.eqb_spec s 0); [|discriminate]. injection HD as <-.
        unfold toy_x, toy_y. rewrite toy_k_pt, Z.mod_0_l by lia. cbn [Z.eqb].
        rewrite (proj2 (Z.leb_le 0 toy_half)) by lia. split; [lia|]. rewrite e. reflexivity.
      - destruct (Z.leb_spec x toy_half) as [Hxh|]; [|discriminate]. injection HD as <-.
        destruct (Z.eqb_spec s 0) as [Hs0|Hs1].
        + unfold toy_x, toy_y. rewrite toy_k_pt, Z.mod_small by lia.
          rewrite (proj2 (Z.leb_le _ _)) by lia. rewrite (proj2 (Z.eqb_neq _ _)) by lia.
          rewrite Hs0. split; reflexivity.
        + unfold toy_x, toy_y. rewrite toy_k_pt, Z.mod_small by lia.
          rewrite (proj2 (Z.leb_gt _ _)) by lia. rewrite (proj2 (Z.eqb_neq _ _)) by lia.
          split; [lia|]. destruct Hs as [|Hs]; [contradiction|]. rewrite Hs.
          Z.div_mod_to_equations. lia. }
    destruct G as [-> ->]. apply le_val_le_bytes. rewrite pow256_32. lia.
Qed.
