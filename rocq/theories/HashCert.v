(** Checking one hash_to_curve output from supplied inverses and square roots, without computing them. *)
From Coq Require Import String ZArith List Bool Lia Znumtheory Zpow_facts.
From Coq Require Import Init.Byte.
From Verif Require Import Prelude Fields Curve PreludeFacts NumTheory CurveFacts PallasCurve PallasFacts PallasOrder
  PallasLaws PallasUse Blake2b HashToCurve HashToCurveFacts FastMod.
Import ListNotations.
Open Scope Z_scope.

Record swu_cert := mk_swu_cert {
  sc_e : Z;             (* 1 / (t^2 + t) *)
  sc_w : option Z;      (* a root of Z g(x1) when g(x1) is not a square *)
  sc_y : Z              (* a root of g at the chosen x *)
}.
Record h2c_cert := mk_h2c_cert { hc_0 : swu_cert; hc_1 : swu_cert; hc_l : Z; hc_d : Z }.

(** - iso_b / iso_a. *)
Definition swu_c : Z := 0x3d115d87af7b3324d97cab452a13c1eb7612d2d7211b7b101c3006d89470d7f8.

Lemma swu_c_ok : (fmul iso_a swu_c =? fopp iso_b) && (0 <? iso_a) && (iso_a <? pmod) && (0 <=? swu_c) && (swu_c <? pmod) = true.
Proof. vm_compute. reflexivity. Qed.

Definition in_field (x : Z) : bool := (0 <? x) && (x <? pmod).

Definition swu_checked (u : Z) (c : swu_cert) (k : Z) : option (Z * Z) :=
  let t := fmul swu_z (fmul u u) in
  let d := fadd (fmul t t) t in
  let x1 := fmul k (fadd 1 (sc_e c)) in
  if (fmul d (sc_e c) =? 1) && in_field (sc_e c) && in_field (sc_y c) then
    match sc_w c with
    | None => if fmul (sc_y c) (sc_y c) =? iso_rhs x1 then Some (with_sign u (x1, sc_y c)) else None
    | Some w =>
        let x2 := fmul t x1 in
        if in_field w && (fmul w w =? fmul swu_z (iso_rhs x1)) && (fmul (sc_y c) (sc_y c) =? iso_rhs x2)
        then Some (with_sign u (x2, sc_y c)) else None
    end
  else None.

Lemma in_field_spec : forall x, in_field x = true -> 0 < x < pmod.
Proof. intros x H. unfold in_field in H. apply andb_true_iff in H as [H1 H2]. apply Z.ltb_lt in H1, H2. lia. Qed.

Lemma finv_unique : forall d e, 0 < d < pmod -> 0 < e < pmod -> fmul d e = 1 -> finv d = e.
Proof.
  intros d e Hd He H. transitivity (fdiv 1 d).
  - unfold fdiv, fmul. rewrite Z.mul_1_l. symmetry. apply Z.mod_small, finv_range.
  - apply fdiv_unique; [assumption|lia|assumption].
Qed.

(** Roots of the same number differ by a sign, which [with_sign] fixes. *)
Lemma root_sign : forall y r, 0 < y < pmod -> 0 <= r < pmod -> fmul r r = fmul y y -> r = y \/ r = fopp y.
Proof.
  intros y r Hy Hr H. unfold fmul in H. pose proof pmod_gt_5.
  apply mod_eq_divide in H; [|lia]. replace (r * r - y * y) with ((r - y) * (r + y)) in H by ring.
  apply prime_mult in H; [|exact prime_pmod]. destruct H as [H|H].
  - left. assert (r - y = 0); [|lia]. apply (small_multiple pmod); [lia|assumption|lia].
  - right. assert (E : r + y - pmod = 0).
    { apply (small_multiple pmod); [lia| |lia]. apply Z.divide_sub_r; [assumption|apply Z.divide_refl]. }
    unfold fopp. replace (- y) with (r + (-1) * pmod) by lia. rewrite Z_mod_plus_full. symmetry. apply Z.mod_small. exact Hr.
Qed.

Lemma fopp_odd : forall y, 0 < y < pmod -> Z.odd (fopp y) = negb (Z.odd y).
Proof.
  intros y Hy. pose proof (parity_neg y Hy) as H. rewrite !Zmod_odd in H.
  destruct (Z.odd y), (Z.odd (fopp y)); try reflexivity; discriminate H.
Qed.
Lemma fopp_fopp : forall y, 0 < y < pmod -> fopp (fopp y) = y.
Proof.
  intros y Hy. unfold fopp. pose proof pmod_pos.
  replace (- ((- y) mod pmod)) with (0 - (- y) mod pmod) by ring. rewrite Zminus_mod_idemp_r.
  replace (0 - - y) with y by ring. apply Z.mod_small. lia.
Qed.

Lemma with_sign_root : forall u x y r, 0 < y < pmod -> 0 <= r < pmod -> fmul r r = fmul y y ->
  with_sign u (x, r) = with_sign u (x, y).
Proof.
  intros u x y r Hy Hr H. destruct (root_sign y r Hy Hr H) as [->| ->]; [reflexivity|].
  unfold with_sign. rewrite (fopp_odd y Hy), (fopp_fopp y Hy).
  destruct (Z.odd u), (Z.odd y); reflexivity.
Qed.

Lemma not_sqrt : forall g w, 0 <= g < pmod -> 0 < w < pmod -> fmul w w = fmul swu_z g -> fsqrt g = None.
Proof.
  intros g w Hg Hw H. destruct (fsqrt g) as [r|] eqn:E; [|reflexivity]. exfalso.
  pose proof pmod_gt_5 as H5. pose proof (fsqrt_sound _ _ E) as HS. pose proof (fsqrt_range _ _ E) as HR.
  rewrite (Z.mod_small g) in HS by exact Hg. unfold fmul in H.
  assert (SQ : forall s, 0 < s < pmod -> (s * s mod pmod) ^ half mod pmod = 1).
  { intros s Hs. destruct (euler_cases s Hs) as [X|X].
    - rewrite (euler_mul s s _ _ X X). apply Z.mod_small. lia.
    - rewrite (euler_mul s s _ _ X X). exact minus_one_sq. }
  assert (R0 : r <> 0).
  { intros ->. cbn [Z.mul] in HS. rewrite Z.mod_0_l in HS by lia. subst g. rewrite Z.mul_0_r, Z.mod_0_l in H by lia.
    apply Z.mod_divide in H; [|lia]. apply prime_mult in H; [|exact prime_pmod].
    destruct H as [H|H]; apply Z.divide_pos_le in H; lia. }
  pose proof (SQ w Hw) as E1. rewrite H in E1.
  pose proof (SQ r ltac:(lia)) as E2. rewrite HS in E2.
  rewrite (euler_mul swu_z g _ _ swu_z_euler E2) in E1. rewrite Z.mul_1_r, Z.mod_small in E1 by lia. lia.
Qed.

Lemma swu_checked_sound : forall u c k p, 0 <= u < pmod -> fdiv (fopp iso_b) iso_a = k ->
  swu_checked u c k = Some p -> swu_map u = p.
Proof.
  intros u c k p Hu HK H. unfold swu_checked in H. cbv zeta in H. rewrite swu_map_eq. unfold swu_xy.
  set (t := fmul swu_z (fmul u u)) in *.
  match type of H with (if ?b then _ else _) = _ => destruct b eqn:E0 end; [|discriminate H].
  apply andb_true_iff in E0 as [E0 Ey]. apply andb_true_iff in E0 as [E0 Ee].
  apply Z.eqb_eq in E0. apply in_field_spec in Ey, Ee.
  assert (Hd : 0 < fadd (fmul t t) t < pmod).
  { pose proof (fadd_range (fmul t t) t). destruct (Z.eq_dec (fadd (fmul t t) t) 0) as [Z0|]; [|lia].
    rewrite Z0 in E0. discriminate E0. }
  assert (EX : swu_x1 u = fmul k (fadd 1 (sc_e c))).
  { unfold swu_x1, swu_d. cbv zeta. fold t.
    assert (N : (fadd (fmul t t) t =? 0) = false) by (apply Z.eqb_neq; lia). rewrite N.
    rewrite (finv_unique _ _ Hd Ee E0), HK. reflexivity. }
  rewrite EX. set (x1 := fmul k (fadd 1 (sc_e c))) in *. clearbody x1.
  destruct (sc_w c) as [w|].
  - match type of H with (if ?b then _ else _) = _ => destruct b eqn:E1 end; [|discriminate H].
    apply andb_true_iff in E1 as [E1 E3]. apply andb_true_iff in E1 as [E1 E2].
    apply in_field_spec in E1. apply Z.eqb_eq in E2, E3.
    rewrite (not_sqrt (iso_rhs x1) w (iso_rhs_range x1) E1 E2). cbv zeta.
    destruct (fsqrt_complete (sc_y c) (iso_rhs (fmul t x1)) Ey E3) as [r Hr]. rewrite Hr.
    assert (EP : with_sign u (fmul t x1, sc_y c) = p) by congruence. rewrite <- EP.
    apply with_sign_root; [assumption|apply (fsqrt_range _ _ Hr)|].
    rewrite E3. pose proof (fsqrt_sound _ _ Hr) as HS. rewrite (Z.mod_small (iso_rhs _)) in HS by apply iso_rhs_range. exact HS.
  - match type of H with (if ?b then _ else _) = _ => destruct b eqn:E1 end; [|discriminate H].
    apply Z.eqb_eq in E1.
    destruct (fsqrt_complete (sc_y c) (iso_rhs x1) Ey E1) as [r Hr]. rewrite Hr.
    assert (EP : with_sign u (x1, sc_y c) = p) by congruence. rewrite <- EP.
    apply with_sign_root; [assumption|apply (fsqrt_range _ _ Hr)|].
    rewrite E1. pose proof (fsqrt_sound _ _ Hr) as HS. rewrite (Z.mod_small (iso_rhs _)) in HS by apply iso_rhs_range. exact HS.
Qed.

Definition h2c_checked (dom msg : bytes) (c : h2c_cert) (k : Z) : option (Z * Z) :=
  let (u0, u1) := hash_to_field dom msg in
  match swu_checked u0 (hc_0 c) k, swu_checked u1 (hc_1 c) k with
  | Some (x1, y1), Some (x2, y2) =>
      let (x, y) := third_point (hc_l c) x1 y1 x2 in
      let d := hc_d c in
      if in_field (fsub x2 x1) && (0 <=? hc_l c) && (hc_l c <? pmod) && (fmul (fsub x2 x1) (hc_l c) =? fsub y2 y1) &&
         in_field (fsub x iso_x0) && in_field d && (fmul (fsub x iso_x0) d =? 1) && (0 <=? x1) && (x1 <? pmod) && (0 <=? x2) && (x2 <? pmod)
      then let d2 := fmul d d in
        let X := fadd (fadd x (fmul iso_v d)) (fmul iso_u d2) in
        let Y := fmul y (fsub (fsub 1 (fmul iso_v d2)) (fmul (fmul 2 iso_u) (fmul d2 d))) in
        Some (fmul (fmul iso_s iso_s) X, fmul (fmul (fmul iso_s iso_s) iso_s) Y)
      else None
  | _, _ => None
  end.

(** The same checks with the fast reduction. *)
Definition fast_rhs (x : Z) : Z := fadd (fadd (fast_mul (fast_mul x x) x) (fast_mul iso_a x)) iso_b.
Definition fast_swu (u : Z) (c : swu_cert) (k : Z) : option (Z * Z) :=
  let t := fast_mul swu_z (fast_mul u u) in
  let d := fadd (fast_mul t t) t in
  let x1 := fast_mul k (fadd 1 (sc_e c)) in
  if (fast_mul d (sc_e c) =? 1) && in_field (sc_e c) && in_field (sc_y c) then
    match sc_w c with
    | None => if fast_mul (sc_y c) (sc_y c) =? fast_rhs x1 then Some (with_sign u (x1, sc_y c)) else None
    | Some w =>
        let x2 := fast_mul t x1 in
        if in_field w && (fast_mul w w =? fast_mul swu_z (fast_rhs x1)) && (fast_mul (sc_y c) (sc_y c) =? fast_rhs x2)
        then Some (with_sign u (x2, sc_y c)) else None
    end
  else None.
Definition fast_h2c (dom msg : bytes) (c : h2c_cert) (k : Z) : option (Z * Z) :=
  let (u0, u1) := hash_to_field dom msg in
  match fast_swu u0 (hc_0 c) k, fast_swu u1 (hc_1 c) k with
  | Some (x1, y1), Some (x2, y2) =>
      let (x, y) := fast_third (hc_l c) x1 y1 x2 in
      let d := hc_d c in
      if in_field (fsub x2 x1) && (0 <=? hc_l c) && (hc_l c <? pmod) && (fast_mul (fsub x2 x1) (hc_l c) =? fsub y2 y1) &&
         in_field (fsub x iso_x0) && in_field d && (fast_mul (fsub x iso_x0) d =? 1) && (0 <=? x1) && (x1 <? pmod) && (0 <=? x2) && (x2 <? pmod)
      then let d2 := fast_mul d d in
        let X := fadd (fadd x (fast_mul iso_v d)) (fast_mul iso_u d2) in
        let Y := fast_mul y (fsub (fsub 1 (fast_mul iso_v d2)) (fast_mul (fast_mul 2 iso_u) (fast_mul d2 d))) in
        Some (fast_mul (fast_mul iso_s iso_s) X, fast_mul (fast_mul (fast_mul iso_s iso_s) iso_s) Y)
      else None
  | _, _ => None
  end.
Lemma fast_rhs_ok : forall x, fast_rhs x = iso_rhs x.
Proof. intro x. unfold fast_rhs. rewrite !fast_mul_ok. reflexivity. Qed.
Lemma fast_swu_ok : forall u c k, fast_swu u c k = swu_checked u c k.
Proof.
  intros. unfold fast_swu, swu_checked. cbv zeta. rewrite !fast_mul_ok. destruct (_ && _ && _); [|reflexivity].
  destruct (sc_w c) as [w|]; rewrite ?fast_mul_ok, ?fast_rhs_ok; reflexivity.
Qed.
Lemma fast_h2c_ok : forall dom msg c k, fast_h2c dom msg c k = h2c_checked dom msg c k.
Proof.
  intros. unfold fast_h2c, h2c_checked. destruct (hash_to_field dom msg) as [u0 u1]. rewrite !fast_swu_ok.
  destruct (swu_checked u0 (hc_0 c) k) as [[x1 y1]|]; [|reflexivity]. destruct (swu_checked u1 (hc_1 c) k) as [[x2 y2]|]; [|reflexivity].
  rewrite fast_third_ok. destruct (third_point (hc_l c) x1 y1 x2) as [x y]. cbv zeta. rewrite !fast_mul_ok. reflexivity.
Qed.

Lemma fsub_self : forall x, fsub x x = 0.
Proof. intro x. unfold fsub. rewrite Z.sub_diag. apply Z.mod_0_l. pose proof pmod_pos. lia. Qed.

#[local] Opaque hash_to_field swu_checked third_point fmul fadd fsub in_field iso_x0 iso_v iso_u iso_s fopp pmod.
Lemma h2c_checked_sound : forall dom msg c k p, fdiv (fopp iso_b) iso_a = k ->
  h2c_checked dom msg c k = Some p -> hash_to_curve_coords dom msg = Some p.
Proof.
  intros dom msg c k p HK H. unfold h2c_checked in H. unfold hash_to_curve_coords.
  pose proof (hash_to_field_range dom msg) as [HU0 HU1].
  destruct (hash_to_field dom msg) as [u0 u1]. cbn [fst snd] in HU0, HU1.
  destruct (swu_checked u0 (hc_0 c) k) as [[x1 y1]|] eqn:S1; [|discriminate H].
  destruct (swu_checked u1 (hc_1 c) k) as [[x2 y2]|] eqn:S2; [|discriminate H].
  rewrite (swu_checked_sound u0 _ k _ HU0 HK S1), (swu_checked_sound u1 _ k _ HU1 HK S2). clear S1 S2.
  destruct (third_point (hc_l c) x1 y1 x2) as [x y] eqn:ET.
  match type of H with (if ?b then _ else _) = _ => destruct b eqn:B end; [|discriminate H].
  apply andb_true_iff in B as [B B11]. apply andb_true_iff in B as [B B10]. apply andb_true_iff in B as [B B9].
  apply andb_true_iff in B as [B B8]. apply andb_true_iff in B as [B B7]. apply andb_true_iff in B as [B B6].
  apply andb_true_iff in B as [B B5]. apply andb_true_iff in B as [B B4]. apply andb_true_iff in B as [B B3].
  apply andb_true_iff in B as [B1 B2].
  apply in_field_spec in B1, B5, B6. apply Z.eqb_eq in B4, B7. apply Z.leb_le in B2. apply Z.ltb_lt in B3.
  cbn [iso_add].
  assert (N : (x1 =? x2) = false).
  { apply Z.eqb_neq. intros ->. rewrite fsub_self in B1. lia. }
  rewrite N. rewrite (fdiv_unique _ _ (hc_l c) B1 (conj B2 B3) B4). rewrite ET.
  cbn [iso_map].
  assert (N2 : (x =? iso_x0) = false).
  { apply Z.eqb_neq. intros ->. rewrite fsub_self in B5. lia. }
  rewrite N2, (finv_unique _ _ B5 B6 B7). cbv zeta. exact H.
Qed.
