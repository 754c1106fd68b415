(** hash_to_curve always lands on Pallas: SWU gives points of iso-Pallas, addition stays there, and the
    isogeny maps to Pallas. *)
From Coq Require Import String ZArith List Bool Lia Znumtheory Zpow_facts Field Ring.
From Coq Require Import Init.Byte.
From Verif Require Import Prelude Fields Curve PreludeFacts NumTheory CurveFacts PallasCurve PallasFacts PallasOrder
  PallasLaws PallasUse Weierstrass IsoField Blake2b HashToCurve FastMod PallasOrder.
Import ListNotations.
Open Scope Z_scope.

(** * Euler's criterion *)
Definition half : Z := (pmod - 1) / 2.
Lemma half_spec : 2 * half = pmod - 1 /\ 0 < half /\ half = sqrt_t * 2 ^ Z.of_nat 31.
Proof. vm_compute. auto. Qed.
#[local] Opaque half sqrt_t sqrt_loop fsqrt.

Lemma euler_cases : forall a, 0 < a < pmod -> a ^ half mod pmod = 1 \/ a ^ half mod pmod = pmod - 1.
Proof.
  intros a Ha. destruct half_spec as (H1 & H2 & _). pose proof pmod_gt_5.
  apply square_one; [apply Z.mod_pos_bound; lia|].
  rewrite <- Zmult_mod, <- Z.pow_add_r by lia. replace (half + half) with (pmod - 1) by lia.
  apply fermat; [exact prime_pmod|]. apply prime_not_div_small; [exact prime_pmod|lia].
Qed.

Lemma fsqrt_euler : forall a, 0 <= a < pmod -> a ^ half mod pmod = 1 -> exists r, fsqrt a = Some r.
Proof.
  intros a Ha HE. pose proof pmod_gt_5 as H5. destruct sqrt_t_spec as (ET & HT & Hodd).
  destruct sqrt_root_spec as [HR HR']. destruct half_spec as (_ & _ & HH).
  rewrite fsqrt_candidate. unfold sqrt_candidate.
  remember ((sqrt_t - 1) / 2) as h eqn:Eh. clear Eh.
  assert (Hh : 0 <= h) by (clear - HT Hodd; lia).
  set (w := fpow a h). set (z := fmul a w). set (t := fmul z w).
  assert (Ew : w = a ^ h mod pmod) by apply fpow_spec.
  assert (Et : t = a ^ sqrt_t mod pmod).
  { unfold t, z, fmul. rewrite Zmult_mod_idemp_l. rewrite Ew.
    rewrite <- Z.mul_assoc. rewrite <- Zmult_mod_idemp_r. rewrite <- Zmult_mod. rewrite Zmult_mod_idemp_r.
    rewrite <- Z.pow_add_r by exact Hh. rewrite <- Z.pow_succ_r by (clear - Hh; lia).
    f_equal. f_equal. clear - Hodd. lia. }
  destruct (sqrt_loop_spec 31 a z t sqrt_root) as [S1 S2].
  - apply fmul_range.
  - apply fmul_range.
  - exact HR.
  - unfold t, z, fmul. rewrite !Zmult_mod_idemp_l, !Zmult_mod_idemp_r. f_equal. ring.
  - rewrite Et. assert (HN : 0 <= 2 ^ Z.of_nat 31) by discriminate.
    remember (2 ^ Z.of_nat 31) as N eqn:EN. clear - HN HT HE HH H5.
    rewrite pow_mod_l by lia. rewrite <- Z.pow_mul_r by lia. rewrite <- HH. exact HE.
  - exact HR'.
  - remember (sqrt_loop 31 z t sqrt_root) as s eqn:Es. clear - S1. exists s.
    change (fmul s s) with (s * s mod pmod). rewrite S1, Z.eqb_refl. reflexivity.
Qed.

(** A product of an even number of non-squares is a square. *)
Lemma euler_mul : forall a b ea eb, a ^ half mod pmod = ea -> b ^ half mod pmod = eb ->
  (a * b mod pmod) ^ half mod pmod = ea * eb mod pmod.
Proof.
  intros a b ea eb Ha Hb. destruct half_spec as (_ & H & _). pose proof pmod_pos. rewrite pow_mod_l by lia.
  rewrite Z.pow_mul_l, Zmult_mod, Ha, Hb. reflexivity.
Qed.

#[local] Transparent sqrt_loop.
Lemma sqrt_loop_0 : forall n t c, sqrt_loop n 0 t c = 0.
Proof.
  induction n as [|n IH]; intros t c; cbn [sqrt_loop]; [reflexivity|]. cbv zeta.
  destruct (fsquare_n n t =? 1); apply IH.
Qed.
#[local] Opaque sqrt_loop.
Lemma fsqrt_0 : fsqrt 0 = Some 0.
Proof.
  rewrite fsqrt_candidate. unfold sqrt_candidate. change (fmul 0 (fpow 0 ((sqrt_t - 1) / 2))) with 0.
  rewrite sqrt_loop_0. reflexivity.
Qed.
#[local] Opaque sqrt_candidate.

Lemma fsqrt_none : forall a, 0 <= a < pmod -> fsqrt a = None -> 0 < a /\ a ^ half mod pmod = pmod - 1.
Proof.
  intros a Ha HN. assert (H0 : 0 < a).
  { destruct (Z.eq_dec a 0) as [->|]; [|lia]. rewrite fsqrt_0 in HN. discriminate HN. }
  split; [assumption|]. destruct (euler_cases a) as [E|E]; [lia| |assumption].
  destruct (fsqrt_euler a Ha E) as [r Hr]. congruence.
Qed.

Lemma even_power : forall c n, 0 <= n -> (- c) ^ (2 * n) = c ^ (2 * n).
Proof. intros c n Hn. rewrite !Z.pow_mul_r by lia. f_equal. ring. Qed.
Lemma minus_power : forall c z m h n, 0 < m -> z mod m = (- c) mod m -> h = 2 * n -> 0 <= n ->
  z ^ h mod m = c ^ h mod m.
Proof.
  intros c z m h n Hm Hz -> Hn. rewrite <- (pow_mod_l z) by lia. rewrite Hz. rewrite pow_mod_l by lia.
  rewrite even_power by assumption. reflexivity.
Qed.
Lemma half_even : half = 2 * (sqrt_t * 2 ^ Z.of_nat 30) /\ 0 <= sqrt_t * 2 ^ Z.of_nat 30.
Proof. vm_compute. split; [reflexivity|discriminate]. Qed.
Lemma swu_z_minus : swu_z mod pmod = (- 13) mod pmod.
Proof. vm_compute. reflexivity. Qed.
Lemma euler_13' : 13 ^ half mod pmod = pmod - 1.
Proof.
  pose proof euler_13 as H. apply andb_true_iff in H as [H _]. apply andb_true_iff in H as [H _].
  apply Z.eqb_eq in H. pose proof pmod_gt_5. rewrite fast_p_ok, (fast_pow_mod fold_p pmod) in H; [exact H|reflexivity|reflexivity|vm_compute; discriminate].
Qed.
Lemma swu_z_euler : swu_z ^ half mod pmod = pmod - 1.
Proof.
  rewrite (minus_power 13 swu_z pmod half _ pmod_pos swu_z_minus (proj1 half_even) (proj2 half_even)). exact euler_13'.
Qed.

Lemma minus_one_sq : (pmod - 1) * (pmod - 1) mod pmod = 1.
Proof.
  pose proof pmod_gt_5. replace ((pmod - 1) * (pmod - 1)) with (1 + (pmod - 2) * pmod) by ring.
  rewrite Z_mod_plus_full. apply Z.mod_small. lia.
Qed.

(** * Simplified SWU *)
Definition ia : Fp := of_Z iso_a.
Definition ib : Fp := of_Z iso_b.
Definition iz : Fp := of_Z swu_z.
Notation krhs := (wrhs Fp kadd kmul ia ib).

Lemma ia_val : val ia = iso_a. Proof. vm_compute. reflexivity. Qed.
Lemma ib_val : val ib = iso_b. Proof. vm_compute. reflexivity. Qed.
Lemma iz_val : val iz = swu_z. Proof. vm_compute. reflexivity. Qed.
Lemma k1_val : val k1 = 1. Proof. vm_compute. reflexivity. Qed.
Lemma k0_val : val k0 = 0. Proof. vm_compute. reflexivity. Qed.
Lemma ia_nz : ia <> k0.
Proof. intro H. apply (f_equal val) in H. rewrite ia_val, k0_val in H. discriminate H. Qed.
#[local] Opaque ia ib iz k0 k1.

Lemma val_kadd : forall a b, val (kadd a b) = fadd (val a) (val b).
Proof. reflexivity. Qed.
Lemma krhs_val : forall x, val (krhs x) = iso_rhs (val x).
Proof. intro x. unfold wrhs, iso_rhs. rewrite !val_kadd, !val_kmul, ia_val, ib_val. reflexivity. Qed.
Lemma iso_rhs_range : forall x, 0 <= iso_rhs x < pmod.
Proof. intro x. unfold iso_rhs. apply fadd_range. Qed.

(** The x-coordinate of the exceptional case has a point above it. *)
Definition swu_x_exc : Z := 0x2c150731d26bf03de9585bf1a0c67160f6ca6e5ce0e2b674af333253bca63800.
Definition swu_y_exc : Z := 0x333fa3f8cb3bbd6e18f2fba2717db760fa5b179f0e2993f73395bb94a9eabe4.
Lemma swu_exc_ok :
  (fmul (fmul swu_z iso_a) swu_x_exc =? iso_b) && (fmul swu_y_exc swu_y_exc =? iso_rhs swu_x_exc) &&
  forallb (fun x => (0 <? x) && (x <? pmod)) [swu_y_exc; fmul swu_z iso_a; swu_x_exc] = true.
Proof. vm_compute. reflexivity. Qed.

Lemma fdiv_unique : forall n d x, 0 < d < pmod -> 0 <= x < pmod -> fmul d x = n -> fdiv n d = x.
Proof.
  intros n d x Hd Hx H. pose proof (finv_mul d Hd) as HI. unfold fdiv, fmul in *. rewrite <- H.
  rewrite Zmult_mod_idemp_l. replace (d * x * finv d) with (finv d * d * x) by ring.
  rewrite <- Zmult_mod_idemp_l, HI, Z.mul_1_l. apply Z.mod_small. exact Hx.
Qed.

Definition iso_on (x y : Z) : Prop := 0 <= x < pmod /\ 0 <= y < pmod /\ fmul y y = iso_rhs x.

Lemma fopp_sq : forall y, fmul (fopp y) (fopp y) = fmul y y.
Proof.
  intro y. unfold fmul, fopp. rewrite Zmult_mod_idemp_l, Zmult_mod_idemp_r. f_equal. ring.
Qed.
Lemma fopp_range : forall y, 0 <= fopp y < pmod.
Proof. intro y. apply Z.mod_pos_bound, pmod_pos. Qed.

Definition with_sign (u : Z) (p : Z * Z) : Z * Z :=
  let '(x, y) := p in (x, if Z.odd u then (if Z.odd y then y else fopp y) else (if Z.odd y then fopp y else y)).
Lemma with_sign_on : forall u x y, iso_on x y -> iso_on (fst (with_sign u (x, y))) (snd (with_sign u (x, y))).
Proof.
  intros u x y H. unfold with_sign. cbn [fst snd].
  assert (HO : iso_on x (fopp y)).
  { destruct H as (H1 & H2 & H3). repeat split; try apply H1; try apply fopp_range. rewrite fopp_sq. exact H3. }
  destruct (Z.odd u), (Z.odd y); assumption.
Qed.

Definition swu_d (u : Z) : Z := let t := fmul swu_z (fmul u u) in fadd (fmul t t) t.
Definition swu_x1 (u : Z) : Z :=
  if swu_d u =? 0 then fdiv iso_b (fmul swu_z iso_a)
  else fmul (fdiv (fopp iso_b) iso_a) (fadd 1 (finv (swu_d u))).
Definition swu_xy (u : Z) : Z * Z :=
  match fsqrt (iso_rhs (swu_x1 u)) with
  | Some y => (swu_x1 u, y)
  | None => let x2 := fmul (fmul swu_z (fmul u u)) (swu_x1 u) in
            (x2, match fsqrt (iso_rhs x2) with Some y => y | None => 0 end)
  end.
Lemma swu_map_eq : forall u, swu_map u = with_sign u (swu_xy u).
Proof. reflexivity. Qed.

Lemma swu_x1_range : forall u, 0 <= swu_x1 u < pmod.
Proof. intro u. unfold swu_x1, fdiv. destruct (swu_d u =? 0); apply fmul_range. Qed.

#[local] Opaque swu_x_exc swu_y_exc iso_rhs.
Lemma swu_exc_sqrt : exists r, fsqrt (iso_rhs (fdiv iso_b (fmul swu_z iso_a))) = Some r.
Proof.
  pose proof swu_exc_ok as H. apply andb_true_iff in H as [H H3]. apply andb_true_iff in H as [H1 H2].
  apply Z.eqb_eq in H1. apply Z.eqb_eq in H2.
  assert (R : forall x, In x [swu_y_exc; fmul swu_z iso_a; swu_x_exc] -> 0 < x < pmod).
  { intros x Hx. pose proof (proj1 (forallb_forall _ _) H3 x Hx) as B. cbv beta in B.
    apply andb_true_iff in B as [B1 B2]. split; [apply Z.ltb_lt; exact B1|apply Z.ltb_lt; exact B2]. }
  assert (R3 : 0 < swu_x_exc < pmod) by (apply R; right; right; left; reflexivity).
  rewrite (fdiv_unique iso_b (fmul swu_z iso_a) swu_x_exc).
  - apply (fsqrt_complete swu_y_exc); [apply R; left; reflexivity|exact H2].
  - apply R. right. left. reflexivity.
  - clear - R3. lia.
  - exact H1.
Qed.

Lemma fmul_pow : forall a b, fmul a b = a * b mod pmod.
Proof. reflexivity. Qed.

Lemma neg_neg : forall e, e = pmod - 1 -> e * e mod pmod = 1.
Proof. intros e ->. exact minus_one_sq. Qed.

Lemma t_euler : forall u, 0 < u < pmod -> fmul swu_z (fmul u u) ^ half mod pmod = pmod - 1.
Proof.
  intros u Hu. pose proof pmod_gt_5 as H5. unfold fmul at 1. rewrite (euler_mul swu_z (fmul u u) (pmod - 1) 1 swu_z_euler).
  - rewrite Z.mul_1_r. apply Z.mod_small. lia.
  - unfold fmul. destruct (euler_cases u Hu) as [E|E].
    + rewrite (euler_mul u u 1 1 E E). apply Z.mod_small. lia.
    + rewrite (euler_mul u u _ _ E E). exact minus_one_sq.
Qed.

Lemma cube_euler : forall t g, t ^ half mod pmod = pmod - 1 -> g ^ half mod pmod = pmod - 1 ->
  fmul (fmul (fmul t t) t) g ^ half mod pmod = 1.
Proof.
  intros t g Ht Hg. pose proof pmod_gt_5 as H5. unfold fmul.
  assert (E1 : (t * t mod pmod) ^ half mod pmod = 1) by (rewrite (euler_mul t t _ _ Ht Ht); exact minus_one_sq).
  assert (E2 : ((t * t mod pmod) * t mod pmod) ^ half mod pmod = pmod - 1).
  { rewrite (euler_mul _ t _ _ E1 Ht). rewrite Z.mul_1_l. apply Z.mod_small. lia. }
  rewrite (euler_mul _ g _ _ E2 Hg). exact minus_one_sq.
Qed.

(** g(t x1) = t^3 g(x1) on the model's numbers. *)
Lemma swu_second_val : forall t, 0 <= t < pmod -> fadd (fmul t t) t <> 0 ->
  let x1 := fmul (fdiv (fopp iso_b) iso_a) (fadd 1 (finv (fadd (fmul t t) t))) in
  iso_rhs (fmul t x1) = fmul (fmul (fmul t t) t) (iso_rhs x1).
Proof.
  intros t Ht HN x1. pose proof (val_of_small t Ht) as ET. set (T := of_Z t) in *. clearbody T.
  assert (E1 : x1 = val (kmul (kdiv (kopp ib) ia) (kadd k1 (kinv (kadd (kmul T T) T))))).
  { unfold x1. rewrite val_kmul, val_kdiv, val_kopp, val_kadd, val_kinv, val_kadd, val_kmul, ia_val, ib_val, k1_val, ET.
    reflexivity. }
  rewrite E1. rewrite <- ET. rewrite <- !val_kmul, <- !krhs_val, <- val_kmul. f_equal.
  apply (swu_second Fp k0 k1 kadd kmul ksub kopp kdiv kinv Fp_field ia ib T ia_nz).
  intro E. apply HN. apply (f_equal val) in E. rewrite val_kadd, val_kmul, ET, k0_val in E. exact E.
Qed.

Lemma sqrt_on : forall x y, 0 <= x < pmod -> fsqrt (iso_rhs x) = Some y -> iso_on x y.
Proof.
  intros x y Hx H. repeat split; try apply Hx; try apply (fsqrt_range _ _ H).
  pose proof (fsqrt_sound _ _ H) as E. rewrite (Z.mod_small (iso_rhs x)) in E by apply iso_rhs_range. exact E.
Qed.

Lemma swu_xy_on : forall u, 0 <= u < pmod -> iso_on (fst (swu_xy u)) (snd (swu_xy u)).
Proof.
  intros u Hu. unfold swu_xy. destruct (fsqrt (iso_rhs (swu_x1 u))) as [y|] eqn:E; cbn [fst snd].
  - apply sqrt_on; [apply swu_x1_range|assumption].
  - cbv zeta. cbn [fst snd]. set (t := fmul swu_z (fmul u u)).
    assert (HR : exists r, fsqrt (iso_rhs (fmul t (swu_x1 u))) = Some r).
    { unfold swu_x1 in *. destruct (swu_d u =? 0) eqn:D.
      - destruct swu_exc_sqrt as [r Hr]. congruence.
      - apply Z.eqb_neq in D. unfold swu_d in *. cbv zeta in *. fold t in D, E |- *.
        assert (Hu0 : 0 < u).
        { destruct (Z.eq_dec u 0) as [->|]; [|lia]. exfalso. apply D. vm_compute. reflexivity. }
        apply fsqrt_euler; [apply iso_rhs_range|].
        rewrite swu_second_val; [|apply fmul_range|assumption].
        apply cube_euler; [apply t_euler; lia|]. apply fsqrt_none; [apply iso_rhs_range|assumption]. }
    destruct HR as [r Hr]. rewrite Hr. apply sqrt_on; [apply fmul_range|assumption].
Qed.

Lemma swu_map_on : forall u, 0 <= u < pmod -> iso_on (fst (swu_map u)) (snd (swu_map u)).
Proof.
  intros u Hu. rewrite swu_map_eq. pose proof (swu_xy_on u Hu) as H. destruct (swu_xy u) as [x y].
  apply with_sign_on. exact H.
Qed.

(** * Addition on iso-Pallas *)
Definition iso_ok (P : option (Z * Z)) : Prop := match P with None => True | Some (x, y) => iso_on x y end.

Lemma iso_on_k : forall X Y, iso_on (val X) (val Y) <-> kmul Y Y = krhs X.
Proof.
  intros X Y. unfold iso_on. rewrite <- val_kmul, <- krhs_val. split.
  - intros (_ & _ & H). apply val_inj. exact H.
  - intro H. split; [apply val_range|]. split; [apply val_range|]. rewrite H. reflexivity.
Qed.
Lemma lift : forall x y, iso_on x y -> exists X Y, x = val X /\ y = val Y /\ kmul Y Y = krhs X.
Proof.
  intros x y H. destruct H as (Hx & Hy & H). exists (of_Z x), (of_Z y).
  pose proof (val_of_small x Hx) as Ex. pose proof (val_of_small y Hy) as Ey.
  split; [auto|]. split; [auto|]. apply iso_on_k. rewrite Ex, Ey. repeat split; try assumption; try apply Hx; apply Hy.
Qed.

Lemma third_val : forall L X1 Y1 X2, third_point (val L) (val X1) (val Y1) (val X2) =
  (val (ksub (ksub (kmul L L) X1) X2), val (ksub (kmul L (ksub X1 (ksub (ksub (kmul L L) X1) X2))) Y1)).
Proof.
  intros. unfold third_point. cbv zeta. rewrite !val_ksub, !val_kmul, !val_ksub, !val_kmul. reflexivity.
Qed.

Lemma ksub_nz : forall a b, a <> b -> ksub b a <> k0.
Proof.
  intros a b H E. apply H. transitivity (ksub b (ksub b a)); [|rewrite E].
  - apply val_inj. unfold ksub, of_Z. cbn [val proj1_sig]. rewrite Zminus_mod_idemp_r.
    replace (val b - (val b - val a)) with (val a) by ring. symmetry. apply Z.mod_small, val_range.
  - apply val_inj. rewrite val_ksub, k0_val. unfold fsub. rewrite Z.sub_0_r. apply Z.mod_small, val_range.
Qed.

Add Field Fp_field_dec : Fp_field.
Lemma kmul_zero : forall a b, kmul a b = k0 -> a = k0 \/ b = k0.
Proof.
  intros a b H. destruct (keqb a k0) eqn:E; [left; apply keqb_spec; exact E|right].
  assert (N : a <> k0) by (intro Z; apply keqb_spec in Z; congruence).
  transitivity (kdiv (kmul a b) a); [field; exact N|]. rewrite H. field. exact N.
Qed.
Lemma kadd_zero : forall a b, kadd a b = k0 -> a = kopp b.
Proof. intros a b H. transitivity (ksub (kadd a b) b); [ring|]. rewrite H. ring. Qed.
(** Equal squares: equal up to sign. *)
Lemma square_eq : forall a b, kmul a a = kmul b b -> a = b \/ a = kopp b.
Proof.
  intros a b H. assert (E : kmul (ksub a b) (kadd a b) = k0).
  { transitivity (ksub (kmul a a) (kmul b b)); [ring|]. rewrite H. ring. }
  apply kmul_zero in E. destruct E as [E|E].
  - left. destruct (keqb b a) eqn:B; [symmetry; apply keqb_spec; exact B|].
    exfalso. apply (ksub_nz b a); [intro Z; apply keqb_spec in Z; congruence|exact E].
  - right. apply kadd_zero. exact E.
Qed.

Lemma iso_add_ok : forall P Q, iso_ok P -> iso_ok Q -> iso_ok (iso_add P Q).
Proof.
  intros [[x1 y1]|] [[x2 y2]|] HP HQ; cbn [iso_add]; try assumption. cbn [iso_ok] in HP, HQ.
  destruct (lift x1 y1 HP) as (X1 & Y1 & -> & -> & H1). destruct (lift x2 y2 HQ) as (X2 & Y2 & -> & -> & H2).
  clear HP HQ. change (val X1 =? val X2) with (keqb X1 X2). rewrite <- val_kopp.
  change (val Y1 =? val (kopp Y2)) with (keqb Y1 (kopp Y2)).
  destruct (keqb X1 X2) eqn:EX.
  - apply keqb_spec in EX. subst X2. destruct (keqb Y1 (kopp Y2)) eqn:EY; [exact I|].
    assert (HY : Y1 <> kopp Y2) by (intro Z; apply keqb_spec in Z; congruence).
    assert (E : Y1 = Y2).
    { destruct (square_eq Y1 Y2) as [E|E]; [rewrite H1, H2; reflexivity|exact E|contradiction]. }
    subst Y2. rewrite <- three_val, <- two_val, <- ia_val, <- !val_kmul, <- val_kadd, <- val_kdiv, third_val.
    cbn [iso_ok]. apply iso_on_k.
    apply (tangent_on Fp k0 k1 kadd kmul ksub kopp kdiv kinv Fp_field ia ib X1 Y1); [|exact H1].
    intro Z. apply HY, kadd_zero. rewrite <- Z. ring.
  - assert (HX : X1 <> X2) by (intro Z; apply keqb_spec in Z; congruence).
    rewrite <- !val_ksub, <- val_kdiv, third_val. cbn [iso_ok]. apply iso_on_k.
    apply (chord_on Fp k0 k1 kadd kmul ksub kopp kdiv kinv Fp_field ia ib X1 Y1 X2 Y2); [|exact H1|exact H2].
    apply ksub_nz. exact HX.
Qed.

(** * The isogeny *)
(** The kernel's x-coordinate is 3c with c^3 = 20; the other constants are multiples of c^2. *)
Definition iso_c : Fp := of_Z 0x307178405b53bb2ac645400885491e412d2f9db1bb839356dee5cc51c3e086d1.
Definition k2 := kadd k1 k1.
Definition k3 := kadd (kadd k1 k1) k1.
Definition k5 := kadd k2 k3.
Definition k10 := kmul k5 k2.
#[local] Transparent ia ib k0 k1.
Lemma iso_consts_b :
  (val (kmul (kmul iso_c iso_c) iso_c) =? val (kmul k10 k2)) && (iso_x0 =? val (kmul k3 iso_c)) &&
  (iso_a =? val (kopp (kmul (kmul k10 k3) (kmul iso_c iso_c)))) &&
  (iso_b =? val (kmul (kmul k5 (kadd k10 k1)) (kadd (kmul k10 k2) k3))) &&
  (iso_v =? val (kopp (kmul (kmul k3 k2) (kmul iso_c iso_c)))) && (iso_u =? val (kmul k10 k2)) &&
  (fmul iso_s 3 =? 1) && (5 =? val k5) && (val (of_Z iso_s) =? iso_s) && (val kb =? 5) = true.
Proof. vm_compute. reflexivity. Qed.
#[local] Opaque ia ib k0 k1 kb iso_c k2 k3 k5 k10 iso_s iso_x0 iso_v iso_u iso_a iso_b of_Z.
Lemma iso_consts :
  kmul (kmul iso_c iso_c) iso_c = kmul k10 k2 /\ iso_x0 = val (kmul k3 iso_c) /\
  ia = kopp (kmul (kmul k10 k3) (kmul iso_c iso_c)) /\
  ib = kmul (kmul k5 (kadd k10 k1)) (kadd (kmul k10 k2) k3) /\
  iso_v = val (kopp (kmul (kmul k3 k2) (kmul iso_c iso_c))) /\ iso_u = val (kmul k10 k2) /\
  iso_s = val (kinv k3) /\ kb = k5.
Proof.
  pose proof iso_consts_b as H.
  apply andb_true_iff in H as [H H10]. apply andb_true_iff in H as [H H9]. apply andb_true_iff in H as [H H8].
  apply andb_true_iff in H as [H H7]. apply andb_true_iff in H as [H H6]. apply andb_true_iff in H as [H H5].
  apply andb_true_iff in H as [H H4]. apply andb_true_iff in H as [H H3]. apply andb_true_iff in H as [H1 H2].
  apply Z.eqb_eq in H1, H2, H3, H4, H5, H6, H7, H8, H9, H10.
  split; [apply val_inj; exact H1|]. split; [exact H2|].
  split; [apply val_inj; rewrite ia_val; exact H3|]. split; [apply val_inj; rewrite ib_val; exact H4|].
  split; [exact H5|]. split; [exact H6|]. split; [|apply val_inj; rewrite H10; exact H8].
  assert (E3 : kmul (of_Z iso_s) k3 = k1).
  { apply val_inj. rewrite val_kmul, H9, k1_val. change k3 with (kadd (kadd k1 k1) k1). rewrite three_val. exact H7. }
  rewrite <- H9 at 1. apply (f_equal val).
  assert (N : k3 <> k0).
  { intro Z. apply k1_neq_k0. rewrite <- E3, Z. ring. }
  transitivity (kdiv (kmul (of_Z iso_s) k3) k3); [field; exact N|]. rewrite E3. field. exact N.
Qed.
Lemma k3_nz : k3 <> k0.
Proof. intro H. apply (f_equal val) in H. change k3 with (kadd (kadd k1 k1) k1) in H. rewrite three_val, k0_val in H. discriminate H. Qed.

Definition kiso_X (s v u d X : Fp) : Fp := kmul (kmul s s) (kadd (kadd X (kmul v d)) (kmul u (kmul d d))).
Definition kiso_Y (s v u d Y : Fp) : Fp :=
  kmul (kmul (kmul s s) s) (kmul Y (ksub (ksub k1 (kmul v (kmul d d))) (kmul (kmul (kadd k1 k1) u) (kmul (kmul d d) d)))).
Lemma kiso_X_val : forall s v u d X, val (kiso_X s v u d X) =
  fmul (fmul (val s) (val s)) (fadd (fadd (val X) (fmul (val v) (val d))) (fmul (val u) (fmul (val d) (val d)))).
Proof. reflexivity. Qed.
Lemma kiso_Y_val : forall s v u d Y, val (kiso_Y s v u d Y) =
  fmul (fmul (fmul (val s) (val s)) (val s)) (fmul (val Y) (fsub (fsub 1 (fmul (val v) (fmul (val d) (val d))))
    (fmul (fmul 2 (val u)) (fmul (fmul (val d) (val d)) (val d))))).
Proof. intros. rewrite <- two_val, <- k1_val. reflexivity. Qed.

Definition iso_body (x0 v u s x y : Z) : option (Z * Z) :=
  let d := finv (fsub x x0) in
  let d2 := fmul d d in
  let X := fadd (fadd x (fmul v d)) (fmul u d2) in
  let Y := fmul y (fsub (fsub 1 (fmul v d2)) (fmul (fmul 2 u) (fmul d2 d))) in
  Some (fmul (fmul s s) X, fmul (fmul (fmul s s) s) Y).
Lemma iso_map_some : forall x y, iso_map (Some (x, y)) = if x =? iso_x0 then None else iso_body iso_x0 iso_v iso_u iso_s x y.
Proof. reflexivity. Qed.
#[local] Opaque kiso_X kiso_Y.
Lemma iso_body_val : forall x0 v u s X Y : Fp, iso_body (val x0) (val v) (val u) (val s) (val X) (val Y) =
  zcoords (Some (kiso_X s v u (kinv (ksub X x0)) X, kiso_Y s v u (kinv (ksub X x0)) Y)).
Proof.
  intros. unfold iso_body, zcoords, option_map. cbv zeta. cbn [fst snd].
  rewrite kiso_X_val, kiso_Y_val, val_kinv, val_ksub. reflexivity.
Qed.
#[local] Opaque iso_body.
#[local] Transparent kiso_X kiso_Y.
Lemma kiso_on : forall X Y, kmul Y Y = krhs X -> kmul k3 iso_c <> X ->
  kon (Some (kiso_X (kinv k3) (kopp (kmul (kmul k3 k2) (kmul iso_c iso_c))) (kmul k10 k2) (kinv (ksub X (kmul k3 iso_c))) X,
     kiso_Y (kinv k3) (kopp (kmul (kmul k3 k2) (kmul iso_c iso_c))) (kmul k10 k2) (kinv (ksub X (kmul k3 iso_c))) Y)).
Proof.
  intros X Y H HX. destruct iso_consts as (C1 & C2 & C3 & C4 & C5 & C6 & C7 & C8). rewrite C3, C4 in H.
  unfold on, curve_eq. rewrite C8. unfold kiso_X, kiso_Y.
  exact (isogeny_on Fp k0 k1 kadd kmul ksub kopp kdiv kinv Fp_field iso_c X Y Fp_two_nz k3_nz C1 (ksub_nz _ _ HX) H).
Qed.

Lemma iso_map_ok : forall P, iso_ok P -> coords_ok (iso_map P) = true.
Proof.
  intros [[x y]|] HP; [|reflexivity]. cbn [iso_ok] in HP. destruct (lift x y HP) as (X & Y & -> & -> & H).
  destruct iso_consts as (C1 & C2 & C3 & C4 & C5 & C6 & C7 & C8).
  rewrite iso_map_some. rewrite C2. change (val X =? val (kmul k3 iso_c)) with (keqb X (kmul k3 iso_c)).
  destruct (keqb X (kmul k3 iso_c)) eqn:EX; [reflexivity|].
  assert (HX : kmul k3 iso_c <> X) by (intro Z; symmetry in Z; apply keqb_spec in Z; congruence).
  rewrite C5, C6, C7. rewrite iso_body_val. apply coords_ok_iff. exact (kiso_on X Y H HX).
Qed.

Lemma hash_to_field_range : forall d m, 0 <= fst (hash_to_field d m) < pmod /\ 0 <= snd (hash_to_field d m) < pmod.
Proof. intros. unfold hash_to_field. cbv zeta. cbn [fst snd]. split; apply Z.mod_pos_bound, pmod_pos. Qed.

Theorem hash_to_curve_ok : forall d m, coords_ok (hash_to_curve_coords d m) = true.
Proof.
  intros d m. unfold hash_to_curve_coords. destruct (hash_to_field_range d m) as [H0 H1].
  destruct (hash_to_field d m) as [u0 u1]. cbn [fst snd] in H0, H1.
  apply iso_map_ok, iso_add_ok; cbn [iso_ok].
  - pose proof (swu_map_on u0 H0) as H. destruct (swu_map u0). exact H.
  - pose proof (swu_map_on u1 H1) as H. destruct (swu_map u1). exact H.
Qed.

Theorem hash_to_curve_coords_ok : forall d m, coords (hash_to_curve_real d m) = hash_to_curve_coords d m.
Proof. intros. apply coords_of, hash_to_curve_ok. Qed.
