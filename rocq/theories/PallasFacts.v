(** Pallas is a group: field structure of F_p, group law, square roots, encoding. *)
From Coq Require Import String ZArith List Bool Lia Znumtheory Zpow_facts Eqdep_dec Field Ring.
From Coq Require Import Init.Byte.
From Verif Require Import Prelude Fields Curve PreludeFacts NumTheory CurveFacts Weierstrass PallasCurve.
Import ListNotations.
Open Scope Z_scope.

(** * F_p as a type with Leibniz equality *)
Definition fp_ok (x : Z) : bool := (0 <=? x) && (x <? pmod).
Definition Fp : Type := { x : Z | fp_ok x = true }.
Definition val (a : Fp) : Z := proj1_sig a.

Lemma fp_ok_mod : forall x, fp_ok (x mod pmod) = true.
Proof.
  intro x. unfold fp_ok. destruct (Z.mod_pos_bound x pmod pmod_pos) as [H1 H2].
  rewrite (proj2 (Z.leb_le _ _) H1), (proj2 (Z.ltb_lt _ _) H2). reflexivity.
Qed.
Definition of_Z (x : Z) : Fp := exist _ (x mod pmod) (fp_ok_mod x).

Lemma val_inj : forall a b, val a = val b -> a = b.
Proof.
  intros [a Ha] [b Hb] H. cbn [val proj1_sig] in H. subst b. f_equal. apply UIP_dec. decide equality.
Qed.
Lemma val_range : forall a, 0 <= val a < pmod.
Proof. intros [a H]. cbn [val proj1_sig]. unfold fp_ok in H. apply andb_true_iff in H. lia. Qed.
Lemma val_of : forall x, val (of_Z x) = x mod pmod.
Proof. reflexivity. Qed.
Lemma of_val : forall a, of_Z (val a) = a.
Proof. intro a. apply val_inj. rewrite val_of. apply Z.mod_small. apply val_range. Qed.
Lemma val_of_small : forall x, 0 <= x < pmod -> val (of_Z x) = x.
Proof. intros. rewrite val_of. apply Z.mod_small. assumption. Qed.

Definition k0 : Fp := of_Z 0.
Definition k1 : Fp := of_Z 1.
Definition kadd (a b : Fp) : Fp := of_Z (val a + val b).
Definition kmul (a b : Fp) : Fp := of_Z (val a * val b).
Definition ksub (a b : Fp) : Fp := of_Z (val a - val b).
Definition kopp (a : Fp) : Fp := of_Z (- val a).
Definition kinv (a : Fp) : Fp := of_Z (finv (val a)).
Definition kdiv (a b : Fp) : Fp := kmul a (kinv b).
Definition keqb (a b : Fp) : bool := val a =? val b.

Lemma keqb_spec : forall a c, keqb a c = true <-> a = c.
Proof. intros a c. unfold keqb. rewrite Z.eqb_eq. split; [apply val_inj|congruence]. Qed.

Lemma pmod_gt_5 : 5 < pmod. Proof. vm_compute. reflexivity. Qed.

Lemma finv_mul : forall a, 0 < a < pmod -> finv a * a mod pmod = 1.
Proof.
  intros a Ha. pose proof pmod_gt_5 as HP. unfold finv, fpow. rewrite Zpow_mod_correct by lia.
  rewrite Zmult_mod_idemp_l. rewrite Z.mul_comm. rewrite <- Z.pow_succ_r by lia.
  replace (Z.succ (pmod - 2)) with (pmod - 1) by lia.
  apply fermat; [exact prime_pmod|]. apply prime_not_div_small; [exact prime_pmod|lia].
Qed.

Ltac fp :=
  intros; apply val_inj; unfold k0, k1, kadd, kmul, ksub, kopp; rewrite ?val_of;
  rewrite ?Zplus_mod_idemp_l, ?Zplus_mod_idemp_r, ?Zmult_mod_idemp_l, ?Zmult_mod_idemp_r,
    ?Zminus_mod_idemp_l, ?Zminus_mod_idemp_r.

Lemma Fp_ring : ring_theory k0 k1 kadd kmul ksub kopp (@eq Fp).
Proof.
  constructor.
  - fp. rewrite Z.add_0_l. apply Z.mod_small. apply val_range.
  - fp. f_equal. ring.
  - fp. f_equal. ring.
  - fp. rewrite Z.mul_1_l. apply Z.mod_small, val_range.
  - fp. f_equal. ring.
  - fp. f_equal. ring.
  - fp. f_equal. ring.
  - fp. f_equal.
  - fp. f_equal. ring.
Qed.

Lemma k1_neq_k0 : k1 <> k0.
Proof.
  intro H. assert (E : val k1 = val k0) by (rewrite H; reflexivity). unfold k1, k0 in E.
  rewrite !val_of in E. pose proof pmod_gt_5. rewrite !Z.mod_small in E by lia. discriminate E.
Qed.

Lemma Fp_field : field_theory k0 k1 kadd kmul ksub kopp kdiv kinv (@eq Fp).
Proof.
  constructor.
  - exact Fp_ring.
  - exact k1_neq_k0.
  - reflexivity.
  - intros a H. apply val_inj. unfold kmul, kinv, k1. rewrite !val_of. rewrite Zmult_mod_idemp_l.
    pose proof pmod_gt_5. rewrite (Z.mod_small 1) by lia. apply finv_mul.
    pose proof (val_range a). assert (val a <> 0); [|lia].
    intro E. apply H. apply val_inj. unfold k0. rewrite val_of, E. symmetry. apply Z.mod_0_l. lia.
Qed.

Lemma Fp_two_nz : kadd k1 k1 <> k0.
Proof.
  intro H. assert (E : val (kadd k1 k1) = val k0) by (rewrite H; reflexivity). unfold kadd, k1, k0 in E.
  rewrite !val_of in E. pose proof pmod_gt_5. rewrite !Z.mod_small in E by (rewrite ?Z.mod_small; lia). discriminate E.
Qed.

(** * Pallas points as points over F_p *)
Definition kb : Fp := of_Z 5.
Notation kcurve := (curve_eq Fp kadd kmul kb).
Notation kadd_pt := (wadd Fp k1 kadd kmul ksub kopp kdiv keqb).
Notation kneg_pt := (wneg Fp kopp).
Notation kon := (on Fp kadd kmul kb).

Definition kpair (c : Z * Z) : Fp * Fp := (of_Z (fst c), of_Z (snd c)).
Definition kcoords (c : option (Z * Z)) : option (Fp * Fp) := option_map kpair c.
Definition zcoords (c : option (Fp * Fp)) : option (Z * Z) :=
  option_map (fun p => (val (fst p), val (snd p))) c.

Lemma kcoords_zcoords : forall c, kcoords (zcoords c) = c.
Proof. intros [[x y]|]; [|reflexivity]. cbn. unfold kpair. cbn [fst snd]. rewrite !of_val. reflexivity. Qed.

Lemma affine_ok_spec : forall x y, affine_ok x y = true <->
  (0 <= x < pmod /\ 0 <= y < pmod /\ fmul y y = fadd (fmul (fmul x x) x) 5).
Proof.
  intros x y. unfold affine_ok. rewrite !andb_true_iff, !Z.leb_le, !Z.ltb_lt, Z.eqb_eq.
  split; intro H; intuition lia.
Qed.

Lemma kcurve_val : forall x y, kcurve x y <->
  fmul (val y) (val y) = fadd (fmul (fmul (val x) (val x)) (val x)) 5.
Proof.
  intros x y. unfold curve_eq. split; intro H.
  - assert (E : val (kmul y y) = val (kadd (kmul (kmul x x) x) kb)) by (rewrite H; reflexivity).
    change (fmul (val y) (val y) = fadd (fmul (fmul (val x) (val x)) (val x)) (5 mod pmod)) in E.
    rewrite (Z.mod_small 5) in E by (pose proof pmod_gt_5; lia). exact E.
  - apply val_inj.
    change (fmul (val y) (val y) = fadd (fmul (fmul (val x) (val x)) (val x)) (5 mod pmod)).
    rewrite (Z.mod_small 5) by (pose proof pmod_gt_5; lia). exact H.
Qed.

Lemma coords_ok_iff : forall c, coords_ok (zcoords c) = true <-> kon c.
Proof.
  intros [[x y]|]; [|split; reflexivity || (intro; exact I)].
  cbn [zcoords option_map coords_ok fst snd on]. rewrite affine_ok_spec.
  change (on Fp kadd kmul kb (Some (x, y))) with (kcurve x y). rewrite kcurve_val.
  pose proof (val_range x). pose proof (val_range y). intuition lia.
Qed.

Lemma zcoords_kcoords : forall c, coords_ok c = true -> zcoords (kcoords c) = c.
Proof.
  intros [[x y]|] H; [|reflexivity]. cbn [coords_ok] in H. apply affine_ok_spec in H as (H1 & H2 & _).
  cbn [kcoords zcoords option_map kpair fst snd]. rewrite !val_of_small by assumption. reflexivity.
Qed.

Lemma kon_kcoords : forall c, coords_ok c = true -> kon (kcoords c).
Proof. intros c H. apply coords_ok_iff. rewrite zcoords_kcoords; assumption. Qed.

Lemma Fp_no_two_torsion : forall x y, kcurve x y -> y <> k0.
Proof.
  intros x y H E. subst y. apply kcurve_val in H.
  apply (no_cuberoot_of_minus_5 (val x)).
  assert (Z0 : val k0 = 0) by (unfold k0; rewrite val_of; reflexivity || (apply Z.mod_0_l; pose proof pmod_pos; lia)).
  rewrite Z0 in H. unfold fmul, fadd in H. cbn [Z.mul] in H.
  rewrite Zmult_mod_idemp_l in H. rewrite Zplus_mod_idemp_l in H.
  replace (-5) with (0 - 5) by reflexivity.
  rewrite <- (Zminus_mod_idemp_l 0 5). rewrite H. rewrite Zminus_mod_idemp_l. f_equal. ring.
Qed.

Lemma three_val : val (kadd (kadd k1 k1) k1) = 3.
Proof.
  unfold kadd, k1. rewrite !val_of. pose proof pmod_gt_5.
  rewrite (Z.mod_small 1) by lia. rewrite (Z.mod_small (1 + 1)) by lia. apply Z.mod_small. lia.
Qed.
Lemma two_val : val (kadd k1 k1) = 2.
Proof.
  unfold kadd, k1. rewrite !val_of. pose proof pmod_gt_5.
  rewrite (Z.mod_small 1) by lia. apply Z.mod_small. lia.
Qed.

Lemma finv_range : forall a, 0 <= finv a < pmod.
Proof.
  intro a. unfold finv, fpow. pose proof pmod_gt_5. rewrite Zpow_mod_correct by lia.
  apply Z.mod_pos_bound. lia.
Qed.
Lemma val_kinv : forall a, val (kinv a) = finv (val a).
Proof. intro a. unfold kinv. rewrite val_of. apply Z.mod_small, finv_range. Qed.
Lemma val_kdiv : forall a b, val (kdiv a b) = fdiv (val a) (val b).
Proof. intros a b. unfold kdiv, kmul, fdiv, fmul. rewrite val_of, val_kinv. reflexivity. Qed.

Lemma val_kmul : forall a b, val (kmul a b) = fmul (val a) (val b).
Proof. reflexivity. Qed.
Lemma val_ksub : forall a b, val (ksub a b) = fsub (val a) (val b).
Proof. reflexivity. Qed.
Lemma val_kopp : forall a, val (kopp a) = fopp (val a).
Proof. reflexivity. Qed.

Lemma zcoords_third : forall l x1 y1 x2,
  zcoords (Some (third Fp kmul ksub l x1 y1 x2)) = Some (third_point (val l) (val x1) (val y1) (val x2)).
Proof.
  intros. unfold zcoords, third, third_point, option_map. cbv zeta. cbn [fst snd].
  rewrite !val_ksub, !val_kmul, !val_ksub, !val_kmul. reflexivity.
Qed.

Lemma zcoords_add : forall P Q, zcoords (kadd_pt P Q) = raw_add (zcoords P) (zcoords Q).
Proof.
  intros [[x1 y1]|] [[x2 y2]|]; try reflexivity.
  cbn [wadd zcoords option_map raw_add fst snd].
  unfold keqb at 1. destruct (val x1 =? val x2) eqn:E1.
  - unfold keqb at 1. rewrite val_kopp.
    destruct (val y1 =? fopp (val y2)) eqn:E2; [reflexivity|].
    etransitivity; [apply zcoords_third|].
    unfold tangent. rewrite val_kdiv, !val_kmul, three_val, two_val. reflexivity.
  - etransitivity; [apply zcoords_third|].
    unfold chord. rewrite val_kdiv, !val_ksub. reflexivity.
Qed.

Lemma zcoords_neg : forall P, zcoords (kneg_pt P) = raw_neg (zcoords P).
Proof. intros [[x y]|]; reflexivity. Qed.

(** The bridge: points of the model and points over F_p. *)
Definition kpt (P : pallas_point) : option (Fp * Fp) := kcoords (coords P).

Lemma coords_of : forall c, coords_ok c = true -> coords (of_coords c) = c.
Proof.
  intros c H. unfold of_coords. destruct (bool_dec (coords_ok c) true) as [E|N]; [reflexivity|contradiction].
Qed.
Lemma coords_inj : forall P Q, coords P = coords Q -> P = Q.
Proof.
  intros [a Ha] [b Hb] H. cbn [coords proj1_sig] in H. subst b. f_equal. apply UIP_dec. decide equality.
Qed.
Lemma kpt_on : forall P, kon (kpt P).
Proof. intros [c H]. apply kon_kcoords. exact H. Qed.
Lemma zcoords_kpt : forall P, zcoords (kpt P) = coords P.
Proof. intros [c H]. apply zcoords_kcoords. exact H. Qed.
Lemma kpt_inj : forall P Q, kpt P = kpt Q -> P = Q.
Proof. intros P Q H. apply coords_inj. rewrite <- !zcoords_kpt, H. reflexivity. Qed.

Lemma kpt_of : forall c, kon c -> kpt (of_coords (zcoords c)) = c.
Proof.
  intros c H. unfold kpt. rewrite coords_of by (apply coords_ok_iff; assumption). apply kcoords_zcoords.
Qed.

Lemma kpt_add : forall P Q, kpt (@pt_add pallas P Q) = kadd_pt (kpt P) (kpt Q).
Proof.
  intros P Q. cbn [pt_add pallas]. rewrite <- !zcoords_kpt, <- zcoords_add. apply kpt_of.
  apply (wadd_on Fp k0 k1 kadd kmul ksub kopp kdiv kinv Fp_field keqb keqb_spec kb Fp_two_nz Fp_no_two_torsion);
    apply kpt_on.
Qed.
Lemma kpt_neg : forall P, kpt (@pt_neg pallas P) = kneg_pt (kpt P).
Proof.
  intros P. cbn [pt_neg pallas]. rewrite <- zcoords_kpt, <- zcoords_neg. apply kpt_of.
  apply (wneg_on Fp k0 k1 kadd kmul ksub kopp kdiv kinv Fp_field kb). apply kpt_on.
Qed.

Notation padd := (@pt_add pallas).
Notation pneg := (@pt_neg pallas).

Lemma pallas_add_comm : forall P Q : pallas_point, padd P Q = padd Q P.
Proof.
  intros P Q. apply kpt_inj. rewrite !kpt_add.
  apply (wadd_comm Fp k0 k1 kadd kmul ksub kopp kdiv kinv Fp_field keqb keqb_spec kb); apply kpt_on.
Qed.
Lemma pallas_add_assoc : forall P Q R : pallas_point, padd P (padd Q R) = padd (padd P Q) R.
Proof.
  intros P Q R. apply kpt_inj. rewrite !kpt_add.
  apply (wadd_assoc Fp k0 k1 kadd kmul ksub kopp kdiv kinv Fp_field keqb keqb_spec kb Fp_two_nz Fp_no_two_torsion);
    apply kpt_on.
Qed.
Lemma pallas_add_id : forall P : pallas_point, padd P pallas_id = P.
Proof. intro P. apply kpt_inj. rewrite kpt_add. apply wadd_none. Qed.
Lemma pallas_add_neg : forall P : pallas_point, padd P (pneg P) = pallas_id.
Proof.
  intro P. apply kpt_inj. rewrite kpt_add, kpt_neg.
  apply (wadd_neg Fp k0 k1 kadd kmul ksub kopp kdiv kinv Fp_field keqb keqb_spec).
Qed.
