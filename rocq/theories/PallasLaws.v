(** Square roots, the point encoding, and all the laws of [CurveLaws] for Pallas. *)
From Coq Require Import String ZArith List Bool Lia Znumtheory Zpow_facts.
From Coq Require Import Init.Byte.
From Verif Require Import Prelude Fields Curve PreludeFacts NumTheory CurveFacts PallasCurve PallasFacts PallasOrder FastMod.
Import ListNotations.
Open Scope Z_scope.

(** * Tonelli-Shanks *)
Lemma sqrt_t_spec : pmod - 1 = 2 ^ 32 * sqrt_t /\ 0 < sqrt_t /\ sqrt_t = 2 * ((sqrt_t - 1) / 2) + 1.
Proof. vm_compute. repeat split; reflexivity. Qed.
#[local] Opaque sqrt_t.

Lemma fpow_spec : forall a e, fpow a e = a ^ e mod pmod.
Proof. intros. apply Zpow_mod_correct. pose proof pmod_pos. lia. Qed.

Lemma pow_mod_mul : forall a b, (a * b) mod pmod = ((a mod pmod) * (b mod pmod)) mod pmod.
Proof. intros. apply Zmult_mod. Qed.

Lemma fsquare_n_spec : forall n b, 0 <= b < pmod -> fsquare_n n b = b ^ (2 ^ Z.of_nat n) mod pmod.
Proof.
  induction n as [|n IH]; intros b Hb; cbn [fsquare_n].
  - change (2 ^ Z.of_nat 0) with 1. rewrite Z.pow_1_r. symmetry. apply Z.mod_small. assumption.
  - rewrite IH by apply fmul_range. unfold fmul. rewrite pow_mod_l by (try apply pmod_pos; lia).
    rewrite Nat2Z.inj_succ, Z.pow_succ_r by lia. rewrite Z.pow_mul_r by lia.
    f_equal. f_equal. ring.
Qed.

(** x^2 = 1 only for 1 and -1. *)
Lemma square_one : forall b, 0 <= b < pmod -> b * b mod pmod = 1 -> b = 1 \/ b = pmod - 1.
Proof.
  intros b Hb H. pose proof pmod_gt_5. replace 1 with (1 mod pmod) in H by (apply Z.mod_small; lia).
  apply mod_eq_divide in H; [|lia]. replace (b * b - 1) with ((b - 1) * (b + 1)) in H by ring.
  apply prime_mult in H; [|exact prime_pmod]. destruct H as [H|H].
  - left. assert (b - 1 = 0); [|lia]. apply (small_multiple pmod); [lia|assumption|lia].
  - right. assert (b + 1 - pmod = 0); [|lia]. apply (small_multiple pmod); [lia| |lia].
    apply Z.divide_sub_r; [assumption|apply Z.divide_refl].
Qed.

Lemma sqrt_loop_spec : forall n a z t c, 0 <= z < pmod -> 0 <= t < pmod -> 0 <= c < pmod ->
  z * z mod pmod = a * t mod pmod ->
  t ^ (2 ^ Z.of_nat n) mod pmod = 1 -> c ^ (2 ^ Z.of_nat n) mod pmod = pmod - 1 ->
  let r := sqrt_loop n z t c in r * r mod pmod = a mod pmod /\ 0 <= r < pmod.
Proof.
  pose proof pmod_gt_5 as H5.
  induction n as [|n IH]; intros a z t c Hz Ht Hc HI HT HC; cbn [sqrt_loop]; cbv zeta.
  - change (2 ^ Z.of_nat 0) with 1 in HT. rewrite Z.pow_1_r, Z.mod_small in HT by assumption.
    subst t. rewrite Z.mul_1_r in HI. split; assumption.
  - rewrite Nat2Z.inj_succ, Z.pow_succ_r in HT, HC by lia.
    rewrite fsquare_n_spec by assumption.
    set (e := 2 ^ Z.of_nat n) in *. assert (He : 0 < e) by (apply Z.pow_pos_nonneg; lia).
    assert (HC2 : (fmul c c) ^ e mod pmod = pmod - 1).
    { unfold fmul. rewrite pow_mod_l by lia. rewrite <- HC. rewrite Z.pow_mul_r by lia. f_equal. f_equal. ring. }
    assert (HB : t ^ e mod pmod = 1 \/ t ^ e mod pmod = pmod - 1).
    { apply square_one; [apply Z.mod_pos_bound; lia|].
      rewrite <- Zmult_mod. rewrite <- HT. replace (2 * e) with (e + e) by ring.
      rewrite Z.pow_add_r by lia. reflexivity. }
    destruct (t ^ e mod pmod =? 1) eqn:E.
    + apply Z.eqb_eq in E. apply IH; try assumption. apply fmul_range.
    + apply Z.eqb_neq in E. destruct HB as [HB|HB]; [contradiction|].
      apply IH; try apply fmul_range; try assumption.
      * unfold fmul. rewrite Zmult_mod_idemp_l, !Zmult_mod_idemp_r.
        replace (z * c * (z * c)) with (z * z * (c * c)) by ring.
        rewrite <- Zmult_mod_idemp_l, HI, Zmult_mod_idemp_l.
        rewrite (Z.mul_assoc a t), Zmult_mod_idemp_r. reflexivity.
      * unfold fmul at 1. rewrite pow_mod_l by lia. rewrite Z.pow_mul_l, Zmult_mod, HB, HC2.
        replace ((pmod - 1) * (pmod - 1)) with (1 + (pmod - 2) * pmod) by ring.
        rewrite Z_mod_plus_full. apply Z.mod_small. lia.
Qed.

Lemma euler_5 : 5 ^ ((pmod - 1) / 2) mod pmod = pmod - 1.
Proof. rewrite <- pow_5. symmetry. apply fast_pow_mod; [ring|reflexivity|vm_compute; discriminate]. Qed.

Lemma sqrt_root_spec : 0 <= sqrt_root < pmod /\ sqrt_root ^ (2 ^ Z.of_nat 31) mod pmod = pmod - 1.
Proof.
  pose proof pmod_pos. destruct sqrt_t_spec as (E & HT & _).
  unfold sqrt_root. rewrite fpow_spec. split; [apply Z.mod_pos_bound; lia|].
  rewrite pow_mod_l by (lia || apply Z.pow_nonneg; lia).
  rewrite <- Z.pow_mul_r by lia.
  replace (sqrt_t * 2 ^ Z.of_nat 31) with ((pmod - 1) / 2).
  - exact euler_5.
  - rewrite E. change (2 ^ 32) with (2 * 2 ^ Z.of_nat 31).
    replace (2 * 2 ^ Z.of_nat 31 * sqrt_t) with (sqrt_t * 2 ^ Z.of_nat 31 * 2) by ring.
    apply Z.div_mul. lia.
Qed.

Lemma sqrt_loop_range : forall n z t c, 0 <= z < pmod -> 0 <= sqrt_loop n z t c < pmod.
Proof.
  induction n as [|n IH]; intros z t c Hz; cbn [sqrt_loop]; [assumption|]. cbv zeta.
  destruct (fsquare_n n t =? 1); apply IH; [assumption|apply fmul_range].
Qed.

#[local] Opaque sqrt_loop.

(** The result of the loop in [fsqrt]. *)
Definition sqrt_candidate (a : Z) : Z :=
  sqrt_loop 31 (fmul a (fpow a ((sqrt_t - 1) / 2)))
    (fmul (fmul a (fpow a ((sqrt_t - 1) / 2))) (fpow a ((sqrt_t - 1) / 2))) sqrt_root.
Lemma fsqrt_candidate : forall a, fsqrt a =
  if fmul (sqrt_candidate a) (sqrt_candidate a) =? a mod pmod then Some (sqrt_candidate a) else None.
Proof. intro a. unfold fsqrt, sqrt_candidate. cbv zeta. reflexivity. Qed.
Lemma sqrt_candidate_range : forall a, 0 <= sqrt_candidate a < pmod.
Proof. intro a. unfold sqrt_candidate. apply sqrt_loop_range. apply fmul_range. Qed.
#[local] Opaque fsqrt.

(** The root found squares to the input, and squares have one found. *)
Lemma candidate_case : forall (s a r : Z), (if fmul s s =? a mod pmod then Some s else None) = Some r ->
  s = r /\ r * r mod pmod = a mod pmod.
Proof.
  intros s a r H. destruct (fmul s s =? a mod pmod) eqn:E; [|discriminate H].
  apply Z.eqb_eq in E. assert (s = r) by congruence. subst s. split; [reflexivity|exact E].
Qed.
Lemma fsqrt_sound : forall a r, fsqrt a = Some r -> r * r mod pmod = a mod pmod.
Proof. intros a r H. rewrite fsqrt_candidate in H. exact (proj2 (candidate_case _ _ _ H)). Qed.
Lemma fsqrt_range : forall a r, fsqrt a = Some r -> 0 <= r < pmod.
Proof.
  intros a r H. rewrite fsqrt_candidate in H. rewrite <- (proj1 (candidate_case _ _ _ H)). apply sqrt_candidate_range.
Qed.

Lemma fsqrt_complete : forall y a, 0 < y < pmod -> y * y mod pmod = a -> exists r, fsqrt a = Some r.
Proof.
  intros y a Hy Ha. pose proof pmod_gt_5 as H5. destruct sqrt_t_spec as (ET & HT & Hodd).
  destruct sqrt_root_spec as [HR HR'].
  rewrite fsqrt_candidate. unfold sqrt_candidate.
  remember ((sqrt_t - 1) / 2) as h eqn:Eh. clear Eh.
  assert (Hh : 0 <= h) by (clear - HT Hodd; lia).
  set (w := fpow a h). set (z := fmul a w). set (t := fmul z w).
  assert (Ew : w = a ^ h mod pmod) by apply fpow_spec.
  assert (Et : t = a ^ sqrt_t mod pmod).
  { unfold t, z, fmul. rewrite Zmult_mod_idemp_l. rewrite Ew.
    rewrite <- Z.mul_assoc. rewrite <- Zmult_mod_idemp_r. rewrite <- Zmult_mod. rewrite Zmult_mod_idemp_r.
    rewrite <- Z.pow_add_r by exact Hh. rewrite <- Z.pow_succ_r by (clear - Hh; lia).
    f_equal. f_equal. clear - Hodd. lia. }
  destruct (sqrt_loop_spec 31 a z t sqrt_root) as [S1 S2].
  - apply fmul_range.
  - apply fmul_range.
  - exact HR.
  - unfold t, z, fmul. rewrite !Zmult_mod_idemp_l, !Zmult_mod_idemp_r. f_equal. ring.
  - rewrite Et. clear - Ha Hy ET HT H5.
    assert (HN : 0 <= 2 ^ Z.of_nat 31) by discriminate.
    assert (E2 : 2 ^ 32 = 2 * 2 ^ Z.of_nat 31) by reflexivity.
    remember (2 ^ Z.of_nat 31) as N eqn:EN. clear EN. remember sqrt_t as T eqn:E0. clear E0.
    rewrite E2 in ET. clear E2.
    rewrite pow_mod_l by lia. rewrite <- Z.pow_mul_r by lia.
    assert (HTN : 0 <= T * N) by (apply Z.mul_nonneg_nonneg; lia).
    rewrite <- Ha. rewrite pow_mod_l by lia.
    replace (y * y) with (y ^ 2) by ring. rewrite <- Z.pow_mul_r by lia.
    replace (2 * (T * N)) with (pmod - 1) by lia.
    apply fermat; [exact prime_pmod|]. apply prime_not_div_small; [exact prime_pmod|lia].
  - exact HR'.
  - remember (sqrt_loop 31 z t sqrt_root) as s eqn:Es. clear - S1. exists s.
    change (fmul s s) with (s * s mod pmod). rewrite S1, Z.eqb_refl. reflexivity.
Qed.

#[local] Opaque sqrt_candidate.

(** * Encoding *)
Lemma of_coords_id : forall c, coords_ok c = false -> of_coords c = pallas_id.
Proof.
  intros c H. unfold of_coords. destruct (bool_dec (coords_ok c) true) as [E|N]; [congruence|reflexivity].
Qed.

Lemma rhs_eq : forall P x y, coords P = Some (x, y) -> y * y mod pmod = fadd (fmul (fmul x x) x) 5.
Proof.
  intros [c Hc] x y H. cbn [coords proj1_sig] in H. subst c. cbn [coords_ok] in Hc.
  apply affine_ok_spec in Hc as (_ & _ & E). exact E.
Qed.
Lemma x_nz : forall P x y, coords P = Some (x, y) -> x <> 0.
Proof.
  intros P x y H E. subst x. apply rhs_eq in H. apply (no_sqrt_of_5 y). rewrite H.
  unfold fadd, fmul. cbn [Z.mul]. pose proof pmod_gt_5. rewrite !Z.mod_0_l by lia. cbn [Z.add Z.mul].
  rewrite ?Z.mod_0_l by lia. apply Z.mod_small. lia.
Qed.

Notation penc := (@pt_encode pallas).

Lemma penc_spec : forall P, penc P =
  match coords P with None => le_bytes 32 0 | Some (x, y) => le_bytes 32 (x + 2 ^ 255 * (y mod 2)) end.
Proof. intro P. unfold pt_encode. cbn [pt_x pt_y pallas]. destruct (coords P) as [[x y]|]; reflexivity. Qed.

Lemma split_sign : forall x s, 0 <= x < 2 ^ 255 -> (x + 2 ^ 255 * s) / 2 ^ 255 = s /\ (x + 2 ^ 255 * s) mod 2 ^ 255 = x.
Proof.
  intros x s H. rewrite Z.mul_comm. split.
  - rewrite Z_div_plus_full by lia. rewrite Z.div_small by assumption. ring.
  - rewrite Z_mod_plus_full. apply Z.mod_small. assumption.
Qed.

Lemma parity_neg : forall y, 0 < y < pmod -> fopp y mod 2 = 1 - y mod 2.
Proof.
  intros y H. rewrite fopp_nz by assumption. pose proof pmod_odd as HO.
  pose proof (Z.mod_pos_bound y 2). pose proof (Z.div_mod y 2).
  symmetry. apply (Z.mod_unique _ _ (pmod / 2 - y / 2)); [left; lia|lia].
Qed.

(** What decoding does with a canonical x and a sign. *)
Definition decode_xs (x sign : Z) : option pallas_point :=
  if pmod <=? x then None
  else if (x =? 0) && (sign =? 0) then Some pallas_id
  else
    match fsqrt (fadd (fmul (fmul x x) x) 5) with
    | Some y => Some (of_coords (Some (x, if y mod 2 =? sign then y else fopp y)))
    | None => None
    end.
Lemma decode_unfold : forall b, pallas_decode b = decode_xs (le_val b mod 2 ^ 255) (le_val b / 2 ^ 255).
Proof. reflexivity. Qed.

Lemma fadd_range : forall a b, 0 <= fadd a b < pmod.
Proof. intros. apply Z.mod_pos_bound, pmod_pos. Qed.

Lemma decode_of_point : forall P x y, coords P = Some (x, y) -> decode_xs x (y mod 2) = Some P.
Proof.
  intros P x y H. pose proof (coords_range _ _ _ H) as [HX HY]. pose proof (coords_y_nz _ _ _ H) as NY.
  pose proof (x_nz _ _ _ H) as NX. pose proof (rhs_eq _ _ _ H) as EQ.
  unfold decode_xs. rewrite (proj2 (Z.leb_gt _ _) (proj2 HX)), (proj2 (Z.eqb_neq _ _) NX). cbn [andb].
  destruct (fsqrt_complete y _ (conj (proj2 (Z.le_neq 0 y) (conj (proj1 HY) (not_eq_sym NY))) (proj2 HY)) EQ) as [r Hr].
  rewrite Hr. f_equal. pose proof (fsqrt_sound _ _ Hr) as SR. pose proof (fsqrt_range _ _ Hr) as RR.
  rewrite (Z.mod_small (fadd _ _)) in SR by apply fadd_range.
  assert (HR : r = y \/ r = pmod - y).
  { assert (ok : coords_ok (Some (x, r)) = true) by (cbn [coords_ok]; apply affine_ok_spec; tauto).
    apply (same_x_coords (exist _ _ ok) P x r y eq_refl H). }
  assert (NR : r <> 0) by lia.
  apply coords_inj.
  assert (E : (if r mod 2 =? y mod 2 then r else fopp r) = y).
  { destruct HR as [-> | HR].
    - rewrite Z.eqb_refl. reflexivity.
    - assert (PR : r mod 2 = 1 - y mod 2) by (rewrite HR, <- fopp_nz, parity_neg by lia; reflexivity).
      rewrite PR. pose proof (Z.mod_pos_bound y 2).
      rewrite (proj2 (Z.eqb_neq _ _)) by lia. rewrite fopp_nz by lia. lia. }
  rewrite E, coords_of; [symmetry; assumption|]. rewrite <- H. destruct P as [c Hc]. exact Hc.
Qed.

Lemma pallas_decode_encode : forall P : pallas_point, pallas_decode (penc P) = Some P.
Proof.
  intro P. rewrite decode_unfold, penc_spec. destruct (coords P) as [[x y]|] eqn:E.
  - pose proof (coords_range _ _ _ E) as [HX HY]. pose proof pmod_lt_pow255 as H255.
    pose proof (Z.mod_pos_bound y 2). pose proof pow256_32 as H256.
    rewrite le_val_le_bytes by (rewrite H256; lia).
    destruct (split_sign x (y mod 2)) as [-> ->]; [lia|]. apply decode_of_point. assumption.
  - assert (P = pallas_id) by (apply coords_inj; exact E). subst P.
    rewrite le_val_le_bytes by (rewrite pow256_32; split; [lia|reflexivity]).
    rewrite Z.mod_0_l, Z.div_0_l by lia. unfold decode_xs.
    rewrite (proj2 (Z.leb_gt _ _) pmod_pos). reflexivity.
Qed.

Lemma pallas_encode_decode : forall (b : bytes) (P : pallas_point),
  length b = 32%nat -> pallas_decode b = Some P -> penc P = b.
Proof.
  intros b P HL H. rewrite decode_unfold in H.
  pose proof (le_val_range b) as HV. rewrite HL, pow256_32 in HV.
  pose proof pmod_gt_5 as H5. pose proof pmod_lt_pow255 as H255.
  set (v := le_val b) in *. pose proof (Z.mod_pos_bound v (2 ^ 255)) as HM.
  assert (HS : v / 2 ^ 255 = 0 \/ v / 2 ^ 255 = 1).
  { assert (0 <= v / 2 ^ 255 < 2); [|lia]. split; [apply Z.div_pos; lia|apply Z.div_lt_upper_bound; lia]. }
  pose proof (Z.div_mod v (2 ^ 255)) as HD.
  rewrite <- (le_bytes_le_val 32 b HL). fold v. rewrite penc_spec.
  set (x := v mod 2 ^ 255) in *. set (s := v / 2 ^ 255) in *.
  unfold decode_xs in H. destruct (pmod <=? x) eqn:EX; [discriminate H|]. apply Z.leb_gt in EX.
  destruct ((x =? 0) && (s =? 0)) eqn:E0.
  - apply andb_true_iff in E0 as [E1 E2]. apply Z.eqb_eq in E1, E2.
    assert (P = pallas_id) by congruence. subst P. cbn [coords pallas_id proj1_sig]. f_equal. lia.
  - destruct (fsqrt (fadd (fmul (fmul x x) x) 5)) as [r|] eqn:ER; [|discriminate H].
    pose proof (fsqrt_sound _ _ ER) as SR. pose proof (fsqrt_range _ _ ER) as RR.
    rewrite (Z.mod_small (fadd _ _)) in SR by apply fadd_range.
    assert (HXR : 0 <= x < pmod) by (split; [apply HM; lia|assumption]).
    assert (ok : coords_ok (Some (x, r)) = true) by (cbn [coords_ok]; apply affine_ok_spec; tauto).
    pose proof (coords_y_nz (exist _ _ ok) x r eq_refl) as NR.
    set (y := if r mod 2 =? s then r else fopp r) in *.
    assert (HY : y mod 2 = s /\ coords_ok (Some (x, y)) = true).
    { unfold y. destruct (r mod 2 =? s) eqn:ES.
      - apply Z.eqb_eq in ES. split; assumption.
      - apply Z.eqb_neq in ES. rewrite parity_neg by lia. pose proof (Z.mod_pos_bound r 2). split; [lia|].
        assert (PN : coords (pneg (exist _ _ ok)) = Some (x, fopp r)) by (rewrite coords_neg; reflexivity).
        rewrite <- PN. match goal with |- coords_ok (coords ?Q) = true => destruct Q as [c Hc]; exact Hc end. }
    destruct HY as [HY1 HY2].
    assert (EP : of_coords (Some (x, y)) = P) by congruence. rewrite <- EP, coords_of by assumption.
    rewrite HY1. f_equal. lia.
Qed.

(** Pallas satisfies every law the theorems use. *)
Theorem pallas_laws : CurveLaws pallas.
Proof.
  constructor.
  - exact pallas_eqb_spec.
  - exact pallas_add_comm.
  - exact pallas_add_assoc.
  - exact pallas_add_id.
  - exact pallas_add_neg.
  - exact pallas_order.
  - intro P. cbn [pt_x pallas]. destruct (coords P) as [[x y]|] eqn:E; [|pose proof pmod_pos; lia].
    apply (coords_range P x y E).
  - intro P. cbn [pt_y pallas]. destruct (coords P) as [[x y]|] eqn:E; [|pose proof pmod_pos; lia].
    apply (coords_range P x y E).
  - intro P. cbn [pt_x pt_id pallas]. split.
    + intro H. apply coords_inj. destruct (coords P) as [[x y]|] eqn:E; [|reflexivity].
      exfalso. exact (x_nz P x y E H).
    + intros ->. reflexivity.
  - intro P. cbn [pt_y pt_id pallas]. split.
    + intro H. apply coords_inj. destruct (coords P) as [[x y]|] eqn:E; [|reflexivity].
      exfalso. exact (coords_y_nz P x y E H).
    + intros ->. reflexivity.
  - intro P. change (match coords (pneg P) with None => 0 | Some (x, _) => x end
      = match coords P with None => 0 | Some (x, _) => x end).
    rewrite coords_neg. destruct (coords P) as [[x y]|]; reflexivity.
  - intro P. change (match coords (pneg P) with None => 0 | Some (_, y) => y end
      = (- match coords P with None => 0 | Some (_, y) => y end) mod pmod).
    rewrite coords_neg. destruct (coords P) as [[x y]|]; reflexivity.
  - intros P Q H. change (match coords P with None => 0 | Some (x, _) => x end
      = match coords Q with None => 0 | Some (x, _) => x end) in H. change (P = Q \/ P = pneg Q).
    destruct (coords P) as [[x y]|] eqn:EP, (coords Q) as [[x' y']|] eqn:EQ.
    + subst x'. destruct (same_x_coords P Q x y y' EP EQ) as [-> | E].
      * left. apply coords_inj. congruence.
      * right. apply coords_inj. rewrite coords_neg, EQ, EP. cbn [raw_neg]. rewrite fopp_nz; [congruence|].
        pose proof (coords_range _ _ _ EQ). pose proof (coords_y_nz _ _ _ EQ). lia.
    + exfalso. exact (x_nz P x y EP H).
    + exfalso. exact (x_nz Q x' y' EQ (eq_sym H)).
    + left. apply coords_inj. congruence.
  - exact pallas_decode_encode.
  - exact pallas_encode_decode.
Qed.
