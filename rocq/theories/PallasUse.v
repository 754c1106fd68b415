(** Consequences of [pallas_laws] used by C60. *)
From Coq Require Import String ZArith List Bool Lia Zpow_facts.
From Coq Require Import Init.Byte.
From Verif Require Import Prelude Fields Curve Spec Constants PreludeFacts NumTheory CurveFacts FieldFacts
  PallasCurve PallasFacts PallasOrder PallasLaws FastMod.
Import ListNotations.
Open Scope Z_scope.

Lemma pnmul_mul : forall k P, pnmul k P = @pt_mul pallas (Z.of_nat k) P.
Proof.
  intros [|k] P; [reflexivity|].
  replace (Z.of_nat (S k)) with (Z.pos (Pos.of_succ_nat k)) by reflexivity.
  cbn [pt_mul]. rewrite mul_pos_nmul, SuccNat2Pos.id_succ. reflexivity.
Qed.

Lemma pallas_scalars : forall P : pallas_point,
  exists k, 0 <= k < qmod /\ P = @pt_mul pallas k pallas_generator /\
  forall k', 0 <= k' < qmod -> P = @pt_mul pallas k' pallas_generator -> k' = k.
Proof.
  intro P. destruct (pallas_cyclic P) as (n & E). rewrite pnmul_mul in E.
  pose proof qmod_pos as HQ. exists (Z.of_nat n mod qmod).
  split; [apply Z.mod_pos_bound; lia|]. split.
  - rewrite (mul_mod pallas_laws). exact E.
  - intros k' Hk' E'. pose proof (mul_inj pallas_laws k' (Z.of_nat n) pallas_generator generator_nz) as HI.
    rewrite E in E'. specialize (HI (eq_sym E')). rewrite <- HI. symmetry. apply Z.mod_small. exact Hk'.
Qed.

Lemma of_coords_on_pallas : forall x y, is_base x -> is_base y -> on_pallas x y ->
  coords (of_coords (Some (x, y))) = Some (x, y).
Proof.
  intros x y Hx Hy H. unfold is_base, on_pallas in *. apply coords_of. cbn [coords_ok]. unfold affine_ok.
  assert (E : fmul y y = fadd (fmul (fmul x x) x) 5).
  { unfold fmul, fadd. rewrite H. rewrite Zplus_mod_idemp_l.
    rewrite (Zplus_mod (x * x mod pmod * x)), Zmult_mod_idemp_l, <- Zplus_mod. reflexivity. }
  rewrite E, Z.eqb_refl. rewrite !andb_true_iff. repeat split; try apply Z.leb_le; try apply Z.ltb_lt; lia.
Qed.

Lemma pallas_points : forall x y,
  (exists P : pallas_point, @pt_x pallas P = x /\ @pt_y pallas P = y /\ P <> pallas_id) <->
  is_base x /\ is_base y /\ on_pallas x y.
Proof.
  intros x y. split.
  - intros (P & EX & EY & HP). cbn [pt_x pt_y pallas] in EX, EY.
    destruct (coords P) as [[x' y']|] eqn:E.
    + subst x' y'. destruct (coords_range P x y E) as [HX HY].
      split; [exact HX|]. split; [exact HY|]. unfold on_pallas.
      rewrite (rhs_eq P x y E). unfold fadd, fmul. rewrite Zplus_mod_idemp_l.
      rewrite (Zplus_mod (x * x mod pmod * x)), Zmult_mod_idemp_l, <- Zplus_mod. reflexivity.
    + exfalso. apply HP. apply coords_inj. rewrite E. reflexivity.
  - intros (HX & HY & H). exists (of_coords (Some (x, y))).
    pose proof (of_coords_on_pallas x y HX HY H) as E. cbn [pt_x pt_y pallas]. rewrite E.
    split; [reflexivity|]. split; [reflexivity|]. intro N. rewrite N in E. discriminate E.
Qed.

Lemma pallas_decode_exact : forall (b : bytes) (P : pallas_point), length b = 32%nat ->
  (pallas_decode b = Some P <-> b = @pt_encode pallas P).
Proof.
  intros b P HL. split.
  - intro H. symmetry. exact (pallas_encode_decode b P HL H).
  - intros ->. exact (pallas_decode_encode P).
Qed.

Lemma hard_coded_points_ok :
  Forall (fun g => exists P : pallas_point, P <> pallas_id /\ @pt_x pallas P = fst g /\ @pt_y pallas P = snd g)
    hard_coded_points.
Proof.
  apply Forall_forall. intros [x y] H.
  pose proof (proj1 (Forall_forall _ _) hard_coded_on_curve _ H) as HC. cbv beta in HC.
  destruct (proj2 (pallas_points x y) HC) as (P & E1 & E2 & E3). exists P. auto.
Qed.

(** 2 is not the x-coordinate of a point (13 is not a square), nor the identity's: src/tree.rs:30-36
    uses it for empty leaves. *)
Lemma not_square : forall c e, 2 * e = pmod - 1 -> 0 <= e -> (c ^ e) mod pmod <> 1 -> c mod pmod <> 0 -> forall y, y * y mod pmod <> c.
Proof.
  intros c e He He0 HC NZ y H. apply HC. rewrite <- H. rewrite pow_mod_l by lia.
  replace (y * y) with (y ^ 2) by ring. rewrite <- Z.pow_mul_r by lia. rewrite He.
  apply fermat; [exact prime_pmod|]. intros [k Hk]. apply NZ. rewrite <- H, Hk.
  replace (k * pmod * (k * pmod)) with (k * pmod * k * pmod) by ring. rewrite Z_mod_mult. reflexivity.
Qed.
Lemma euler_13 : (fast_p (fast_pow fold_p 13 ((pmod - 1) / 2)) =? pmod - 1) && (2 * ((pmod - 1) / 2) =? pmod - 1) && (13 <? pmod) = true.
Proof. vm_compute. reflexivity. Qed.
Theorem no_sqrt_of_13 : forall y, y * y mod pmod <> 13.
Proof.
  pose proof euler_13 as H. apply andb_true_iff in H as [H H3]. apply andb_true_iff in H as [H1 H2].
  apply Z.eqb_eq in H1. apply Z.eqb_eq in H2. apply Z.ltb_lt in H3. rewrite fast_p_ok, (fast_pow_mod fold_p pmod) in H1; [|reflexivity|reflexivity|vm_compute; discriminate].
  apply (not_square 13 ((pmod - 1) / 2) H2); [lia| |].
  - rewrite H1. lia.
  - rewrite Z.mod_small by lia. discriminate.
Qed.
Lemma x_not_2 : forall P : pallas_point, @pt_x pallas P <> 2.
Proof.
  intros P H. destruct (coords P) as [[x y]|] eqn:E; cbn [pt_x pallas] in H; rewrite E in H; [|discriminate H].
  subst x. pose proof (rhs_eq P 2 y E) as R. apply (no_sqrt_of_13 y). exact R.
Qed.

(** The double of the generator, from its slope. *)
Lemma generator_double : coords (@pt_add pallas pallas_generator pallas_generator) =
  Some (12664759760331458874453076485325239921471337210849432813230171084403110838275,
        19449452489080454700052938888178047022259553573804486106032048451047634501628).
Proof.
  apply (slope_double_ok pallas_generator (pmod - 1) 2 7237005577332262213973186563042994240840764120485390178988669191087491907585); [exact coords_generator|]. rewrite <- fast_double_ok. vm_compute. reflexivity.
Qed.
