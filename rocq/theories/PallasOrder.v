(** Every point of Pallas has order dividing q: the generator has order q, and a second coset of
    its multiples would need 2q > 2p + 1 points. *)
From Coq Require Import String ZArith List Bool Lia Znumtheory PeanoNat.
From Verif Require Import Prelude Fields Curve PreludeFacts NumTheory CurveFacts Weierstrass PallasCurve PallasFacts PallasSlopes FastMod.
Import ListNotations.
Open Scope Z_scope.

(** * Groups with few elements *)
Section Cyclic.
  Variable T : Type.
  Variables (add : T -> T -> T) (zero : T) (neg : T -> T).
  Hypothesis comm : forall a b, add a b = add b a.
  Hypothesis assoc : forall a b c, add a (add b c) = add (add a b) c.
  Hypothesis add_zero : forall a, add a zero = a.
  Hypothesis add_neg : forall a, add a (neg a) = zero.
  Variable eq_dec : forall a b : T, {a = b} + {a <> b}.

  Fixpoint nmul (n : nat) (a : T) : T :=
    match n with O => zero | S n' => add a (nmul n' a) end.

  Lemma zero_add : forall a, add zero a = a.
  Proof. intro a. rewrite comm. apply add_zero. Qed.

  Lemma nmul_add : forall m n a, nmul (m + n) a = add (nmul m a) (nmul n a).
  Proof.
    induction m as [|m IH]; intros n a; cbn [nmul Nat.add]; [symmetry; apply zero_add|].
    rewrite IH. apply assoc.
  Qed.
  Lemma nmul_zero : forall n, nmul n zero = zero.
  Proof. induction n as [|n IH]; cbn [nmul]; [reflexivity|]. rewrite IH. apply add_zero. Qed.
  Lemma nmul_mul : forall m n a, nmul (m * n) a = nmul m (nmul n a).
  Proof.
    induction m as [|m IH]; intros n a; cbn [nmul Nat.mul]; [reflexivity|].
    rewrite nmul_add, IH. reflexivity.
  Qed.
  Lemma cancel : forall a b c, add a b = add a c -> b = c.
  Proof.
    intros a b c H.
    assert (E : forall x, add (neg a) (add a x) = x).
    { intro x. rewrite assoc, (comm (neg a) a), add_neg. apply zero_add. }
    rewrite <- (E b), H. apply E.
  Qed.

  Variable n : nat.
  Hypothesis n_prime : prime (Z.of_nat n).
  Variable g : T.
  Hypothesis g_nz : g <> zero.
  Hypothesis g_order : nmul n g = zero.

  Lemma coprime_below : forall d, (0 < d < n)%nat -> Nat.gcd d n = 1%nat.
  Proof.
    intros d Hd. destruct (Nat.gcd_divide d n) as [D1 D2].
    destruct D2 as [k2 E2]. destruct D1 as [k1 E1].
    assert (DZ : (Z.of_nat (Nat.gcd d n) | Z.of_nat n)) by (exists (Z.of_nat k2); rewrite <- Nat2Z.inj_mul; congruence).
    set (gd := Nat.gcd d n) in *.
    apply prime_divisors in DZ; [|assumption]. destruct DZ as [E|[E|[E|E]]]; [lia|lia| |lia].
    assert (gd = n) by lia. destruct k1; [lia|]. nia.
  Qed.

  Lemma no_smaller_order : forall d, (0 < d < n)%nat -> nmul d g <> zero.
  Proof.
    intros d Hd H. destruct (Nat.gcd_bezout_pos d n (proj1 Hd)) as (a & b & E).
    rewrite (coprime_below d Hd) in E.
    assert (E' : nmul (a * d) g = nmul (1 + b * n) g) by (rewrite E; reflexivity).
    rewrite nmul_mul, H, nmul_zero, nmul_add, nmul_mul, g_order, nmul_zero, add_zero in E'.
    cbn [nmul] in E'. rewrite add_zero in E'. apply g_nz. symmetry. exact E'.
  Qed.

  Lemma nmul_inj : forall i j, (i < n)%nat -> (j < n)%nat -> nmul i g = nmul j g -> i = j.
  Proof.
    assert (G : forall i j, (i < j)%nat -> (j < n)%nat -> nmul i g = nmul j g -> False).
    { intros i j Hij Hj H. replace j with (i + (j - i))%nat in H by lia. rewrite nmul_add in H.
      rewrite <- (add_zero (nmul i g)) in H at 1. apply cancel in H. symmetry in H.
      revert H. apply no_smaller_order. lia. }
    intros i j Hi Hj H. destruct (Nat.lt_trichotomy i j) as [L|[E|L]]; [exfalso|assumption|exfalso].
    - exact (G i j L Hj H).
    - exact (G j i L Hi (eq_sym H)).
  Qed.

  Definition multiples : list T := map (fun i => nmul i g) (seq 0 n).

  Lemma map_nodup : forall (A B : Type) (f : A -> B) (l : list A),
    (forall x y, In x l -> In y l -> f x = f y -> x = y) -> NoDup l -> NoDup (map f l).
  Proof.
    intros A B f. induction l as [|x l IH]; intros HI HN; cbn [map]; [constructor|].
    inversion HN as [|? ? NI HN']; subst. constructor.
    - intro H. apply in_map_iff in H as (y & E & Hy). apply NI.
      rewrite <- (HI y x); [assumption|right; assumption|left; reflexivity|assumption].
    - apply IH; [|assumption]. intros a b Ha Hb. apply HI; right; assumption.
  Qed.

  Lemma multiples_nodup : NoDup multiples.
  Proof.
    apply map_nodup; [|apply seq_NoDup]. intros i j Hi Hj H.
    apply in_seq in Hi, Hj. apply nmul_inj; [lia|lia|assumption].
  Qed.
  Lemma multiples_length : length multiples = n.
  Proof. unfold multiples. rewrite map_length, seq_length. reflexivity. Qed.

  Lemma in_multiples : forall k, In (nmul k g) multiples.
  Proof.
    assert (Hn : (0 < n)%nat) by (pose proof (prime_ge_2 _ n_prime); lia).
    intro k. apply in_map_iff. exists (k mod n)%nat. split.
    - rewrite (Nat.div_mod k n) at 2 by lia. rewrite nmul_add, Nat.mul_comm, nmul_mul, g_order, nmul_zero.
      symmetry. apply zero_add.
    - apply in_seq. pose proof (Nat.mod_upper_bound k n). lia.
  Qed.

  (** A code for the elements. *)
  Variable code : T -> Z.
  Variable N : Z.
  Hypothesis code_inj : forall a b, code a = code b -> a = b.
  Hypothesis code_range : forall a, 0 <= code a < N.
  Hypothesis N_small : N < 2 * Z.of_nat n.

  Lemma nodup_bound : forall l : list T, NoDup l -> Z.of_nat (length l) <= N.
  Proof.
    intros l H.
    destruct l as [|a0 l0]; [|]; [cbn; pose proof (code_range g); lia|].
    pose proof (code_range a0) as H0. remember (a0 :: l0) as l eqn:El. clear El.
    assert (ND : NoDup (map code l)).
    { apply map_nodup; [|assumption]. intros x y _ _. apply code_inj. }
    assert (IN : incl (map code l) (map Z.of_nat (seq 0 (Z.to_nat N)))).
    { intros z Hz. apply in_map_iff in Hz as (a & <- & _). apply in_map_iff.
      exists (Z.to_nat (code a)). pose proof (code_range a). split; [lia|]. apply in_seq. lia. }
    pose proof (NoDup_incl_length ND IN) as LE. rewrite !map_length, seq_length in LE. lia.
  Qed.

  Lemma all_multiples : forall a, exists k, a = nmul k g.
  Proof.
    intro a. destruct (in_dec eq_dec a multiples) as [H|H].
    - apply in_map_iff in H as (k & E & _). exists k. symmetry. assumption.
    - exfalso.
      assert (ND : NoDup (multiples ++ map (add a) multiples)).
      { assert (G : forall l1 l2 : list T, NoDup l1 -> NoDup l2 -> (forall x, In x l1 -> ~ In x l2) -> NoDup (l1 ++ l2)).
        { induction l1 as [|x l1 IH]; intros l2 N1 N2 D; cbn [app]; [assumption|].
          inversion N1 as [|? ? NI N1']; subst. constructor.
          - intro HI. apply in_app_iff in HI as [HI|HI]; [contradiction|].
            apply (D x); [left; reflexivity|assumption].
          - apply IH; [assumption|assumption|]. intros y Hy. apply D. right; assumption. }
        apply G.
        - apply multiples_nodup.
        - apply map_nodup; [|apply multiples_nodup]. intros x y _ _. apply cancel.
        - intros x H1 H2. apply in_map_iff in H2 as (y & E & Hy).
          apply in_map_iff in H1 as (j & E1 & Hj). apply in_map_iff in Hy as (i & E2 & Hi).
          apply in_seq in Hi, Hj. apply H.
          assert (EA : a = nmul (j + (n - i)) g).
          { rewrite nmul_add, E1, <- E, <- E2. rewrite <- assoc, <- nmul_add.
            replace (i + (n - i))%nat with n by lia. rewrite g_order. symmetry. apply add_zero. }
          rewrite EA. apply in_multiples. }
      pose proof (nodup_bound _ ND) as B. rewrite app_length, map_length, multiples_length in B. lia.
  Qed.

  Lemma order_divides : forall a, nmul n a = zero.
  Proof.
    intro a. destruct (all_multiples a) as [k ->]. rewrite <- nmul_mul, Nat.mul_comm, nmul_mul, g_order.
    apply nmul_zero.
  Qed.
End Cyclic.

(** * The generator has order q *)

(** One step of the check: the tangent at (x, y) or the chord to G, with the slope given. *)
Definition slope_double (l : Z) (P : Z * Z) : option (Z * Z) :=
  let (x, y) := P in
  if (2 * y * l - 3 * x * x) mod pmod =? 0 then Some (third_point l x y x) else None.
Definition slope_add_g (l : Z) (P : Z * Z) : option (Z * Z) :=
  let (x, y) := P in
  if ((x - (pmod - 1)) * l - (y - 2)) mod pmod =? 0 then Some (third_point l (pmod - 1) 2 x) else None.

(** The same steps with the fast reduction. *)
Definition fold_p : Z := 0x224698fc094cf91b992d30ed00000001.
Definition fast_p (x : Z) : Z := fast_red fold_p x mod pmod.
Definition fast_mul (a b : Z) : Z := fast_p (a * b).
Lemma fast_p_ok : forall x, fast_p x = x mod pmod.
Proof. intro x. apply fast_red_mod; reflexivity. Qed.
Lemma fast_mul_ok : forall a b, fast_mul a b = fmul a b.
Proof. intros. apply fast_p_ok. Qed.
Definition fast_third (l x1 y1 x2 : Z) : Z * Z :=
  let x := fast_p (l * l - x1 - x2) in (x, fast_p (l * (x1 - x) - y1)).
Lemma fast_third_ok : forall l x1 y1 x2, fast_third l x1 y1 x2 = third_point l x1 y1 x2.
Proof.
  intros. unfold fast_third, third_point. cbv zeta. rewrite !fast_p_ok. unfold fsub, fmul.
  assert (E : (l * l - x1 - x2) mod pmod = (((l * l) mod pmod - x1) mod pmod - x2) mod pmod).
  { rewrite Zminus_mod_idemp_l. rewrite <- (Zminus_mod_idemp_l ((l * l) mod pmod - x1)), (Zminus_mod_idemp_l (l * l)), Zminus_mod_idemp_l. reflexivity. }
  rewrite <- E. f_equal. rewrite Zmult_mod_idemp_r, Zminus_mod_idemp_l. reflexivity.
Qed.
Definition fast_double (l : Z) (P : Z * Z) : option (Z * Z) :=
  let (x, y) := P in
  if fast_p (2 * y * l - 3 * x * x) =? 0 then Some (fast_third l x y x) else None.
Definition fast_add_g (l : Z) (P : Z * Z) : option (Z * Z) :=
  let (x, y) := P in
  if fast_p ((x - (pmod - 1)) * l - (y - 2)) =? 0 then Some (fast_third l (pmod - 1) 2 x) else None.
Lemma fast_double_ok : forall l P, fast_double l P = slope_double l P.
Proof. intros l [x y]. unfold fast_double, slope_double. rewrite fast_p_ok, fast_third_ok. reflexivity. Qed.
Lemma fast_add_g_ok : forall l P, fast_add_g l P = slope_add_g l P.
Proof. intros l [x y]. unfold fast_add_g, slope_add_g. rewrite fast_p_ok, fast_third_ok. reflexivity. Qed.

Fixpoint slope_run (k : positive) (hints : list Z) : option ((Z * Z) * list Z) :=
  match k with
  | xH => Some ((pmod - 1, 2), hints)
  | xO k' =>
      match slope_run k' hints with
      | Some (P, l :: rest) => option_map (fun Q => (Q, rest)) (fast_double l P)
      | _ => None
      end
  | xI k' =>
      match slope_run k' hints with
      | Some (P, l :: l' :: rest) =>
          match fast_double l P with
          | Some Q => if fst Q =? pmod - 1 then None else option_map (fun R => (R, rest)) (fast_add_g l' Q)
          | None => None
          end
      | _ => None
      end
  end.

Lemma run_ok : slope_run (Z.to_pos (qmod - 1)) order_slopes = Some ((pmod - 1, pmod - 2), []).
Proof. vm_cast_no_check (@eq_refl (option ((Z * Z) * list Z)) (Some ((pmod - 1, pmod - 2), []))). Qed.

Lemma coords_add : forall P Q, coords (padd P Q) = raw_add (coords P) (coords Q).
Proof. intros P Q. rewrite <- zcoords_kpt, kpt_add, zcoords_add, !zcoords_kpt. reflexivity. Qed.
Lemma coords_neg : forall P, coords (pneg P) = raw_neg (coords P).
Proof. intros P. rewrite <- zcoords_kpt, kpt_neg, zcoords_neg, !zcoords_kpt. reflexivity. Qed.

Lemma fdiv_unique : forall a b l, 0 < b < pmod -> (b * l - a) mod pmod = 0 -> fdiv a b = l mod pmod.
Proof.
  intros a b l Hb H. pose proof pmod_pos as HP. unfold fdiv, fmul.
  assert (E : a mod pmod = (b * l) mod pmod).
  { symmetry. apply mod_eq_divide; [lia|]. apply Z.mod_divide; [lia|assumption]. }
  rewrite <- Zmult_mod_idemp_l, E, Zmult_mod_idemp_l.
  replace (b * l * finv b) with (finv b * b * l) by ring.
  rewrite <- Zmult_mod_idemp_l, finv_mul by assumption. f_equal. ring.
Qed.

Lemma third_point_mod : forall l x1 y1 x2, third_point (l mod pmod) x1 y1 x2 = third_point l x1 y1 x2.
Proof.
  intros. unfold third_point. cbv zeta. unfold fmul.
  rewrite !Zmult_mod_idemp_l, !Zmult_mod_idemp_r. reflexivity.
Qed.

Lemma fmul_range : forall a b, 0 <= fmul a b < pmod.
Proof. intros. apply Z.mod_pos_bound, pmod_pos. Qed.
Lemma fsub_range : forall a b, 0 <= fsub a b < pmod.
Proof. intros. apply Z.mod_pos_bound, pmod_pos. Qed.

(** No point has a zero ordinate. *)
Lemma coords_y_nz : forall P x y, coords P = Some (x, y) -> y <> 0.
Proof.
  intros P x y H E. subst y. pose proof (kpt_on P) as HO. unfold kpt in HO. rewrite H in HO.
  exact (Fp_no_two_torsion _ _ HO eq_refl).
Qed.
Lemma coords_range : forall P x y, coords P = Some (x, y) -> 0 <= x < pmod /\ 0 <= y < pmod.
Proof.
  intros [c Hc] x y H. cbn [coords proj1_sig] in H. subst c. cbn [coords_ok] in Hc.
  apply affine_ok_spec in Hc. tauto.
Qed.

Lemma fopp_nz : forall y, 0 < y < pmod -> fopp y = pmod - y.
Proof. intros y H. unfold fopp. symmetry. apply (Z.mod_unique _ _ (-1)); [left; lia|ring]. Qed.

Lemma slope_double_ok : forall P x y l Q, coords P = Some (x, y) -> slope_double l (x, y) = Some Q ->
  coords (padd P P) = Some Q.
Proof.
  intros P x y l Q HP H. unfold slope_double in H.
  destruct ((2 * y * l - 3 * x * x) mod pmod =? 0) eqn:E; [|discriminate H]. apply Z.eqb_eq in E.
  pose proof (coords_range P x y HP) as [HX HY]. pose proof (coords_y_nz P x y HP) as NY.
  pose proof pmod_odd as HO. pose proof pmod_gt_5 as H5.
  rewrite coords_add, HP. cbn [raw_add]. rewrite Z.eqb_refl.
  assert (N : y =? fopp y = false).
  { apply Z.eqb_neq. rewrite fopp_nz by lia. clear E. lia. }
  rewrite N.
  assert (D : fdiv (fmul (fmul 3 x) x) (fmul 2 y) = l mod pmod).
  { apply fdiv_unique.
    - pose proof (fmul_range 2 y) as R. assert (fmul 2 y <> 0); [|lia]. unfold fmul. intro Z0.
      apply Z.mod_divide in Z0; [|lia]. apply prime_mult in Z0; [|exact prime_pmod].
      destruct Z0 as [Z0|Z0]; apply Z.divide_pos_le in Z0; lia.
    - unfold fmul. rewrite Zmult_mod_idemp_l.
      rewrite <- Zminus_mod_idemp_l, Zmult_mod_idemp_l, Zminus_mod_idemp_l, Zminus_mod_idemp_r. exact E. }
  rewrite D, third_point_mod. exact H.
Qed.

Lemma coords_generator : coords pallas_generator = Some (pmod - 1, 2).
Proof. apply coords_of. vm_compute. reflexivity. Qed.

Lemma slope_add_g_ok : forall P x y l Q, coords P = Some (x, y) -> x <> pmod - 1 ->
  slope_add_g l (x, y) = Some Q -> coords (padd pallas_generator P) = Some Q.
Proof.
  intros P x y l Q HP NX H. unfold slope_add_g in H.
  destruct (((x - (pmod - 1)) * l - (y - 2)) mod pmod =? 0) eqn:E; [|discriminate H]. apply Z.eqb_eq in E.
  pose proof (coords_range P x y HP) as [HX HY]. pose proof pmod_pos as H0.
  rewrite coords_add, HP, coords_generator. cbn [raw_add].
  assert (N : pmod - 1 =? x = false) by (apply Z.eqb_neq; congruence). rewrite N.
  assert (D : fdiv (fsub y 2) (fsub x (pmod - 1)) = l mod pmod).
  { apply fdiv_unique.
    - pose proof (fsub_range x (pmod - 1)) as R. assert (fsub x (pmod - 1) <> 0); [|lia]. unfold fsub. intro Z0.
      apply Z.mod_divide in Z0; [|lia]. apply NX. assert (x - (pmod - 1) = 0); [|lia].
      apply (small_multiple pmod); [lia|assumption|lia].
    - unfold fsub.
      rewrite <- Zminus_mod_idemp_l, Zmult_mod_idemp_l, Zminus_mod_idemp_l, Zminus_mod_idemp_r. exact E. }
  rewrite D, third_point_mod. exact H.
Qed.

Lemma slope_run_ok : forall k h Q rest, slope_run k h = Some (Q, rest) ->
  coords (@pt_mul_pos pallas k pallas_generator) = Some Q.
Proof.
  induction k as [k IH|k IH|]; intros h Q rest H; cbn [slope_run pt_mul_pos] in *.
  - destruct (slope_run k h) as [[[x y] [|l [|l' hs]]]|] eqn:E; try discriminate H.
    apply IH in E. rewrite fast_double_ok in H. destruct (slope_double l (x, y)) as [[x2 y2]|] eqn:E2; [|discriminate H].
    pose proof (slope_double_ok _ x y l _ E E2) as D. cbn [fst] in H.
    destruct (x2 =? pmod - 1) eqn:E3; [discriminate H|]. apply Z.eqb_neq in E3.
    rewrite fast_add_g_ok in H. destruct (slope_add_g l' (x2, y2)) as [R|] eqn:E4; [|discriminate H]. cbn [option_map] in H.
    assert (R = Q) by congruence. subst R. exact (slope_add_g_ok _ x2 y2 l' Q D E3 E4).
  - destruct (slope_run k h) as [[[x y] [|l hs]]|] eqn:E; try discriminate H.
    apply IH in E. rewrite fast_double_ok in H. destruct (slope_double l (x, y)) as [R|] eqn:E2; [|discriminate H]. cbn [option_map] in H.
    assert (R = Q) by congruence. subst R. exact (slope_double_ok _ x y l Q E E2).
  - assert (Q = (pmod - 1, 2)) by congruence. subst Q. apply coords_generator.
Qed.

Lemma generator_nz : pallas_generator <> pallas_id.
Proof.
  intro H. assert (E : coords pallas_generator = coords pallas_id) by (rewrite H; reflexivity).
  rewrite coords_generator in E. discriminate E.
Qed.

Notation pnmul := (nmul pallas_point padd pallas_id).

Lemma pnmul_add : forall m n P, pnmul (m + n) P = padd (pnmul m P) (pnmul n P).
Proof. exact (nmul_add pallas_point padd pallas_id pallas_add_comm pallas_add_assoc pallas_add_id). Qed.

Lemma mul_pos_nmul : forall k P, @pt_mul_pos pallas k P = pnmul (Pos.to_nat k) P.
Proof.
  induction k as [k IH|k IH|]; intro P; cbn [pt_mul_pos].
  - rewrite IH, Pos2Nat.inj_xI. cbn [nmul]. f_equal.
    replace (2 * Pos.to_nat k)%nat with (Pos.to_nat k + Pos.to_nat k)%nat by lia. symmetry. apply pnmul_add.
  - rewrite IH, Pos2Nat.inj_xO.
    replace (2 * Pos.to_nat k)%nat with (Pos.to_nat k + Pos.to_nat k)%nat by lia. symmetry. apply pnmul_add.
  - change (Pos.to_nat 1) with 1%nat. cbn [nmul]. symmetry. apply pallas_add_id.
Qed.

Lemma generator_order : pnmul (Z.to_nat qmod) pallas_generator = pallas_id.
Proof.
  pose proof qmod_pos as HQ. pose proof pmod_lt_qmod as HPQ. pose proof pmod_gt_5 as H5.
  assert (E : Z.to_nat qmod = (1 + Pos.to_nat (Z.to_pos (qmod - 1)))%nat) by lia.
  rewrite E, pnmul_add. rewrite <- mul_pos_nmul.
  assert (EQ : @pt_mul_pos pallas (Z.to_pos (qmod - 1)) pallas_generator = pneg pallas_generator).
  { apply coords_inj. rewrite (slope_run_ok _ _ _ _ run_ok), coords_neg, coords_generator.
    cbn [raw_neg]. rewrite fopp_nz by lia. reflexivity. }
  rewrite EQ. cbn [nmul]. rewrite pallas_add_id. apply pallas_add_neg.
Qed.

(** * A code below 2p + 1 *)
Definition pcode (P : pallas_point) : Z :=
  match coords P with None => 0 | Some (x, y) => 1 + 2 * x + y mod 2 end.

Lemma pcode_range : forall P, 0 <= pcode P < 2 * pmod + 1.
Proof.
  intro P. unfold pcode. pose proof pmod_pos. destruct (coords P) as [[x y]|] eqn:E; [|lia].
  pose proof (coords_range P x y E). pose proof (Z.mod_pos_bound y 2). lia.
Qed.

Lemma same_x_coords : forall P Q x y y', coords P = Some (x, y) -> coords Q = Some (x, y') -> y = y' \/ y = pmod - y'.
Proof.
  intros P Q x y y' HP HQ.
  pose proof (coords_range _ _ _ HP) as [HX HY]. pose proof (coords_range _ _ _ HQ) as [_ HY'].
  destruct P as [c Hc], Q as [c' Hc']. cbn [coords proj1_sig] in HP, HQ. subst c c'. cbn [coords_ok] in Hc, Hc'.
  apply affine_ok_spec in Hc as (_ & _ & E1). apply affine_ok_spec in Hc' as (_ & _ & E2).
  rewrite <- E2 in E1. unfold fmul in E1. pose proof pmod_pos as H0.
  apply mod_eq_divide in E1; [|lia].
  replace (y * y - y' * y') with ((y - y') * (y + y')) in E1 by ring.
  apply prime_mult in E1; [|exact prime_pmod]. destruct E1 as [E1|E1].
  - left. assert (y - y' = 0); [|lia]. apply (small_multiple pmod); [lia|assumption|lia].
  - destruct (Z.eq_dec (y + y') 0) as [Z0|NZ]; [left; lia|right].
    assert (y + y' - pmod = 0); [|lia]. apply (small_multiple pmod); [lia| |lia].
    apply Z.divide_sub_r; [assumption|apply Z.divide_refl].
Qed.

Lemma pcode_inj : forall P Q, pcode P = pcode Q -> P = Q.
Proof.
  intros P Q H. apply coords_inj. unfold pcode in H.
  destruct (coords P) as [[x y]|] eqn:EP, (coords Q) as [[x' y']|] eqn:EQ.
  - pose proof (Z.mod_pos_bound y 2). pose proof (Z.mod_pos_bound y' 2).
    assert (x = x') by lia. subst x'. assert (M : y mod 2 = y' mod 2) by lia.
    destruct (same_x_coords P Q x y y' EP EQ) as [-> | EY]; [reflexivity|exfalso].
    pose proof pmod_odd as HO. pose proof (Z.div_mod y 2). pose proof (Z.div_mod y' 2). lia.
  - pose proof (Z.mod_pos_bound y 2). pose proof (coords_range _ _ _ EP). lia.
  - pose proof (Z.mod_pos_bound y' 2). pose proof (coords_range _ _ _ EQ). lia.
  - reflexivity.
Qed.

Lemma pallas_eqb_spec : forall P Q, pallas_eqb P Q = true <-> P = Q.
Proof.
  intros P Q. unfold pallas_eqb. split.
  - intro H. apply coords_inj. destruct (coords P) as [[x y]|], (coords Q) as [[x' y']|]; try discriminate H; [|reflexivity].
    apply andb_true_iff in H as [H1 H2]. apply Z.eqb_eq in H1, H2. subst. reflexivity.
  - intros ->. destruct (coords Q) as [[x y]|]; [|reflexivity]. rewrite !Z.eqb_refl. reflexivity.
Qed.
Lemma pallas_eq_dec : forall P Q : pallas_point, {P = Q} + {P <> Q}.
Proof.
  intros P Q. destruct (pallas_eqb P Q) eqn:E; [left; apply pallas_eqb_spec; assumption|right].
  intro H. apply pallas_eqb_spec in H. congruence.
Qed.

Lemma order_nat : forall n P, Z.of_nat n = qmod -> pnmul n P = pallas_id.
Proof.
  intros n P E. assert (EN : n = Z.to_nat qmod) by lia.
  apply (order_divides pallas_point padd pallas_id pneg pallas_add_comm pallas_add_assoc pallas_add_id pallas_add_neg
           pallas_eq_dec n) with (g := pallas_generator) (code := pcode) (N := 2 * pmod + 1).
  - rewrite E. exact prime_qmod.
  - exact generator_nz.
  - rewrite EN. exact generator_order.
  - exact pcode_inj.
  - exact pcode_range.
  - rewrite E. pose proof pmod_lt_qmod. lia.
Qed.

Theorem pallas_order : forall P : pallas_point, @pt_mul pallas qmod P = pallas_id.
Proof.
  intro P. pose proof qmod_pos as HQ. rewrite <- (order_nat (Z.to_nat qmod) P) by lia.
  destruct qmod as [|k|k] eqn:E; [lia| |lia]. cbn [pt_mul]. rewrite mul_pos_nmul. f_equal.
Qed.

(** Every point is a multiple of the generator. *)
Theorem pallas_cyclic : forall P : pallas_point, exists k, P = pnmul k pallas_generator.
Proof.
  intro P. pose proof qmod_pos as HQ. assert (EN : Z.of_nat (Z.to_nat qmod) = qmod) by lia.
  apply (all_multiples pallas_point padd pallas_id pneg pallas_add_comm pallas_add_assoc pallas_add_id pallas_add_neg
           pallas_eq_dec (Z.to_nat qmod)) with (code := pcode) (N := 2 * pmod + 1).
  - rewrite EN. exact prime_qmod.
  - exact generator_nz.
  - exact generator_order.
  - exact pcode_inj.
  - exact pcode_range.
  - rewrite EN. pose proof pmod_lt_qmod. lia.
Qed.
