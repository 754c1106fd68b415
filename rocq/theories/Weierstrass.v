(** The chord-and-tangent law on y^2 = x^3 + b over a field in which 2 is not zero, for curves
    without points of order two, is an abelian group law. *)
From Coq Require Import Field Ring.

Section Group.
  Variable K : Type.
  Variables (k0 k1 : K) (kadd kmul ksub : K -> K -> K) (kopp : K -> K)
            (kdiv : K -> K -> K) (kinv : K -> K).
  Hypothesis Kf : field_theory k0 k1 kadd kmul ksub kopp kdiv kinv (@eq K).
  Variable keqb : K -> K -> bool.
  Hypothesis keqb_spec : forall a c, keqb a c = true <-> a = c.
  Add Field Kfield : Kf.

  Declare Scope K_scope.
  Local Notation "x + y" := (kadd x y) : K_scope.
  Local Notation "x * y" := (kmul x y) : K_scope.
  Local Notation "x - y" := (ksub x y) : K_scope.
  Local Notation "- x" := (kopp x) : K_scope.
  Local Notation "x / y" := (kdiv x y) : K_scope.
  Local Notation "0" := k0 : K_scope.
  Local Notation "1" := k1 : K_scope.
  Local Open Scope K_scope.

  Variable b : K.
  Hypothesis two_nz : 1 + 1 <> 0.

  Definition curve_eq (x y : K) : Prop := y * y = x * x * x + b.
  (** No point of order two. *)
  Hypothesis no_two_torsion : forall x y, curve_eq x y -> y <> 0.

  Definition wpoint : Type := option (K * K).
  Definition on (P : wpoint) : Prop :=
    match P with None => True | Some (x, y) => curve_eq x y end.

  Definition wneg (P : wpoint) : wpoint :=
    match P with None => None | Some (x, y) => Some (x, - y) end.

  (** The third point, from the slope and the two abscissas. *)
  Definition third (l x1 y1 x2 : K) : K * K :=
    let x := l * l - x1 - x2 in (x, l * (x1 - x) - y1).

  Definition tangent (x y : K) : K := ((1 + 1 + 1) * x * x) / ((1 + 1) * y).
  Definition chord (x1 y1 x2 y2 : K) : K := (y2 - y1) / (x2 - x1).

  Definition wadd (P Q : wpoint) : wpoint :=
    match P, Q with
    | None, _ => Q
    | _, None => P
    | Some (x1, y1), Some (x2, y2) =>
        if keqb x1 x2 then
          if keqb y1 (- y2) then None else Some (third (tangent x1 y1) x1 y1 x2)
        else Some (third (chord x1 y1 x2 y2) x1 y1 x2)
    end.

  (** * Field facts *)
  Let mul_zero : forall a c, a * c = 0 -> a = 0 \/ c = 0.
  Proof.
    intros a c H. destruct (keqb a 0) eqn:E; [left; apply keqb_spec; assumption|right].
    assert (a <> 0). { intro Z. apply keqb_spec in Z. congruence. }
    transitivity ((a * c) / a); [field; assumption|]. rewrite H. field; assumption.
  Qed.

  Let sub_zero : forall a c, a - c = 0 -> a = c.
  Proof. intros a c H. transitivity ((a - c) + c); [ring|]. rewrite H. ring. Qed.

  Let sub_nz : forall a c, a <> c -> a - c <> 0.
  Proof. intros a c H E. apply H. apply sub_zero. assumption. Qed.

  Let keqb_neq : forall a c, keqb a c = false -> a <> c.
  Proof. intros a c H E. apply keqb_spec in E. congruence. Qed.
  Let keqb_refl : forall a, keqb a a = true.
  Proof. intro a. apply keqb_spec. reflexivity. Qed.
  Let keqb_false : forall a c, a <> c -> keqb a c = false.
  Proof. intros a c H. destruct (keqb a c) eqn:E; [|reflexivity]. apply keqb_spec in E. contradiction. Qed.

  Let opp_self : forall y, y = - y -> y = 0.
  Proof.
    intros y H. assert (E : (1 + 1) * y = 0).
    { transitivity (y - - y); [ring|]. rewrite <- H. ring. }
    apply mul_zero in E. destruct E; [contradiction|assumption].
  Qed.

  Let same_x : forall x y y', curve_eq x y -> curve_eq x y' -> y = y' \/ y = - y'.
  Proof.
    unfold curve_eq. intros x y y' H H'. assert (E : (y - y') * (y + y') = 0).
    { transitivity (y * y - y' * y'); [ring|]. rewrite H, H'. ring. }
    apply mul_zero in E. destruct E as [E|E]; [left; apply sub_zero; assumption|right].
    transitivity ((y + y') - y'); [ring|]. rewrite E. ring.
  Qed.

  Let two_y : forall x y, curve_eq x y -> (1 + 1) * y <> 0.
  Proof.
    intros x y H E. apply mul_zero in E. destruct E as [E|E]; [contradiction|].
    apply (no_two_torsion x y H E).
  Qed.

  (** * How addition computes *)
  Let wadd_chord : forall x1 y1 x2 y2, x1 <> x2 ->
    wadd (Some (x1, y1)) (Some (x2, y2)) = Some (third (chord x1 y1 x2 y2) x1 y1 x2).
  Proof. intros. cbn [wadd]. rewrite keqb_false by assumption. reflexivity. Qed.

  Let wadd_tangent : forall x y, curve_eq x y ->
    wadd (Some (x, y)) (Some (x, y)) = Some (third (tangent x y) x y x).
  Proof.
    intros x y H. cbn [wadd]. rewrite keqb_refl, keqb_false; [reflexivity|].
    intro E. apply opp_self in E. apply (no_two_torsion x y H E).
  Qed.

  Let wadd_opp : forall x y, wadd (Some (x, y)) (Some (x, - y)) = None.
  Proof.
    intros x y. cbn [wadd]. rewrite keqb_refl.
    replace (- - y) with y by ring. rewrite keqb_refl. reflexivity.
  Qed.

  (** The chord slope also satisfies the conjugate equation. *)
  Let chord_conj : forall x1 y1 x2 y2, curve_eq x1 y1 -> curve_eq x2 y2 -> x1 <> x2 ->
    chord x1 y1 x2 y2 * (y1 + y2) = x1 * x1 + x1 * x2 + x2 * x2.
  Proof.
    unfold curve_eq, chord. intros x1 y1 x2 y2 H1 H2 H.
    assert (N : x2 - x1 <> 0) by (apply sub_nz; congruence).
    transitivity ((y2 * y2 - y1 * y1) / (x2 - x1)); [field; assumption|].
    rewrite H1, H2. field; assumption.
  Qed.

  Let third_on : forall l x1 y1 x2 y2, curve_eq x1 y1 -> y2 = y1 + l * (x2 - x1) ->
    l * (y1 + y2) = x1 * x1 + x1 * x2 + x2 * x2 ->
    on (Some (third l x1 y1 x2)).
  Proof.
    unfold on, third, curve_eq. intros l x1 y1 x2 y2 H1 E2 HL. subst y2. cbv zeta.
    assert (HL' : (1 + 1) * l * y1 = x1 * x1 + x1 * x2 + x2 * x2 - l * l * (x2 - x1)).
    { rewrite <- HL. ring. }
    set (x := l * l - x1 - x2).
    transitivity (l * l * (x1 - x) * (x1 - x) - ((1 + 1) * l * y1) * (x1 - x) + y1 * y1); [ring|].
    rewrite HL', H1. unfold x. ring.
  Qed.

  Lemma wadd_on : forall P Q, on P -> on Q -> on (wadd P Q).
  Proof.
    intros [[x1 y1]|] [[x2 y2]|] H1 H2; try assumption.
    destruct (keqb x1 x2) eqn:E.
    - apply keqb_spec in E. subst x2. destruct (same_x _ _ _ H1 H2) as [-> | ->].
      + rewrite wadd_tangent by assumption. apply (third_on _ _ _ _ y2); [assumption|ring|].
        unfold tangent. pose proof (no_two_torsion _ _ H2). field. split; assumption.
      + pose proof (wadd_opp x1 (- y2)) as W. replace (- - y2) with y2 in W by ring. rewrite W. exact I.
    - apply keqb_neq in E. rewrite wadd_chord by assumption.
      apply (third_on _ _ _ _ y2); [assumption| |apply chord_conj; assumption].
      unfold chord. assert (x2 - x1 <> 0) by (apply sub_nz; congruence). field; assumption.
  Qed.

  Lemma wneg_on : forall P, on P -> on (wneg P).
  Proof.
    intros [[x y]|] H; [|exact I]. unfold on, wneg, curve_eq in *. rewrite <- H. ring.
  Qed.

  Lemma wneg_neg : forall P, wneg (wneg P) = P.
  Proof. intros [[x y]|]; [|reflexivity]. cbn [wneg]. f_equal. f_equal. ring. Qed.

  Lemma wadd_none : forall P, wadd P None = P.
  Proof. intros [[x y]|]; reflexivity. Qed.
  Lemma none_wadd : forall P, wadd None P = P.
  Proof. intros [[x y]|]; reflexivity. Qed.

  Lemma wadd_neg : forall P, wadd P (wneg P) = None.
  Proof. intros [[x y]|]; [|reflexivity]. apply wadd_opp. Qed.

  Lemma wadd_comm : forall P Q, on P -> on Q -> wadd P Q = wadd Q P.
  Proof.
    intros [[x1 y1]|] [[x2 y2]|] H1 H2; try reflexivity.
    destruct (keqb x1 x2) eqn:E.
    - apply keqb_spec in E. subst x2. destruct (same_x _ _ _ H1 H2) as [-> | ->]; [reflexivity|].
      rewrite wadd_opp. pose proof (wadd_opp x1 (- y2)) as W.
      replace (- - y2) with y2 in W by ring. exact W.
    - apply keqb_neq in E. rewrite wadd_chord by assumption. rewrite wadd_chord by congruence.
      unfold third, chord. f_equal.
      assert (x2 - x1 <> 0) by (apply sub_nz; congruence).
      assert (x1 - x2 <> 0) by (apply sub_nz; congruence).
      f_equal; field; split; assumption.
  Qed.

  Lemma wneg_add : forall P Q, on P -> on Q -> wneg (wadd P Q) = wadd (wneg P) (wneg Q).
  Proof.
    intros [[x1 y1]|] [[x2 y2]|] H1 H2; try reflexivity.
    destruct (keqb x1 x2) eqn:E.
    - apply keqb_spec in E. subst x2. destruct (same_x _ _ _ H1 H2) as [-> | ->].
      + cbn [wneg]. rewrite wadd_tangent by assumption.
        rewrite wadd_tangent by (apply (wneg_on (Some (x1, y2))); assumption).
        unfold third, tangent. cbn [wneg]. f_equal.
        pose proof (no_two_torsion _ _ H2).
        assert (- y2 <> 0). { intro Z. apply H. transitivity (- - y2); [ring|]. rewrite Z. ring. }
        f_equal; field; repeat split; assumption.
      + pose proof (wadd_opp x1 (- y2)) as W. replace (- - y2) with y2 in W by ring. rewrite W.
        cbn [wneg]. replace (- - y2) with y2 by ring. rewrite wadd_opp. reflexivity.
    - apply keqb_neq in E. cbn [wneg]. rewrite !wadd_chord by assumption.
      unfold third, chord. cbn [wneg]. f_equal.
      assert (x2 - x1 <> 0) by (apply sub_nz; congruence).
      f_equal; field; assumption.
  Qed.

  Lemma no_self_inverse : forall P, on P -> P = wneg P -> P = None.
  Proof.
    intros [[x y]|] H E; [|reflexivity]. exfalso. cbn [wneg] in E.
    assert (y = - y) as E' by congruence. apply opp_self in E'. apply (no_two_torsion x y H E').
  Qed.

  (** P + Q = Q only for P the identity. *)
  Lemma uniq_zero : forall P Q, on P -> on Q -> wadd P Q = Q -> P = None.
  Proof.
    intros [[x1 y1]|] [[x2 y2]|] H1 H2 H; [|exact H|reflexivity|reflexivity].
    exfalso. destruct (keqb x1 x2) eqn:E.
    - apply keqb_spec in E. subst x2. destruct (same_x _ _ _ H1 H2) as [-> | ->].
      + rewrite wadd_tangent in H by assumption. unfold third in H. cbv zeta in H.
        remember (tangent x1 y2) as l. injection H as EX EY.
        rewrite EX in EY. apply (no_two_torsion _ _ H2). apply opp_self.
        rewrite <- EY at 1. ring.
      + pose proof (wadd_opp x1 (- y2)) as W. replace (- - y2) with y2 in W by ring. rewrite W in H. discriminate H.
    - apply keqb_neq in E. rewrite wadd_chord in H by assumption. unfold third in H. cbv zeta in H.
      remember (chord x1 y1 x2 y2) as l eqn:El. injection H as EX EY.
      rewrite EX in EY. apply (no_two_torsion _ _ H2). apply opp_self.
      rewrite <- EY at 1. rewrite El. unfold chord.
      assert (x2 - x1 <> 0) by (apply sub_nz; congruence). field; assumption.
  Qed.

  (** Two points with different abscissas, or equal, or opposite. *)
  Let cases : forall P Q, on P -> on Q -> P = None \/ Q = None \/ P = Q \/ P = wneg Q \/
    exists x1 y1 x2 y2, P = Some (x1, y1) /\ Q = Some (x2, y2) /\ x1 <> x2.
  Proof.
    intros [[x1 y1]|] [[x2 y2]|] H1 H2; [|right; left; reflexivity|left; reflexivity|left; reflexivity].
    right; right. destruct (keqb x1 x2) eqn:E.
    - apply keqb_spec in E. subst x2. destruct (same_x _ _ _ H1 H2) as [-> | ->].
      + left; reflexivity.
      + right; left. reflexivity.
    - apply keqb_neq in E. right; right. exists x1, y1, x2, y2. split; [|split]; [reflexivity|reflexivity|assumption].
  Qed.

  Let neq_x : forall x1 y1 x2 y2, curve_eq x1 y1 -> curve_eq x2 y2 ->
    Some (x1, y1) <> Some (x2, y2) -> Some (x1, y1) <> wneg (Some (x2, y2)) -> x1 <> x2.
  Proof.
    intros x1 y1 x2 y2 H1 H2 N1 N2 E. subst x2. destruct (same_x _ _ _ H1 H2) as [-> | ->].
    - apply N1; reflexivity.
    - apply N2; reflexivity.
  Qed.

  (** (P + Q) - Q = P. *)
  Lemma wadd_sub : forall P Q, on P -> on Q -> wadd (wadd P Q) (wneg Q) = P.
  Proof.
    intros P Q HP HQ.
    destruct (cases P Q HP HQ) as [-> | [-> | [E | [E | (x1 & y1 & x2 & y2 & -> & -> & N)]]]].
    - rewrite none_wadd. apply wadd_neg.
    - cbn [wneg]. rewrite !wadd_none. reflexivity.
    - subst Q. destruct P as [[x y]|]; [|reflexivity].
      set (P := Some (x, y)) in *. pose proof (wadd_on P P HP HP) as HR.
      destruct (cases (wadd P P) (wneg P) HR (wneg_on _ HP)) as [E | [E | [E | [E | (x3 & y3 & x4 & y4 & E3 & E4 & N)]]]].
      + unfold P in E. rewrite wadd_tangent in E by exact HP. discriminate E.
      + discriminate E.
      + rewrite E. rewrite <- wneg_add by assumption. rewrite E. apply wneg_neg.
      + rewrite wneg_neg in E. apply uniq_zero in E; [discriminate E|assumption|assumption].
      + unfold P in *. rewrite wadd_tangent in * by exact HP. cbn [wneg] in *.
        unfold third in E3. cbv zeta in E3. remember (tangent x y) as l eqn:El.
        injection E3 as EX EY. injection E4 as EX' EY'. subst x4 y4.
        unfold third at 1. cbv zeta. rewrite EY, EX. rewrite wadd_chord by congruence.
        assert (NZ : x - x3 <> 0) by (apply sub_nz; congruence).
        assert (Sl : chord x3 y3 x (- y) = - l).
        { unfold chord. rewrite <- EY. rewrite EX. field; assumption. }
        rewrite Sl. unfold third. cbv zeta.
        assert (X : - l * - l - x3 - x = x) by (rewrite <- EX; ring).
        rewrite X. f_equal. f_equal. rewrite <- EY. rewrite EX. ring.
    - subst P. rewrite (wadd_comm (wneg Q) Q) by (try apply wneg_on; assumption).
      rewrite wadd_neg. apply none_wadd.
    - set (P := Some (x1, y1)) in *. set (Q := Some (x2, y2)) in *.
      pose proof (wadd_on P Q HP HQ) as HR.
      destruct (cases (wadd P Q) (wneg Q) HR (wneg_on _ HQ)) as [E | [E | [E | [E | (x3 & y3 & x4 & y4 & E3 & E4 & N')]]]].
      + unfold P, Q in E. rewrite wadd_chord in E by exact N. discriminate E.
      + discriminate E.
      + (* the line through P and Q is tangent at Q *)
        rewrite E. rewrite <- wneg_add by assumption.
        unfold P, Q in *. rewrite wadd_chord in E by exact N. rewrite wadd_tangent by exact HQ.
        pose proof (chord_conj _ _ _ _ HP HQ N) as HC.
        assert (NZ : x2 - x1 <> 0) by (apply sub_nz; congruence).
        assert (EY1 : y1 = y2 - chord x1 y1 x2 y2 * (x2 - x1)) by (unfold chord; field; assumption).
        remember (chord x1 y1 x2 y2) as l eqn:El.
        unfold third in E. cbv zeta in E. cbn [wneg] in E. injection E as EX EY.
        assert (Hl : tangent x2 y2 = l).
        { unfold tangent. pose proof (no_two_torsion _ _ HQ) as NY.
          assert (T : (1 + 1) * y2 * l = (1 + 1 + 1) * x2 * x2).
          { transitivity (l * (y1 + y2) + l * l * (x2 - x1)); [rewrite EY1; ring|].
            rewrite HC. replace (l * l) with ((l * l - x1 - x2) + x1 + x2) by ring. rewrite EX. ring. }
          rewrite <- T. field. split; assumption. }
        rewrite Hl. unfold third. cbv zeta. cbn [wneg].
        assert (X : l * l - x2 - x2 = x1).
        { replace (l * l) with ((l * l - x1 - x2) + x1 + x2) by ring. rewrite EX. ring. }
        rewrite X. f_equal. f_equal. rewrite EY1. ring.
      + rewrite wneg_neg in E. apply uniq_zero in E; [discriminate E|assumption|assumption].
      + unfold P, Q in *. rewrite wadd_chord in * by exact N. cbn [wneg] in *.
        assert (NZ : x2 - x1 <> 0) by (apply sub_nz; congruence).
        assert (EY1 : y1 = y2 - chord x1 y1 x2 y2 * (x2 - x1)) by (unfold chord; field; assumption).
        unfold third in E3. cbv zeta in E3. remember (chord x1 y1 x2 y2) as l eqn:El.
        injection E3 as EX EY. injection E4 as EX' EY'. subst x4 y4.
        unfold third at 1. cbv zeta. rewrite EY, EX. rewrite wadd_chord by congruence.
        assert (NZ' : x2 - x3 <> 0) by (apply sub_nz; congruence).
        assert (Sl : chord x3 y3 x2 (- y2) = - l).
        { unfold chord. rewrite <- EY. rewrite EX. rewrite EY1. field; assumption. }
        rewrite Sl. unfold third. cbv zeta.
        assert (X : - l * - l - x3 - x2 = x1) by (rewrite <- EX; ring).
        rewrite X. f_equal. f_equal. rewrite <- EY. rewrite EX. ring.
  Qed.

  Lemma wadd_cancel : forall P P' Q, on P -> on P' -> on Q -> wadd P Q = wadd P' Q -> P = P'.
  Proof.
    intros P P' Q HP HP' HQ H. rewrite <- (wadd_sub P Q HP HQ), H. apply wadd_sub; assumption.
  Qed.

  (** * The generic cases of associativity, by computation *)
  (** A numerator is not zero because the fraction is not. *)
  Ltac nz H d :=
    match goal with
    | |- ?num <> _ =>
        let Z := fresh "Z" in
        intro Z; apply H; transitivity (num / d);
          [field; repeat split; assumption | rewrite Z; field; repeat split; assumption]
    end.

  Let generic3 : forall x1 y1 x2 y2 x3 y3 x4 y4 x5 y5,
    curve_eq x1 y1 -> curve_eq x2 y2 -> curve_eq x3 y3 -> x1 <> x2 -> x2 <> x3 ->
    third (chord x1 y1 x2 y2) x1 y1 x2 = (x4, y4) -> third (chord x2 y2 x3 y3) x2 y2 x3 = (x5, y5) ->
    x4 <> x3 -> x1 <> x5 ->
    third (chord x4 y4 x3 y3) x4 y4 x3 = third (chord x1 y1 x5 y5) x1 y1 x5.
  Proof.
    unfold curve_eq, third, chord. cbv zeta.
    intros x1 y1 x2 y2 x3 y3 x4 y4 x5 y5 H1 H2 H3 N12 N23 E4 E5 N43 N15.
    injection E4 as EX4 EY4. injection E5 as EX5 EY5. subst x4 y4 x5 y5.
    apply not_eq_sym in N12, N23, N43, N15. apply sub_nz in N12, N23, N43, N15.
    apply f_equal2.
    - field [H1 H2 H3]. split; [assumption|]. split; [nz N15 ((x3 - x2) * (x3 - x2))|].
      split; [assumption|]. nz N43 ((x2 - x1) * (x2 - x1)).
    - field [H1 H2 H3]. split; [assumption|]. split; [nz N15 ((x3 - x2) * (x3 - x2))|].
      split; [assumption|]. nz N43 ((x2 - x1) * (x2 - x1)).
  Qed.

  (** (P + Q) + Q = P + 2Q. *)
  Let generic2 : forall x1 y1 x2 y2 x4 y4 x5 y5,
    curve_eq x1 y1 -> curve_eq x2 y2 -> x1 <> x2 ->
    third (chord x1 y1 x2 y2) x1 y1 x2 = (x4, y4) -> third (tangent x2 y2) x2 y2 x2 = (x5, y5) ->
    x4 <> x2 -> x1 <> x5 ->
    third (chord x4 y4 x2 y2) x4 y4 x2 = third (chord x1 y1 x5 y5) x1 y1 x5.
  Proof.
    intros x1 y1 x2 y2 x4 y4 x5 y5 H1 H2 N12 E4 E5 N42 N15.
    pose proof (no_two_torsion _ _ H2) as NY.
    unfold curve_eq, third, chord, tangent in *. cbv zeta in *.
    injection E4 as EX4 EY4. injection E5 as EX5 EY5. subst x4 y4 x5 y5.
    apply not_eq_sym in N12, N42, N15. apply sub_nz in N12, N42, N15.
    apply f_equal2.
    - field [H1 H2]. split; [assumption|]. split; [assumption|].
      split; [nz N15 ((1 + 1) * y2 * ((1 + 1) * y2))|]. split; [assumption|].
      nz N42 ((x2 - x1) * (x2 - x1)).
    - field [H1 H2]. split; [assumption|]. split; [assumption|].
      split; [nz N15 ((1 + 1) * y2 * ((1 + 1) * y2))|]. split; [assumption|].
      nz N42 ((x2 - x1) * (x2 - x1)).
  Qed.

  (** (P - Q) + (P + Q) = 2P. *)
  Let generic4 : forall x1 y1 x2 y2 x3 y3 x4 y4,
    curve_eq x1 y1 -> curve_eq x2 y2 -> x1 <> x2 ->
    third (chord x1 y1 x2 (- y2)) x1 y1 x2 = (x3, y3) -> third (chord x2 y2 x1 y1) x2 y2 x1 = (x4, y4) ->
    x3 <> x4 ->
    third (chord x3 y3 x4 y4) x3 y3 x4 = third (tangent x1 y1) x1 y1 x1.
  Proof.
    intros x1 y1 x2 y2 x3 y3 x4 y4 H1 H2 N12 E3 E4 N34.
    pose proof (no_two_torsion _ _ H1) as NY1.
    unfold curve_eq, third, chord, tangent in *. cbv zeta in *.
    injection E3 as EX3 EY3. injection E4 as EX4 EY4. subst x3 y3 x4 y4.
    assert (N12' : x1 - x2 <> 0) by (apply sub_nz; assumption).
    apply not_eq_sym in N12, N34. apply sub_nz in N12, N34.
    apply f_equal2.
    - field [H1 H2]. split; [assumption|]. split; [assumption|]. split; [assumption|].
      split; [assumption|]. nz N34 ((x2 - x1) * (x2 - x1) * ((x1 - x2) * (x1 - x2))).
    - field [H1 H2]. split; [assumption|]. split; [assumption|]. split; [assumption|].
      split; [assumption|]. nz N34 ((x2 - x1) * (x2 - x1) * ((x1 - x2) * (x1 - x2))).
  Qed.

  Let some_chord : forall x1 y1 x2 y2, x1 <> x2 -> exists x y,
    wadd (Some (x1, y1)) (Some (x2, y2)) = Some (x, y) /\ third (chord x1 y1 x2 y2) x1 y1 x2 = (x, y).
  Proof.
    intros x1 y1 x2 y2 N. destruct (third (chord x1 y1 x2 y2) x1 y1 x2) as [x y] eqn:E.
    exists x, y. split; [|reflexivity]. rewrite wadd_chord by assumption. rewrite E. reflexivity.
  Qed.

  Let some_tangent : forall x1 y1, curve_eq x1 y1 -> exists x y,
    wadd (Some (x1, y1)) (Some (x1, y1)) = Some (x, y) /\ third (tangent x1 y1) x1 y1 x1 = (x, y).
  Proof.
    intros x1 y1 H. destruct (third (tangent x1 y1) x1 y1 x1) as [x y] eqn:E.
    exists x, y. split; [|reflexivity]. rewrite wadd_tangent by assumption. rewrite E. reflexivity.
  Qed.

  (** (S - Q) + (Q + S) = 2S. *)
  Let sum_diff : forall x1 y1 x2 y2, curve_eq x1 y1 -> curve_eq x2 y2 -> x1 <> x2 ->
    let S := Some (x1, y1) in let Q := Some (x2, y2) in
    wadd (wadd S (wneg Q)) (wadd Q S) = wadd S S.
  Proof.
    intros x1 y1 x2 y2 H1 H2 N S Q.
    assert (HS : on S) by exact H1. assert (HQ : on Q) by exact H2.
    pose proof (wneg_on Q HQ) as HQ'.
    destruct (some_chord x1 y1 x2 (- y2) N) as (x3 & y3 & E3 & T3).
    destruct (some_chord x2 y2 x1 y1 (not_eq_sym N)) as (x4 & y4 & E4 & T4).
    assert (H3 : on (Some (x3, y3))) by (rewrite <- E3; apply (wadd_on S (wneg Q)); assumption).
    assert (H4 : on (Some (x4, y4))) by (rewrite <- E4; apply (wadd_on Q S); assumption).
    change (wadd S (wneg Q)) with (wadd (Some (x1, y1)) (Some (x2, - y2))). unfold S, Q. rewrite E3, E4.
    assert (N34 : x3 <> x4).
    { apply (neq_x x3 y3 x4 y4 H3 H4).
      - intro E. rewrite <- E3, <- E4 in E. change (wadd S (wneg Q) = wadd Q S) in E.
        rewrite (wadd_comm S (wneg Q)) in E by assumption.
        apply wadd_cancel in E; [|assumption|assumption|assumption].
        symmetry in E. apply no_self_inverse in E; [discriminate E|assumption].
      - intro E. rewrite <- E3, <- E4 in E. change (wadd S (wneg Q) = wneg (wadd Q S)) in E.
        rewrite wneg_add in E by assumption.
        rewrite (wadd_comm (wneg Q)) in E by (try apply wneg_on; assumption).
        apply wadd_cancel in E; [|assumption|apply wneg_on; assumption|assumption].
        apply no_self_inverse in E; [discriminate E|assumption]. }
    rewrite wadd_chord by assumption. rewrite wadd_tangent by assumption. f_equal.
    exact (generic4 x1 y1 x2 y2 x3 y3 x4 y4 H1 H2 N T3 T4 N34).
  Qed.

  Let assoc_neg : forall P R, on P -> on R -> wadd P (wadd (wneg P) R) = R.
  Proof.
    intros P R HP HR. pose proof (wneg_on P HP) as HP'.
    rewrite (wadd_comm (wneg P) R) by assumption.
    rewrite (wadd_comm P) by (try apply wadd_on; assumption).
    rewrite <- (wneg_neg P) at 2. apply wadd_sub; assumption.
  Qed.

  Let weqb : forall P Q : wpoint, {P = Q} + {P <> Q}.
  Proof.
    intros [[x1 y1]|] [[x2 y2]|]; try (right; discriminate); [|left; reflexivity].
    destruct (keqb x1 x2) eqn:E1; [|right; intro E; apply keqb_neq in E1; congruence].
    destruct (keqb y1 y2) eqn:E2; [|right; intro E; apply keqb_neq in E2; congruence].
    left. apply keqb_spec in E1, E2. subst. reflexivity.
  Qed.

  (** The double of Q added to P, with P, Q different and P + Q not the opposite of Q. *)
  Let assoc_double : forall P Q, on P -> on Q -> P <> None -> Q <> None -> P <> Q -> P <> wneg Q ->
    wadd P Q <> wneg Q -> wadd (wadd P Q) Q = wadd P (wadd Q Q).
  Proof.
    intros P Q HP HQ NP NQ N1 N2 N3.
    destruct (weqb P (wadd Q Q)) as [E|NE].
    - (* P = 2Q: apply sum_diff at P and Q *)
      destruct P as [[x1 y1]|]; [|contradiction]. destruct Q as [[x2 y2]|]; [|contradiction].
      assert (N : x1 <> x2) by (apply (neq_x x1 y1 x2 y2); assumption).
      pose proof (sum_diff x1 y1 x2 y2 HP HQ N) as SD. cbv zeta in SD.
      assert (D : wadd (Some (x1, y1)) (wneg (Some (x2, y2))) = Some (x2, y2)).
      { rewrite E. apply wadd_sub; assumption. }
      rewrite <- E. rewrite <- SD, D.
      rewrite (wadd_comm (Some (x2, y2)) (Some (x1, y1))) by assumption.
      apply wadd_comm; [apply wadd_on; assumption|assumption].
    - destruct P as [[x1 y1]|]; [|contradiction]. destruct Q as [[x2 y2]|]; [|contradiction].
      assert (N : x1 <> x2) by (apply (neq_x x1 y1 x2 y2); assumption).
      destruct (some_chord x1 y1 x2 y2 N) as (x4 & y4 & E4 & T4).
      destruct (some_tangent x2 y2 HQ) as (x5 & y5 & E5 & T5).
      pose proof (wadd_on _ _ HP HQ) as H4. rewrite E4 in H4.
      pose proof (wadd_on _ _ HQ HQ) as H5. rewrite E5 in H5.
      rewrite E4, E5 in *.
      assert (N42 : x4 <> x2).
      { apply (neq_x x4 y4 x2 y2 H4 HQ); [|assumption].
        intro E. rewrite <- E4 in E. apply uniq_zero in E; [contradiction|assumption|assumption]. }
      assert (N15 : x1 <> x5).
      { apply (neq_x x1 y1 x5 y5 HP H5); [assumption|]. intro E. rewrite <- E5 in E. apply N3. rewrite <- E4.
        (* P = -2Q gives P + Q = -Q *)
        rewrite E. rewrite wneg_add by assumption.
        transitivity (wadd (wadd (wneg (Some (x2, y2))) (wneg (Some (x2, y2)))) (wneg (wneg (Some (x2, y2))))).
        - rewrite wneg_neg. reflexivity.
        - apply wadd_sub; apply wneg_on; assumption. }
      rewrite !wadd_chord by assumption. f_equal.
      exact (generic2 x1 y1 x2 y2 x4 y4 x5 y5 HP HQ N T4 T5 N42 N15).
  Qed.

  Let flip : forall P Q R, on P -> on Q -> on R ->
    wadd (wadd R Q) P = wadd R (wadd Q P) -> wadd (wadd P Q) R = wadd P (wadd Q R).
  Proof.
    intros P Q R HP HQ HR H.
    rewrite (wadd_comm P Q), (wadd_comm Q R) by assumption.
    rewrite (wadd_comm _ R), (wadd_comm P) by (try apply wadd_on; assumption).
    symmetry. assumption.
  Qed.

  (** P + Q = R: then (P + Q) + R is 2R, and P = R - Q. *)
  Let assoc_sum : forall P Q, on P -> on Q -> P <> None -> Q <> None ->
    wadd P Q <> None -> wadd P Q <> Q -> wadd P Q <> wneg Q ->
    wadd (wadd P Q) (wadd P Q) = wadd P (wadd Q (wadd P Q)).
  Proof.
    intros P Q HP HQ NP NQ N0 N1 N2.
    assert (EP : P = wadd (wadd P Q) (wneg Q)) by (symmetry; apply wadd_sub; assumption).
    pose proof (wadd_on P Q HP HQ) as HS. remember (wadd P Q) as S eqn:ES.
    rewrite EP. clear ES EP.
    destruct S as [[x1 y1]|]; [|contradiction]. destruct Q as [[x2 y2]|]; [|contradiction].
    assert (N : x1 <> x2) by (apply (neq_x x1 y1 x2 y2); assumption).
    symmetry. exact (sum_diff x1 y1 x2 y2 HS HQ N).
  Qed.

  Theorem wadd_assoc : forall P Q R, on P -> on Q -> on R ->
    wadd P (wadd Q R) = wadd (wadd P Q) R.
  Proof.
    intros P Q R HP HQ HR. symmetry.
    pose proof (wadd_on P Q HP HQ) as HPQ. pose proof (wadd_on Q R HQ HR) as HQR.
    pose proof (wneg_on Q HQ) as HQ'. pose proof (wneg_on R HR) as HR'. pose proof (wneg_on P HP) as HP'.
    destruct (weqb P None) as [-> |NP]; [rewrite !none_wadd; reflexivity|].
    destruct (weqb Q None) as [-> |NQ]; [rewrite wadd_none, none_wadd; reflexivity|].
    destruct (weqb R None) as [-> |NR]; [rewrite !wadd_none; reflexivity|].
    destruct (weqb P R) as [-> |NPR].
    { rewrite (wadd_comm R Q) by assumption. apply wadd_comm; [rewrite (wadd_comm Q R) by assumption|]; assumption. }
    destruct (weqb P (wneg Q)) as [E|N1].
    { subst P. rewrite (wadd_comm (wneg Q) Q) by assumption. rewrite wadd_neg, none_wadd.
      symmetry. rewrite <- (wneg_neg Q) at 2. apply assoc_neg; assumption. }
    destruct (weqb Q (wneg R)) as [E|N2].
    { apply flip; [assumption|assumption|assumption|]. subst Q. rewrite wadd_neg, none_wadd.
      symmetry. apply assoc_neg; assumption. }
    destruct (weqb (wadd P Q) (wneg R)) as [E|N3].
    { rewrite E. rewrite (wadd_comm (wneg R) R), wadd_neg by assumption.
      assert (ER : R = wneg (wadd P Q)) by (rewrite E, wneg_neg; reflexivity).
      assert (EQ : wadd Q R = wneg P).
      { rewrite ER, wneg_add by assumption. rewrite (wadd_comm (wneg P)) by assumption. apply assoc_neg; assumption. }
      rewrite EQ, wadd_neg. reflexivity. }
    destruct (weqb (wadd Q R) (wneg P)) as [E|N4].
    { rewrite E. rewrite wadd_neg.
      assert (EP : P = wneg (wadd Q R)) by (rewrite E, wneg_neg; reflexivity).
      assert (EQ : wadd P Q = wneg R).
      { rewrite EP, wneg_add by assumption. rewrite (wadd_comm (wneg Q)) by assumption.
        transitivity (wadd (wadd (wneg R) (wneg Q)) (wneg (wneg Q))); [rewrite wneg_neg; reflexivity|].
        apply wadd_sub; assumption. }
      rewrite EQ. rewrite (wadd_comm (wneg R) R) by assumption. apply wadd_neg. }
    destruct (weqb Q R) as [-> |NQR].
    { apply assoc_double; assumption. }
    destruct (weqb P Q) as [-> |NPQ].
    { apply flip; [assumption|assumption|assumption|].
      apply assoc_double; try assumption; try congruence.
      - intro E. apply N2. rewrite E, wneg_neg. reflexivity.
      - intro E. apply N4. rewrite <- E. apply wadd_comm; assumption. }
    assert (ND : forall X, on X -> X <> None -> X <> wneg X).
    { intros X HX NX E. apply NX. apply no_self_inverse; assumption. }
    destruct (weqb (wadd P Q) R) as [E|N5].
    { rewrite <- E. apply assoc_sum; try assumption.
      - rewrite E. assumption.
      - intro E'. apply uniq_zero in E'; [contradiction|assumption|assumption].
      - rewrite E. intro E'. apply N2. rewrite E', wneg_neg. reflexivity. }
    destruct (weqb P (wadd Q R)) as [E|N6].
    { apply flip; [assumption|assumption|assumption|].
      rewrite (wadd_comm Q R) in E by assumption. rewrite E. apply assoc_sum; try assumption.
      - rewrite <- E. assumption.
      - intro E'. apply uniq_zero in E'; [contradiction|assumption|assumption].
      - rewrite <- E. assumption. }
    destruct P as [[x1 y1]|]; [|contradiction]. destruct Q as [[x2 y2]|]; [|contradiction].
    destruct R as [[x3 y3]|]; [|contradiction].
    assert (N12 : x1 <> x2) by (apply (neq_x x1 y1 x2 y2); assumption).
    assert (N23 : x2 <> x3) by (apply (neq_x x2 y2 x3 y3); assumption).
    destruct (some_chord x1 y1 x2 y2 N12) as (x4 & y4 & E4 & T4).
    destruct (some_chord x2 y2 x3 y3 N23) as (x5 & y5 & E5 & T5).
    rewrite E4, E5 in *.
    assert (N43 : x4 <> x3) by (apply (neq_x x4 y4 x3 y3); assumption).
    assert (N15 : x1 <> x5).
    { apply (neq_x x1 y1 x5 y5); try assumption. intro E. apply N4. rewrite E, wneg_neg. reflexivity. }
    rewrite !wadd_chord by assumption. f_equal.
    exact (generic3 x1 y1 x2 y2 x3 y3 x4 y4 x5 y5 HP HQ HR N12 N23 T4 T5 N43 N15).
  Qed.
End Group.
