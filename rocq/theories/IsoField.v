(** Field identities behind simplified SWU and the 3-isogeny from iso-Pallas to Pallas. *)
From Coq Require Import Field Ring.

Section Iso.
  Variable K : Type.
  Variables (k0 k1 : K) (kadd kmul ksub : K -> K -> K) (kopp : K -> K)
            (kdiv : K -> K -> K) (kinv : K -> K).
  Hypothesis Kf : field_theory k0 k1 kadd kmul ksub kopp kdiv kinv (@eq K).
  Add Field Kfield : Kf.

  Declare Scope K_scope.
  Local Notation "x + y" := (kadd x y) : K_scope.
  Local Notation "x * y" := (kmul x y) : K_scope.
  Local Notation "x - y" := (ksub x y) : K_scope.
  Local Notation "- x" := (kopp x) : K_scope.
  Local Notation "x / y" := (kdiv x y) : K_scope.
  Local Notation "0" := k0 : K_scope.
  Local Notation "1" := k1 : K_scope.
  Local Open Scope K_scope.
  Local Notation "2" := (1 + 1) : K_scope.
  Local Notation "3" := (1 + 1 + 1) : K_scope.

  Variables a b : K.
  Definition wrhs (x : K) : K := x * x * x + a * x + b.

  (** The second SWU candidate: g(t x1) = t^3 g(x1). *)
  Lemma swu_second : forall t, a <> 0 -> t * t + t <> 0 ->
    let x1 := (- b / a) * (1 + kinv (t * t + t)) in
    wrhs (t * x1) = t * t * t * wrhs x1.
  Proof.
    intros t Ha Ht x1. unfold wrhs, x1. field. split; [|assumption].
    intro E. apply Ht. rewrite <- E. ring.
  Qed.

  (** The third intersection of a line of slope [l] through two points (or tangent at one). *)
  Lemma third_on : forall l x1 y1 x2 y2, y1 * y1 = wrhs x1 ->
    l * (x2 - x1) = y2 - y1 -> l * (y1 + y2) = x1 * x1 + x1 * x2 + x2 * x2 + a ->
    let x := l * l - x1 - x2 in
    let y := l * (x1 - x) - y1 in y * y = wrhs x.
  Proof.
    intros l x1 y1 x2 y2 H1 HL HA x y. subst x y. unfold wrhs in *.
    assert (Ey : y2 = y1 + l * (x2 - x1)) by (rewrite HL; ring).
    assert (Ea : a = l * (y1 + y2) - (x1 * x1 + x1 * x2 + x2 * x2)) by (rewrite HA; ring).
    assert (Eb : b = y1 * y1 - (x1 * x1 * x1 + a * x1)) by (rewrite H1; ring).
    rewrite Eb, Ea, Ey. ring.
  Qed.

  Lemma chord_on : forall x1 y1 x2 y2, x2 - x1 <> 0 -> y1 * y1 = wrhs x1 -> y2 * y2 = wrhs x2 ->
    let l := (y2 - y1) / (x2 - x1) in
    let x := l * l - x1 - x2 in
    let y := l * (x1 - x) - y1 in y * y = wrhs x.
  Proof.
    intros x1 y1 x2 y2 HN H1 H2 l. apply (third_on l x1 y1 x2 y2 H1).
    - unfold l. field. assumption.
    - transitivity ((y2 * y2 - y1 * y1) / (x2 - x1)); [unfold l; field; assumption|].
      rewrite H1, H2. unfold wrhs. field. assumption.
  Qed.

  Lemma tangent_on : forall x1 y1, 2 * y1 <> 0 -> y1 * y1 = wrhs x1 ->
    let l := (3 * x1 * x1 + a) / (2 * y1) in
    let x := l * l - x1 - x1 in
    let y := l * (x1 - x) - y1 in y * y = wrhs x.
  Proof.
    intros x1 y1 HN H1 l. apply (third_on l x1 y1 x1 y1 H1).
    - ring.
    - transitivity (l * (2 * y1)); [ring|]. unfold l.
      transitivity (3 * x1 * x1 + a); [|ring]. generalize (2 * y1) HN (3 * x1 * x1 + a). intros d Hd n. field. assumption.
  Qed.
End Iso.

Section Isogeny.
  Variable K : Type.
  Variables (k0 k1 : K) (kadd kmul ksub : K -> K -> K) (kopp : K -> K)
            (kdiv : K -> K -> K) (kinv : K -> K).
  Hypothesis Kf : field_theory k0 k1 kadd kmul ksub kopp kdiv kinv (@eq K).
  Add Field Kfield2 : Kf.

  Declare Scope K2_scope.
  Local Notation "x + y" := (kadd x y) : K2_scope.
  Local Notation "x * y" := (kmul x y) : K2_scope.
  Local Notation "x - y" := (ksub x y) : K2_scope.
  Local Notation "- x" := (kopp x) : K2_scope.
  Local Notation "x / y" := (kdiv x y) : K2_scope.
  Local Notation "0" := k0 : K2_scope.
  Local Notation "1" := k1 : K2_scope.
  Local Open Scope K2_scope.
  Local Notation "2" := (1 + 1) : K2_scope.
  Local Notation "3" := (1 + 1 + 1) : K2_scope.
  Local Notation "5" := (2 + 3) : K2_scope.
  Local Notation "6" := (3 * 2) : K2_scope.
  Local Notation "10" := (5 * 2) : K2_scope.
  Local Notation "23" := (10 * 2 + 3) : K2_scope.
  Local Notation "11" := (10 + 1) : K2_scope.

  (** Velu's map for the kernel {O, (3c, +-y0)} with c^3 = 20, scaled by 1/9 and 1/27. *)
  Lemma isogeny_on : forall c x y, 2 <> 0 -> 3 <> 0 -> c * c * c = 10 * 2 -> x - 3 * c <> 0 ->
    y * y = wrhs K kadd kmul (- (10 * 3 * (c * c))) (5 * 11 * 23) x ->
    let d := kinv (x - 3 * c) in
    let v := - (6 * (c * c)) in
    let s := kinv 3 in
    let X := s * s * (x + v * d + 10 * 2 * (d * d)) in
    let Y := s * s * s * (y * (1 - v * (d * d) - 2 * (10 * 2) * (d * d * d))) in
    Y * Y = X * X * X + 5.
  Proof.
    intros c x y H2 H3 Hc Hx Hy d v s X Y.
    assert (H4 : 2 * 2 <> 0).
    { intro E. apply H2. transitivity (2 * 2 / 2); [field; assumption|]. rewrite E. field. assumption. }
    assert (E5 : 5 = c * c * c / (2 * 2)) by (rewrite Hc; field; intro E; apply H4; rewrite <- E; ring).
    assert (Eb : 5 * 11 * 23 = 11 * 23 * (c * c * c / (2 * 2))) by (rewrite Hc; field; intro E; apply H4; rewrite <- E; ring).
    transitivity (s * s * s * (s * s * s) * (y * y) *
      ((1 - v * (d * d) - 2 * (c * c * c) * (d * d * d)) * (1 - v * (d * d) - 2 * (c * c * c) * (d * d * d)))).
    { unfold Y. rewrite Hc. ring. }
    rewrite Hy. unfold wrhs. rewrite Eb.
    transitivity (s * s * (x + v * d + c * c * c * (d * d)) * (s * s * (x + v * d + c * c * c * (d * d))) *
      (s * s * (x + v * d + c * c * c * (d * d))) + c * c * c / (2 * 2)).
    2: { unfold X. rewrite <- E5, Hc. reflexivity. }
    unfold s, v, d. field. repeat split; [exact H4|intro E; apply Hx; rewrite <- E; ring|intro E; apply H3; rewrite <- E; ring].
  Qed.
End Isogeny.
