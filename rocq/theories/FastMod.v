(** Reduction modulo 2^254 + c by folding, for the numeric facts about the two moduli: the proof checker
    computes with it faster than with long division. *)
From Coq Require Import ZArith Lia Zpow_facts.
Open Scope Z_scope.

Definition ones254 : Z := 0x3fffffffffffffffffffffffffffffffffffffffffffffffffffffffffffffff.
Definition fold254 (c x : Z) : Z := Z.land x ones254 - c * Z.shiftr x 254.
Definition fold_signed (c x : Z) : Z :=
  match x with Z0 => 0 | Zpos _ => fold254 c x | Zneg p => - fold254 c (Zpos p) end.
Definition fast_red (c x : Z) : Z := fold_signed c (fold_signed c (fold_signed c x)).

Lemma fold254_mod : forall c n x, n = 2 ^ 254 + c -> 0 < n -> fold254 c x mod n = x mod n.
Proof.
  intros c n x E P. unfold fold254. change ones254 with (Z.ones 254). rewrite Z.land_ones, Z.shiftr_div_pow2 by lia.
  pose proof (Z.div_mod x (2 ^ 254)) as D. assert (N : 2 ^ 254 <> 0) by lia. specialize (D N).
  replace (x mod 2 ^ 254 - c * (x / 2 ^ 254)) with (x + (- (x / 2 ^ 254)) * n); [apply Z_mod_plus_full|].
  rewrite E. set (q := x / 2 ^ 254) in *. set (r := x mod 2 ^ 254) in *. rewrite D at 1. ring.
Qed.
Lemma fold_signed_mod : forall c n x, n = 2 ^ 254 + c -> 0 < n -> fold_signed c x mod n = x mod n.
Proof.
  intros c n [|p|p] E P; cbn [fold_signed]; [reflexivity|apply fold254_mod; assumption|].
  change (Z.neg p) with (- Z.pos p). rewrite <- (Z.sub_0_l (fold254 _ _)), <- (Z.sub_0_l (Z.pos p)).
  rewrite <- Zminus_mod_idemp_r, (fold254_mod c n _ E P), Zminus_mod_idemp_r. reflexivity.
Qed.
Lemma fast_red_mod : forall c n x, n = 2 ^ 254 + c -> 0 < n -> fast_red c x mod n = x mod n.
Proof. intros. unfold fast_red. rewrite !(fold_signed_mod c n); assumption || reflexivity. Qed.

Fixpoint fast_pow_pos (c a : Z) (m : positive) : Z :=
  match m with
  | xH => a
  | xO k => let z := fast_pow_pos c a k in fast_red c (z * z)
  | xI k => let z := fast_pow_pos c a k in fast_red c (a * fast_red c (z * z))
  end.
Definition fast_pow (c a m : Z) : Z := match m with Z0 => 1 | Zpos k => fast_pow_pos c a k | Zneg _ => 0 end.
Lemma fast_pow_pos_mod : forall c n a m, n = 2 ^ 254 + c -> 0 < n -> fast_pow_pos c a m mod n = a ^ Z.pos m mod n.
Proof.
  intros c n a m E P. induction m as [m IH|m IH|]; cbn [fast_pow_pos].
  - rewrite (fast_red_mod c n _ E P), <- Zmult_mod_idemp_r, (fast_red_mod c n _ E P), Zmult_mod_idemp_r.
    rewrite Z.mul_assoc, <- Zmult_mod_idemp_r, IH, Zmult_mod_idemp_r.
    replace (a * fast_pow_pos c a m * a ^ Z.pos m) with (a * a ^ Z.pos m * fast_pow_pos c a m) by ring.
    rewrite <- Zmult_mod_idemp_r, IH, Zmult_mod_idemp_r. f_equal.
    rewrite Pos2Z.inj_xI, Z.pow_add_r, Z.pow_1_r by lia. replace (2 * Z.pos m) with (Z.pos m + Z.pos m) by lia. rewrite Z.pow_add_r by lia. ring.
  - rewrite (fast_red_mod c n _ E P), Zmult_mod, IH, <- Zmult_mod. f_equal.
    rewrite Pos2Z.inj_xO. replace (2 * Z.pos m) with (Z.pos m + Z.pos m) by lia. rewrite Z.pow_add_r by lia. reflexivity.
  - rewrite Z.pow_1_r. reflexivity.
Qed.
Lemma fast_pow_mod : forall c n a m, n = 2 ^ 254 + c -> 0 < n -> 0 <= m -> fast_pow c a m mod n = a ^ m mod n.
Proof.
  intros c n a [|m|m] E P H; [reflexivity|apply fast_pow_pos_mod; assumption|lia].
Qed.
