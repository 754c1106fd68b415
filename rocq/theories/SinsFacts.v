(** Proofs about Sinsemilla: the hash as a linear combination, and what a collision gives. *)
From Coq Require Import String ZArith List Bool Lia.
From Coq Require Import Init.Byte.
From Verif Require Import Prelude Fields Curve Oracles Sinsemilla PreludeFacts NumTheory CurveFacts CodecFacts SinsSpec.
Import ListNotations.
Open Scope Z_scope.

(** * Weights *)

Lemma weight_range : forall ws j, 0 <= weight ws j < 2 ^ Z.of_nat (length ws).
Proof.
  induction ws as [|w ws IH]; intro j; cbn [weight length]; [change (2 ^ Z.of_nat 0) with 1; lia|].
  rewrite pow2_S. specialize (IH j). destruct (w =? j); lia.
Qed.

Lemma weight_distinct : forall ws ws', length ws = length ws' -> Forall is_word ws -> Forall is_word ws' ->
  ws <> ws' -> exists j, is_word j /\ weight ws j <> weight ws' j.
Proof.
  induction ws as [|w ws IH]; intros [|w' ws'] HL F F' NE; try discriminate HL; [contradiction|].
  apply Forall_cons_iff in F as [Hw F]. apply Forall_cons_iff in F' as [Hw' F'].
  assert (HL' : length ws = length ws') by (cbn in HL; lia).
  destruct (Z.eq_dec w w') as [->|N].
  - destruct (IH ws' HL' F F') as (j & Hj & D); [congruence|]. exists j. split; [exact Hj|].
    cbn [weight]. rewrite HL'. lia.
  - exists w. split; [exact Hw|]. cbn [weight]. rewrite Z.eqb_refl, (proj2 (Z.eqb_neq w' w)) by congruence.
    pose proof (weight_range ws w). pose proof (weight_range ws' w). rewrite HL' in *. lia.
Qed.

Lemma in_words : forall j, In j (map Z.of_nat (seq 0 1024)) <-> is_word j.
Proof.
  intro j. unfold is_word. rewrite in_map_iff. split.
  - intros (n & <- & H). apply in_seq in H. lia.
  - intro H. exists (Z.to_nat j). split; [lia|]. apply in_seq. lia.
Qed.
Lemma nodup_words : NoDup (map Z.of_nat (seq 0 1024)).
Proof.
  apply FinFun.Injective_map_NoDup; [|apply seq_NoDup]. intros a b H. lia.
Qed.

(** * Words of a message *)

Lemma sins_words_length : forall n m, length (sins_words n m) = n.
Proof. induction n as [|n IH]; intro m; cbn [sins_words length]; [reflexivity|]. rewrite IH. reflexivity. Qed.

Lemma sins_words_range : forall n m, Forall is_word (sins_words n m).
Proof.
  induction n as [|n IH]; intro m; cbn [sins_words]; constructor; [|apply IH].
  pose proof (bits_val_range (firstn 10 m)) as R. unfold is_word.
  assert (length (firstn 10 m) <= 10)%nat by apply firstn_le_length.
  assert (2 ^ Z.of_nat (length (firstn 10 m)) <= 2 ^ Z.of_nat 10) by (apply Z.pow_le_mono_r; lia).
  change (2 ^ Z.of_nat 10) with 1024 in *. lia.
Qed.

Lemma sins_words_inj : forall n a b, length a = (10 * n)%nat -> length b = (10 * n)%nat ->
  sins_words n a = sins_words n b -> a = b.
Proof.
  induction n as [|n IH]; intros a b Ha Hb H.
  - destruct a; [|cbn in Ha; lia]. destruct b; [reflexivity|cbn in Hb; lia].
  - cbn [sins_words] in H.
    assert (H1 : bits_val (firstn 10 a) = bits_val (firstn 10 b)) by congruence.
    assert (H2 : sins_words n (skipn 10 a) = sins_words n (skipn 10 b)) by congruence.
    apply bits_val_inj in H1; [|rewrite !firstn_length; lia].
    apply IH in H2; [|rewrite skipn_length; lia|rewrite skipn_length; lia].
    rewrite <- (firstn_skipn 10 a), <- (firstn_skipn 10 b), H1, H2. reflexivity.
Qed.

Lemma pad_length : forall m, exists n, length (sins_pad m) = (10 * n)%nat /\ n = ((length m + 9) / 10)%nat.
Proof.
  intro m. exists ((length m + 9) / 10)%nat. split; [|reflexivity].
  unfold sins_pad. rewrite app_length, repeat_length.
  lia.
Qed.

Lemma msg_words_length : forall m, length (msg_words m) = ((length m + 9) / 10)%nat.
Proof.
  intro m. unfold msg_words. rewrite sins_words_length. destruct (pad_length m) as (n & E & ->). rewrite E.
  rewrite Nat.mul_comm, Nat.div_mul; lia.
Qed.
Lemma msg_words_range : forall m, Forall is_word (msg_words m).
Proof. intro m. apply sins_words_range. Qed.
Lemma msg_words_inj : forall a b, length a = length b -> msg_words a = msg_words b -> a = b.
Proof.
  intros a b HL H. unfold msg_words in H.
  destruct (pad_length a) as (n & Ea & Na). destruct (pad_length b) as (n' & Eb & Nb).
  assert (EN : n' = n) by congruence. clear Na Nb. subst n'.
  assert (X : (10 * n / 10 = n)%nat) by (rewrite Nat.mul_comm, Nat.div_mul; lia).
  rewrite Ea, Eb, X in H. apply sins_words_inj in H; [|exact Ea|exact Eb].
  unfold sins_pad in H. apply app_inj_len in H as [H _]; [exact H|exact HL].
Qed.

Section Sins.
  Context {C : Curve} {OR : @Oracles C}.
  Variable L : CurveLaws C.

  (** * Linear combinations *)

  Lemma pt_sum_add : forall l f g,
    pt_sum (map (fun j => pt_mul (f j + g j) (sins_S j)) l) =
    pt_add (pt_sum (map (fun j => pt_mul (f j) (sins_S j)) l)) (pt_sum (map (fun j => pt_mul (g j) (sins_S j)) l)).
  Proof.
    induction l as [|j l IH]; intros f g; cbn [map].
    - rewrite pt_sum_nil. symmetry. apply (add_id_l L).
    - rewrite !(pt_sum_cons L), IH, (mul_add L). apply (add_4 L).
  Qed.

  Lemma gens_add : forall f g, gens_sum (fun j => f j + g j) = pt_add (gens_sum f) (gens_sum g).
  Proof. intros. apply pt_sum_add. Qed.

  Lemma gens_ext : forall f g, (forall j, f j = g j) -> gens_sum f = gens_sum g.
  Proof. intros f g H. unfold gens_sum. f_equal. apply map_ext. intro j. rewrite H. reflexivity. Qed.

  Lemma gens_opp : forall f, gens_sum (fun j => - f j) = pt_neg (gens_sum f).
  Proof.
    intro f. apply (neg_unique L). rewrite <- gens_add.
    unfold gens_sum. generalize (map Z.of_nat (seq 0 1024)) as l.
    induction l as [|j l IH]; cbn [map]; [apply pt_sum_nil|].
    rewrite (pt_sum_cons L), IH, Z.add_opp_diag_r, mul_0. apply (add_id_l L).
  Qed.

  Lemma gens_single : forall w c, is_word w -> gens_sum (fun j => if w =? j then c else 0) = pt_mul c (sins_S w).
  Proof.
    intros w c Hw. unfold gens_sum. apply in_words in Hw. revert Hw. generalize nodup_words.
    generalize (map Z.of_nat (seq 0 1024)) as l.
    assert (Z0 : forall l, ~ In w l -> pt_sum (map (fun j => pt_mul (if w =? j then c else 0) (sins_S j)) l) = pt_id).
    { induction l as [|j l IH]; intro N; cbn [map]; [apply pt_sum_nil|].
      rewrite (pt_sum_cons L), IH by (intro X; apply N; right; exact X).
      rewrite (proj2 (Z.eqb_neq w j)) by (intro X; apply N; left; congruence).
      rewrite mul_0. apply (add_id_l L). }
    induction l as [|j l IH]; intros ND HI; [destruct HI|].
    apply NoDup_cons_iff in ND as [NI ND]. cbn [map]. rewrite (pt_sum_cons L).
    destruct (Z.eqb_spec w j) as [->|N].
    - rewrite Z0 by exact NI. apply (add_id_r L).
    - destruct HI as [X|HI]; [congruence|]. rewrite IH by assumption. rewrite mul_0. apply (add_id_l L).
  Qed.

  Lemma gens_zero : gens_sum (fun _ => 0) = pt_id.
  Proof.
    unfold gens_sum. induction (map Z.of_nat (seq 0 1024)) as [|j l IH]; cbn [map]; [apply pt_sum_nil|].
    rewrite (pt_sum_cons L), IH, mul_0. apply (add_id_l L).
  Qed.

  Lemma lin_cons : forall Q w ws, is_word w ->
    lin Q (2 ^ Z.of_nat (length (w :: ws))) (weight (w :: ws)) =
    lin (pt_add (pt_mul 2 Q) (sins_S w)) (2 ^ Z.of_nat (length ws)) (weight ws).
  Proof.
    intros Q w ws Hw. unfold lin. cbn [length]. rewrite pow2_S.
    rewrite (gens_ext (weight (w :: ws)) (fun j => (if w =? j then 2 ^ Z.of_nat (length ws) else 0) + weight ws j))
      by (intro; reflexivity).
    rewrite gens_add, gens_single by exact Hw. rewrite (mul_add_r L), Z.mul_comm, (mul_mul L), (add_assoc L). reflexivity.
  Qed.

  Lemma lin_nil : forall Q, lin Q (2 ^ Z.of_nat 0) (weight []) = Q.
  Proof.
    intro Q. unfold lin. change (2 ^ Z.of_nat 0) with 1. rewrite mul_1.
    rewrite (gens_ext (weight []) (fun _ => 0)) by reflexivity. rewrite gens_zero. apply (add_id_r L).
  Qed.

  (** * The hash is a linear combination *)

  Lemma inc_add_some : forall P Q R, inc_add P Q = Some R -> R = pt_add P Q.
  Proof.
    intros P Q R H. unfold inc_add in H. destruct (pt_is_id P || pt_is_id Q || (pt_x P =? pt_x Q)); [discriminate H|].
    congruence.
  Qed.

  Lemma step_some : forall a w b, sins_step (Some a) w = Some b -> b = pt_add (pt_mul 2 a) (sins_S w).
  Proof.
    intros a w b H. unfold sins_step in H. cbn [optbind] in H.
    destruct (inc_add a (sins_S w)) as [c|] eqn:E; [|discriminate H]. cbn [optbind] in H.
    apply inc_add_some in E. apply inc_add_some in H. subst.
    change 2 with (1 + 1). rewrite (mul_add L), mul_1. rewrite <- !(add_assoc L). f_equal. apply (add_comm L).
  Qed.

  Lemma fold_none : forall ws, fold_left sins_step ws None = None.
  Proof. induction ws as [|w ws IH]; [reflexivity|]. exact IH. Qed.

  Lemma hash_words_lin : forall ws Q P, Forall is_word ws -> sins_hash_words Q ws = Some P ->
    P = lin Q (2 ^ Z.of_nat (length ws)) (weight ws).
  Proof.
    unfold sins_hash_words. induction ws as [|w ws IH]; intros Q P F H.
    - cbn in H. injection H as <-. symmetry. apply lin_nil.
    - apply Forall_cons_iff in F as [Hw F]. cbn [fold_left] in H.
      destruct (sins_step (Some Q) w) as [b|] eqn:E; [|rewrite fold_none in H; discriminate H].
      rewrite lin_cons by exact Hw. apply step_some in E. subst b. apply IH; assumption.
  Qed.

  (** * When it is undefined *)

  Lemma inc_add_none : forall P Q, inc_add P Q = None -> P = pt_id \/ Q = pt_id \/ P = Q \/ pt_add P Q = pt_id.
  Proof.
    intros P Q H. unfold inc_add in H.
    destruct (pt_is_id P) eqn:E1; [left; apply (is_id_true L); exact E1|].
    destruct (pt_is_id Q) eqn:E2; [right; left; apply (is_id_true L); exact E2|].
    cbn [orb] in H. destruct (Z.eqb_spec (pt_x P) (pt_x Q)) as [E|E]; [|discriminate H].
    right. right. destruct (pt_x_inj C L P Q E) as [-> | ->]; [left; reflexivity|right]. apply (add_neg_l L).
  Qed.

  Lemma step_none : forall a w, sins_step (Some a) w = None ->
    a = pt_id \/ sins_S w = pt_id \/ a = sins_S w \/ pt_add a (sins_S w) = pt_id \/
    pt_add (pt_add a (sins_S w)) a = pt_id.
  Proof.
    intros a w H. unfold sins_step in H. cbn [optbind] in H.
    destruct (inc_add a (sins_S w)) as [c|] eqn:E; cbn [optbind] in H.
    - apply inc_add_some in E. subst c. apply inc_add_none in H as [H|[H|[H|H]]]; auto 6.
      right. left. apply (add_cancel_l L a). rewrite H. symmetry. apply (add_id_r L).
    - apply inc_add_none in E as [H1|[H1|[H1|H1]]]; auto 6.
  Qed.

  Lemma hash_words_none : forall ws Q, Forall is_word ws -> sins_hash_words Q ws = None -> sins_exception Q ws.
  Proof.
    unfold sins_hash_words. induction ws as [|w ws IH]; intros Q F H; [discriminate H|].
    apply Forall_cons_iff in F as [Hw F]. cbn [fold_left] in H.
    destruct (sins_step (Some Q) w) as [b|] eqn:E.
    - apply step_some in E. destruct (IH b F H) as (pre & v & post & E1 & X). subst ws.
      exists (w :: pre), v, post. split; [reflexivity|]. cbv zeta in *.
      rewrite lin_cons by exact Hw. subst b. exact X.
    - exists [], w, ws. split; [reflexivity|]. cbv zeta. cbn [length]. rewrite lin_nil. apply step_none. exact E.
  Qed.

  (** * Collisions *)

  Lemma pow2_lt_q : forall n, (n <= 253)%nat -> 2 ^ Z.of_nat n < qmod.
  Proof.
    intros n H. apply Z.le_lt_trans with (2 ^ 253); [apply Z.pow_le_mono_r; lia|]. reflexivity.
  Qed.

  Lemma weight_diff_mod : forall ws ws' j, length ws = length ws' -> (length ws <= 253)%nat ->
    weight ws j <> weight ws' j -> (weight ws j - weight ws' j) mod qmod <> 0.
  Proof.
    intros ws ws' j HL HB N E. pose proof (weight_range ws j). pose proof (weight_range ws' j).
    rewrite <- HL in *. pose proof (pow2_lt_q _ HB). pose proof qmod_pos.
    apply Z.mod_divide in E; [|lia]. destruct E as [k E].
    assert (k = 0) by nia. nia.
  Qed.

  Lemma lin_sub : forall Q c ws ws',
    pt_sub (lin Q c (weight ws)) (lin Q c (weight ws')) = lin Q 0 (fun j => weight ws j - weight ws' j).
  Proof.
    intros. unfold lin. rewrite mul_0, (add_id_l L).
    rewrite (gens_ext (fun j => weight ws j - weight ws' j) (fun j => weight ws j + - weight ws' j)) by (intro; ring).
    rewrite gens_add, gens_opp. unfold pt_sub. rewrite (neg_add L), (add_4 L), (add_neg_r L), (add_id_l L). reflexivity.
  Qed.

  Lemma lin_add : forall Q c ws ws',
    pt_add (lin Q c (weight ws)) (lin Q c (weight ws')) = lin Q (2 * c) (fun j => weight ws j + weight ws' j).
  Proof.
    intros. unfold lin. rewrite gens_add. replace (2 * c) with (c + c) by ring.
    rewrite (mul_add L). apply (add_4 L).
  Qed.

  Lemma collision_relation : forall Q ws ws' P P',
    length ws = length ws' -> (length ws <= 253)%nat -> Forall is_word ws -> Forall is_word ws' -> ws <> ws' ->
    sins_hash_words Q ws = Some P -> sins_hash_words Q ws' = Some P' -> pt_x P = pt_x P' ->
    sins_relation Q ws ws'.
  Proof.
    intros Q ws ws' P P' HL HB F F' NE H H' HX.
    apply hash_words_lin in H; [|exact F]. apply hash_words_lin in H'; [|exact F']. rewrite <- HL in H'.
    destruct (weight_distinct _ _ HL F F' NE) as (j & Hj & D).
    destruct (pt_x_inj C L _ _ HX) as [E|E].
    - left. split.
      + rewrite <- (lin_sub Q (2 ^ Z.of_nat (length ws))), <- H, <- H', E. apply (sub_self L).
      + exists j. split; [exact Hj|]. apply weight_diff_mod; assumption.
    - right. rewrite <- lin_add, <- H, <- H', E. apply (add_neg_l L).
  Qed.

  (** C59 on messages: same length, different bits, same hash. *)
  Lemma msg_words_bound : forall m, (length m <= 2530)%nat -> (length (msg_words m) <= 253)%nat.
  Proof. intros m H. rewrite msg_words_length. lia. Qed.

  Lemma hash_collision : forall D m m' x,
    length m = length m' -> (length m <= 2530)%nat -> m <> m' ->
    sins_hash D m = Some x -> sins_hash D m' = Some x ->
    sins_relation (sins_Q D) (msg_words m) (msg_words m').
  Proof.
    intros D m m' x HL HB NE H H'. unfold sins_hash, sins_hash_to_point in *.
    destruct (sins_hash_words (sins_Q D) (msg_words m)) as [P|] eqn:E; [|discriminate H].
    destruct (sins_hash_words (sins_Q D) (msg_words m')) as [P'|] eqn:E'; [|discriminate H'].
    cbn [option_map] in *. unfold extract_p in *.
    apply (collision_relation _ _ _ P P'); try apply msg_words_range; try assumption; try congruence.
    - rewrite !msg_words_length, HL. reflexivity.
    - apply msg_words_bound. exact HB.
    - intro X. apply NE. apply msg_words_inj; assumption.
  Qed.

  Lemma hash_undefined : forall D m, sins_hash D m = None -> sins_exception (sins_Q D) (msg_words m).
  Proof.
    intros D m H. unfold sins_hash, sins_hash_to_point in H. apply hash_words_none; [apply msg_words_range|].
    destruct (sins_hash_words _ _); [discriminate H|reflexivity].
  Qed.

  Lemma commit_none : forall D m r, sins_commit D m r = None ->
    sins_exception (sins_Q (D ++ "-M")) (msg_words m).
  Proof.
    intros D m r H. unfold sins_commit, sins_hash_to_point in H. apply hash_words_none; [apply msg_words_range|].
    destruct (sins_hash_words _ _); [discriminate H|reflexivity].
  Qed.

  Lemma commit_lin : forall D m r P, sins_commit D m r = Some P ->
    P = pt_add (lin (sins_Q (D ++ "-M")) (2 ^ Z.of_nat (length (msg_words m))) (weight (msg_words m)))
               (pt_mul r (commit_R D)).
  Proof.
    intros D m r P H. unfold sins_commit, sins_hash_to_point in H.
    destruct (sins_hash_words _ _) as [H0|] eqn:E; [|discriminate H]. cbn [optbind] in H.
    apply hash_words_lin in E; [|apply msg_words_range]. injection H as <-. rewrite E. reflexivity.
  Qed.

  (** Two different openings of one commitment x-coordinate. *)
  Lemma commit_collision : forall D m m' r r' P P',
    length m = length m' -> (length m <= 2530)%nat -> (m, r mod qmod) <> (m', r' mod qmod) ->
    sins_commit D m r = Some P -> sins_commit D m' r' = Some P' -> pt_x P = pt_x P' ->
    sins_relation_R (sins_Q (D ++ "-M")) (commit_R D) (msg_words m) (msg_words m') r r'.
  Proof.
    intros D m m' r r' P P' HL HB NE H H' HX.
    apply commit_lin in H. apply commit_lin in H'.
    assert (WL : length (msg_words m) = length (msg_words m')) by (rewrite !msg_words_length, HL; reflexivity).
    rewrite <- WL in H'.
    destruct (pt_x_inj C L _ _ HX) as [E|E].
    - left. split.
      + rewrite <- (lin_sub (sins_Q (D ++ "-M")) (2 ^ Z.of_nat (length (msg_words m)))).
        rewrite (mul_sub L). unfold pt_sub. rewrite (add_4 L), <- (neg_add L), <- H, <- H', E. apply (add_neg_r L).
      + destruct (list_eq_dec Z.eq_dec (msg_words m) (msg_words m')) as [W|W].
        * right. intro X. apply NE. apply msg_words_inj in W; [|exact HL]. subst m'. f_equal.
          pose proof qmod_pos. apply mod_eq_divide; [lia|]. apply Z.mod_divide; [lia|exact X].
        * left. destruct (weight_distinct _ _ WL (msg_words_range m) (msg_words_range m') W) as (j & Hj & Dj).
          exists j. split; [exact Hj|]. apply weight_diff_mod; try assumption. apply msg_words_bound. exact HB.
    - right. rewrite <- lin_add. rewrite (mul_add L), (add_4 L), <- H, <- H', E. apply (add_neg_l L).
  Qed.
End Sins.
