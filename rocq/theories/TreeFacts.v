(** Proofs about src/tree.rs. *)
From Coq Require Import String ZArith List Bool Lia.
From Coq Require Import Init.Byte.
From Verif Require Import Prelude Fields Curve Oracles Sinsemilla Tree PreludeFacts CurveFacts CodecFacts TreeSpec SinsSpec SinsFacts.
Import ListNotations.
Open Scope Z_scope.

Lemma land_even : forall p l, (Z.land p (2 ^ Z.of_nat l) =? 0) = Z.even (p / 2 ^ Z.of_nat l).
Proof.
  intros p l. rewrite <- (negb_involutive (Z.land _ _ =? 0)), land_pow2_testbit by lia.
  rewrite Z.testbit_odd, Z.shiftr_div_pow2 by lia. apply Z.negb_odd.
Qed.

Lemma merkle_depth_32 : merkle_depth = 32%nat. Proof. reflexivity. Qed.

Section Tree.
  Context {C : Curve} {OR : @Oracles C}.
  #[local] Opaque combine.

  (** * C41 *)

  Lemma auth_step : forall leaves pos l, 0 <= pos ->
    (if Z.land pos (2 ^ Z.of_nat l) =? 0
     then combine l (node leaves l (pos / 2 ^ Z.of_nat l)) (node leaves l (neighbour (pos / 2 ^ Z.of_nat l)))
     else combine l (node leaves l (neighbour (pos / 2 ^ Z.of_nat l))) (node leaves l (pos / 2 ^ Z.of_nat l)))
    = node leaves (S l) (pos / 2 ^ Z.of_nat (S l)).
  Proof.
    intros leaves pos l H. rewrite land_even. pose proof (pow2_pos l) as P.
    assert (E : pos / 2 ^ Z.of_nat (S l) = pos / 2 ^ Z.of_nat l / 2).
    { rewrite Z.div_div by lia. f_equal. rewrite pow2_S. ring. }
    rewrite E. set (i := pos / 2 ^ Z.of_nat l). cbn [node]. unfold neighbour.
    destruct (Z.even i) eqn:EV.
    - apply Z.even_spec in EV as [j ->]. replace (2 * j / 2) with j by (rewrite Z.mul_comm, Z.div_mul; lia). reflexivity.
    - assert (OD : Z.odd i = true) by (rewrite <- Z.negb_even, EV; reflexivity).
      apply Z.odd_spec in OD as [j ->]. replace ((2 * j + 1) / 2) with j by lia.
      replace (2 * j + 1 - 1) with (2 * j) by ring. reflexivity.
  Qed.

  Lemma root_loop_auth : forall leaves pos h l, 0 <= pos ->
    root_loop pos l (node leaves l (pos / 2 ^ Z.of_nat l))
      (map (fun l => node leaves l (neighbour (pos / 2 ^ Z.of_nat l))) (seq l h))
    = node leaves (l + h) (pos / 2 ^ Z.of_nat (l + h)).
  Proof.
    induction h as [|h IH]; intros l H.
    - cbn [seq map root_loop]. rewrite Nat.add_0_r. reflexivity.
    - cbn [seq map root_loop]. rewrite auth_step by exact H. rewrite IH by exact H.
      rewrite Nat.add_succ_r. reflexivity.
  Qed.

  Lemma path_gives_root : forall leaves pos, 0 <= pos < 2 ^ 32 ->
    mp_root (mk_path pos (auth_path leaves pos 32)) (leaves pos) = tree_root leaves 32.
  Proof.
    intros leaves pos H. unfold mp_root, auth_path, tree_root. cbn [mp_position mp_auth_path].
    replace (leaves pos) with (node leaves 0 (pos / 2 ^ Z.of_nat 0)).
    - rewrite root_loop_auth by lia. cbn [Nat.add]. f_equal. apply Z.div_small. exact H.
    - cbn [node]. f_equal. apply Z.div_1_r.
  Qed.

  Lemma empty_node : forall l i j, node (fun _ => empty_leaf) l i = node (fun _ => empty_leaf) l j.
  Proof.
    induction l as [|l IH]; intros i j; [reflexivity|]. cbn [node].
    rewrite (IH (2 * i) (2 * j)), (IH (2 * i + 1) (2 * j + 1)). reflexivity.
  Qed.

  Lemma scan_nth : forall n l h, (h < n)%nat ->
    nth_error (empty_roots_scan n l (node (fun _ => empty_leaf) l 0)) h = Some (node (fun _ => empty_leaf) (l + S h) 0).
  Proof.
    induction n as [|n IH]; intros l h H; [lia|]. cbn [empty_roots_scan].
    assert (E : combine l (node (fun _ => empty_leaf) l 0) (node (fun _ => empty_leaf) l 0)
                = node (fun _ => empty_leaf) (S l) 0).
    { cbn [node]. rewrite (empty_node l (2 * 0 + 1) 0). reflexivity. }
    rewrite E. destruct h as [|h].
    - cbn [nth_error]. rewrite Nat.add_1_r. reflexivity.
    - cbn [nth_error]. rewrite IH by lia. f_equal. f_equal. lia.
  Qed.

  Lemma scan_length : forall n l s, length (empty_roots_scan n l s) = n.
  Proof. induction n as [|n IH]; intros; cbn [empty_roots_scan length]; [reflexivity|]. rewrite IH. reflexivity. Qed.

  Lemma empty_roots_spec :
    length empty_roots = 33%nat /\
    (forall h, (h <= 32)%nat -> empty_root h = Ret (tree_root (fun _ => empty_leaf) h)) /\
    (forall h, (32 < h)%nat -> exists w, empty_root h = Panic w).
  Proof.
    assert (HL : length empty_roots = 33%nat).
    { unfold empty_roots. cbn [length]. rewrite scan_length, merkle_depth_32. reflexivity. }
    split; [exact HL|]. split.
    - intros h H. unfold empty_root, empty_roots. destruct h as [|h]; [reflexivity|].
      cbn [nth_error]. change empty_leaf with (node (fun _ => empty_leaf) 0 0) at 1.
      rewrite scan_nth by (rewrite merkle_depth_32; lia). reflexivity.
    - intros h H. unfold empty_root. rewrite (proj2 (nth_error_None _ _)) by lia. eexists. reflexivity.
  Qed.

  Lemma empty_anchor : anchor_empty_tree = Ret (tree_root (fun _ => empty_leaf) 32).
  Proof. unfold anchor_empty_tree. rewrite merkle_depth_32. apply empty_roots_spec. lia. Qed.

  (** A tree whose leaves are all empty except on the first n positions: subtrees past n are
      the empty roots. *)
  Lemma empty_subtree : forall leaves n h i, 0 <= i -> (forall p, n <= p -> leaves p = empty_leaf) ->
    n <= i * 2 ^ Z.of_nat h -> node leaves h i = tree_root (fun _ => empty_leaf) h.
  Proof.
    intros leaves n h. unfold tree_root. induction h as [|h IH]; intros i Hi HE Hn.
    - cbn [node]. apply HE. change (2 ^ Z.of_nat 0) with 1 in Hn. lia.
    - rewrite pow2_S in Hn. cbn [node].
      pose proof (pow2_pos h). rewrite (IH (2 * i)), (IH (2 * i + 1)); try exact HE; try nia.
      rewrite (empty_node h (2 * 0 + 1) 0). reflexivity.
  Qed.

  (** * C42 *)

  Lemma root_loop_inputs : forall pos sibs l x,
    root_loop pos l x sibs =
    match sibs with
    | [] => x
    | s :: rest => let lr := if Z.even (pos / 2 ^ Z.of_nat l) then (x, s) else (s, x) in
                   root_loop pos (S l) (combine l (fst lr) (snd lr)) rest
    end.
  Proof.
    intros pos [|s rest] l x; [reflexivity|]. cbn [root_loop]. rewrite land_even.
    destruct (Z.even (pos / 2 ^ Z.of_nat l)); reflexivity.
  Qed.

  Definition collision_in (i1 i2 : list (nat * Z * Z)) : Prop :=
    exists l a b c d, In (l, a, b) i1 /\ In (l, c, d) i2 /\ (a, b) <> (c, d) /\ combine l a b = combine l c d.

  Lemma root_binds_from : forall pos s1 s2 l x1 x2, length s1 = length s2 ->
    root_loop pos l x1 s1 = root_loop pos l x2 s2 ->
    (x1 = x2 /\ s1 = s2) \/ collision_in (root_inputs pos l x1 s1) (root_inputs pos l x2 s2).
  Proof.
    induction s1 as [|a s1 IH]; intros [|b s2] l x1 x2 HL H; try discriminate HL.
    - left. split; [exact H|reflexivity].
    - rewrite (root_loop_inputs pos (a :: s1)), (root_loop_inputs pos (b :: s2)) in H. cbv zeta in H.
      cbn [root_inputs].
      set (p1 := if Z.even (pos / 2 ^ Z.of_nat l) then (x1, a) else (a, x1)) in *.
      set (p2 := if Z.even (pos / 2 ^ Z.of_nat l) then (x2, b) else (b, x2)) in *.
      apply IH in H; [|cbn in HL; lia]. destruct H as [[H1 H2]|H].
      + assert (D : p1 = p2 \/ p1 <> p2).
        { destruct p1 as [u v], p2 as [u' v']. destruct (Z.eq_dec u u') as [->|N]; [|right; congruence].
          destruct (Z.eq_dec v v') as [->|N]; [left; reflexivity|right; congruence]. }
        destruct D as [D|D].
        * left. subst s2. unfold p1, p2 in D. destruct (Z.even (pos / 2 ^ Z.of_nat l)); injection D as -> ->; auto.
        * right. exists l, (fst p1), (snd p1), (fst p2), (snd p2).
          split; [left; reflexivity|]. split; [left; reflexivity|].
          split; [rewrite <- !surjective_pairing; exact D|exact H1].
      + right. destruct H as (k & u & v & u' & v' & I1 & I2 & NE & E).
        exists k, u, v, u', v'. split; [right; exact I1|]. split; [right; exact I2|]. split; assumption.
  Qed.

  Lemma root_binds : forall pos x1 x2 s1 s2, length s1 = length s2 ->
    mp_root (mk_path pos s1) x1 = mp_root (mk_path pos s2) x2 ->
    (x1 = x2 /\ s1 = s2) \/
    exists l a b c d, In (l, a, b) (root_inputs pos 0 x1 s1) /\ In (l, c, d) (root_inputs pos 0 x2 s2) /\
                      (a, b) <> (c, d) /\ combine l a b = combine l c d.
  Proof. intros pos x1 x2 s1 s2. apply root_binds_from. Qed.

  (** Different node inputs are different hashed messages. *)
  Lemma merkle_msg_inj : forall l a b l' c d, (l < 1024)%nat -> (l' < 1024)%nat ->
    is_base a -> is_base b -> is_base c -> is_base d ->
    merkle_msg l a b = merkle_msg l' c d -> l = l' /\ a = c /\ b = d.
  Proof.
    intros l a b l' c d Hl Hl' Ha Hb Hc Hd H. unfold merkle_msg in H.
    pose proof pmod_lt_pow255 as P. unfold is_base in *.
    apply app_inj_len in H as [H1 H]; [|rewrite !le_bits_length; reflexivity].
    apply app_inj_len in H as [H2 H3]; [|rewrite !le_bits_length; reflexivity].
    apply (le_bits_inj 10) in H1; [|change (2 ^ Z.of_nat 10) with 1024; lia|change (2 ^ Z.of_nat 10) with 1024; lia].
    apply (le_bits_inj 255) in H2; [|change (Z.of_nat 255) with 255; lia|change (Z.of_nat 255) with 255; lia].
    apply (le_bits_inj 255) in H3; [|change (Z.of_nat 255) with 255; lia|change (Z.of_nat 255) with 255; lia].
    split; [lia|]. split; assumption.
  Qed.

  Variable L : CurveLaws C.
  #[local] Transparent combine.
  Lemma combine_base : forall l a b, is_base (combine l a b).
  Proof.
    intros l a b. unfold combine, sins_hash. destruct (sins_hash_to_point _ _) as [P|]; cbn [option_map].
    - apply (x_range L).
    - pose proof pmod_pos. split; [apply Z.le_refl|assumption].
  Qed.
  #[local] Opaque combine.

  Lemma root_inputs_base : forall pos sibs l x k a b, is_base x -> Forall is_base sibs ->
    In (k, a, b) (root_inputs pos l x sibs) -> is_base a /\ is_base b /\ (l <= k < l + length sibs)%nat.
  Proof.
    induction sibs as [|s sibs IH]; intros l x k a b Hx Hs H; [destruct H|].
    apply Forall_cons_iff in Hs as [Hs Hss]. cbn [root_inputs] in H. destruct H as [H|H].
    - destruct (Z.even (pos / 2 ^ Z.of_nat l)); cbn [fst snd] in H;
        injection H as <- <- <-; cbn [length]; repeat split; try apply Hx; try apply Hs; lia.
    - apply IH in H; [|apply combine_base|exact Hss]. cbn [length]. destruct H as (A & B & D). repeat split; try apply A; try apply B; lia.
  Qed.

  (** The final form of C42, with the two colliding Sinsemilla messages. *)
  Lemma merkle_binding : forall pos x1 x2 s1 s2,
    length s1 = 32%nat -> length s2 = 32%nat -> is_base x1 -> is_base x2 -> Forall is_base s1 -> Forall is_base s2 ->
    mp_root (mk_path pos s1) x1 = mp_root (mk_path pos s2) x2 ->
    (x1 = x2 /\ s1 = s2) \/
    exists l a b c d, In (l, a, b) (root_inputs pos 0 x1 s1) /\ In (l, c, d) (root_inputs pos 0 x2 s2) /\
                      combine l a b = combine l c d /\ merkle_msg l a b <> merkle_msg l c d.
  Proof.
    intros pos x1 x2 s1 s2 L1 L2 B1 B2 F1 F2 H.
    destruct (root_binds pos x1 x2 s1 s2) as [E|(l & a & b & c & d & I1 & I2 & NE & E)]; [congruence|exact H|left; exact E|].
    right. exists l, a, b, c, d. split; [exact I1|]. split; [exact I2|]. split; [exact E|].
    intro M. apply NE.
    apply root_inputs_base in I1 as (A1 & A2 & A3); [|exact B1|exact F1].
    apply root_inputs_base in I2 as (A4 & A5 & A6); [|exact B2|exact F2].
    apply merkle_msg_inj in M as (_ & -> & ->); try assumption; try lia. reflexivity.
  Qed.

  Lemma mp_from_position_spec : forall pos elems, 0 <= pos < 2 ^ 32 ->
    (length elems = 32%nat -> mp_from_position pos elems = Ret (mk_path pos elems)) /\
    (length elems <> 32%nat -> exists w, mp_from_position pos elems = Panic w).
  Proof.
    intros pos elems H. unfold mp_from_position. rewrite merkle_depth_32. split; intro HL.
    - rewrite HL. cbn [Nat.eqb assert_ obind]. rewrite Z.mod_small by exact H. reflexivity.
    - rewrite (proj2 (Nat.eqb_neq _ _) HL). eexists. reflexivity.
  Qed.

  Lemma path_gives_root_full : forall leaves pos, 0 <= pos < 2 ^ 32 ->
    mp_from_position pos (auth_path leaves pos 32) = Ret (mk_path pos (auth_path leaves pos 32)) /\
    mp_root (mk_path pos (auth_path leaves pos 32)) (leaves pos) = tree_root leaves 32.
  Proof.
    intros leaves pos H. split; [|apply path_gives_root; exact H].
    apply mp_from_position_spec; [exact H|]. unfold auth_path. rewrite map_length, seq_length. reflexivity.
  Qed.

  Lemma empty_roots_full :
    anchor_empty_tree = Ret (tree_root (fun _ => empty_leaf) 32) /\
    (forall h, (h <= 32)%nat -> empty_root h = Ret (tree_root (fun _ => empty_leaf) h)) /\
    (forall h, (32 < h)%nat -> exists w, empty_root h = Panic w) /\
    (forall leaves n h i, 0 <= i -> (forall p, n <= p -> leaves p = empty_leaf) ->
       n <= i * 2 ^ Z.of_nat h -> node leaves h i = tree_root (fun _ => empty_leaf) h).
  Proof.
    split; [exact empty_anchor|]. split; [apply empty_roots_spec|]. split; [apply empty_roots_spec|exact empty_subtree].
  Qed.

  Lemma merkle_msg_length : forall l a b, length (merkle_msg l a b) = 520%nat.
  Proof. intros. unfold merkle_msg. rewrite !app_length, !le_bits_length. reflexivity. Qed.

  #[local] Transparent combine.
  #[local] Opaque sins_hash msg_words merkle_msg sins_Q.
  Lemma merkle_collision : forall l a b c d,
    combine l a b = combine l c d -> merkle_msg l a b <> merkle_msg l c d ->
    let Q := sins_Q "z.cash:Orchard-MerkleCRH" in
    sins_relation Q (msg_words (merkle_msg l a b)) (msg_words (merkle_msg l c d)) \/
    sins_exception Q (msg_words (merkle_msg l a b)) \/ sins_exception Q (msg_words (merkle_msg l c d)).
  Proof.
    intros l a b c d H NE. cbv zeta. unfold combine in H.
    pose proof (merkle_msg_length l a b) as L1. pose proof (merkle_msg_length l c d) as L2.
    destruct (sins_hash _ (merkle_msg l a b)) as [x|] eqn:E1; [|right; left; apply (hash_undefined L); exact E1].
    destruct (sins_hash _ (merkle_msg l c d)) as [y|] eqn:E2; [|right; right; apply (hash_undefined L); exact E2].
    left. subst y. assert (L3 : (length (merkle_msg l a b) <= 2530)%nat) by lia. assert (L4 : length (merkle_msg l a b) = length (merkle_msg l c d)) by congruence.
    clear L1 L2. exact (hash_collision L _ _ _ x L4 L3 NE E1 E2).
  Qed.
End Tree.
