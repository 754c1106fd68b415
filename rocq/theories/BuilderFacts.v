(** Facts about the builder (C07-C16). *)
From Coq Require Import String ZArith List Bool Lia Permutation.
From Coq Require Import Init.Byte.
From Verif Require Import Prelude Fields Curve Oracles RedPallas Value Keys Note Tree Action NoteEnc Bundle Builder
  PreludeFacts CurveFacts CodecFacts FieldFacts ValueFacts KeysSpec KeysFacts NoteSpec NoteFacts NoteEncSpec NoteEncFacts
  Spec BundleSpec BundleFacts BuilderSpec.
Import ListNotations.
Open Scope Z_scope.

Section Steps.
  Context {C : Curve} {OR : @Oracles C}.
  Variable L : CurveLaws C.

  #[local] Opaque commitment fvk_scope_for_address mp_root note_nullifier.

  (** * C07 *)

  Lemma owner_of_scope : forall f a, fvk_ok f -> exists o, fvk_scope_for_address f a = Ret o /\
    match o with Some s => owner f a s | None => forall s, ~ owner f a s end.
  Proof.
    intros f a K. destruct (scope_spec L f a K) as (o & E & H). exists o. split; [exact E|].
    destruct o as [[|]|]; cbn [owner]; [exact H|exact H|].
    intros [|]; cbn [owner]; [apply H|]. intros [X _]. apply (proj2 H). exact X.
  Qed.

  Lemma anchor_spec : forall s anchor cm, commitment (s_note s) = Ret cm ->
    exists ok, has_matching_anchor s anchor = Ret ok /\ (ok = true <-> witnessed (s_note s) (s_path s) anchor).
  Proof.
    intros s anchor cm HC. unfold has_matching_anchor, witnessed. destruct (n_value (s_note s) =? 0) eqn:E.
    - exists true. apply Z.eqb_eq in E. split; [reflexivity|]. split; auto.
    - apply Z.eqb_neq in E. rewrite HC. cbn [obind]. eexists. split; [reflexivity|]. rewrite Z.eqb_eq. split.
      + intro H. right. exists cm. split; [reflexivity|exact H].
      + intros [H | (cm' & H & H')]; [contradiction|]. assert (cm' = cm) by congruence. subst cm'. exact H'.
  Qed.

  Lemma step_correct : forall b c, call_ok c -> exists r b', step b c = Ret (r, b') /\ step_spec b c r b'.
  Proof.
    intros b [f n p | k a v m] H; cbn [step call_ok] in *.
    - destruct H as (HF & HN & (cm & HC) & HP). unfold add_spend.
      destruct (spends_enabled (bt_flags (bl_type b))) eqn:E; cbn [negb].
      + unfold spend_info_new. destruct (owner_of_scope f (n_recipient n) HF) as (o & -> & HO). cbn [obind].
        destruct o as [s|].
        * destruct (anchor_spec (mk_spend None f s n p) (bl_anchor b) cm HC) as (ok & -> & HW). cbn [obind].
          cbn [s_note s_path] in HW. destruct ok; cbn [negb].
          -- eexists _, _. split; [reflexivity|]. apply spend_accepted; [exact E|exact HO|apply HW; reflexivity].
          -- eexists _, _. split; [reflexivity|]. apply (spend_unwitnessed _ _ _ _ s); [exact E|exact HO|].
             intro X. apply HW in X. discriminate X.
        * eexists _, _. split; [reflexivity|]. apply spend_foreign; assumption.
      + eexists _, _. split; [reflexivity|]. apply spend_disabled. exact E.
    - unfold add_output. destruct (outputs_enabled (bt_flags (bl_type b))) eqn:E; cbn [negb].
      + eexists _, _. split; [reflexivity|]. apply output_accepted. exact E.
      + eexists _, _. split; [reflexivity|]. apply output_disabled. exact E.
  Qed.

  Lemma step_spec_fixed : forall b c r b', step_spec b c r b' -> bl_type b' = bl_type b /\ bl_anchor b' = bl_anchor b.
  Proof. intros b c r b' H. destruct H; split; reflexivity. Qed.

  Lemma step_legal : forall b c r b', call_ok c -> step_spec b c r b' -> builder_legal b -> builder_legal b'.
  Proof.
    intros b c r b' K H [LS LO].
    destruct H as [f n p E|f n p E N|f n p s E O W|f n p s E O W|k a v m E|k a v m E];
      try (split; assumption); unfold builder_legal; cbn [with_spend with_output bl_spends bl_outputs bl_type bl_anchor call_ok] in *.
    - split; [|exact LO]. apply Forall_app. split; [exact LS|]. constructor; [|constructor].
      destruct K as (K1 & K2 & K3 & K4). constructor; cbn [s_dummy_sk s_fvk s_note s_path s_scope]; auto.
    - split; [exact LS|]. apply Forall_app. split; [exact LO|]. constructor; [|constructor].
      destruct K as (K1 & K2 & K3 & K4). constructor; cbn [o_ovk o_recipient o_value o_memo]; auto.
      destruct m as [m|]; [apply K4; reflexivity|reflexivity].
  Qed.

  Lemma step_sound : forall b c r b', call_ok c -> step b c = Ret (r, b') -> step_spec b c r b'.
  Proof.
    intros b c r b' K H. destruct (step_correct b c K) as (r0 & b0 & E & S).
    assert (X : (r, b') = (r0, b0)) by congruence. injection X as -> ->. exact S.
  Qed.

  Lemma run_total : forall l b, Forall call_ok l -> exists rs b', run b l = Ret (rs, b').
  Proof.
    induction l as [|c l IH]; intros b H; cbn [run]; [eexists _, _; reflexivity|].
    inversion H as [|? ? H1 H2]; subst. destruct (step_correct b c H1) as (r & b1 & -> & _). cbn [obind].
    destruct (IH b1 H2) as (rs & b2 & ->). cbn [obind]. eexists _, _. reflexivity.
  Qed.

  Lemma run_spec : forall l b rs b', Forall call_ok l -> run b l = Ret (rs, b') -> builder_legal b ->
    builder_legal b' /\ bl_type b' = bl_type b /\ bl_anchor b' = bl_anchor b /\ length rs = length l /\
    map (fun s => (s_fvk s, s_note s, s_path s)) (bl_spends b') =
      map (fun s => (s_fvk s, s_note s, s_path s)) (bl_spends b) ++ accepted_spends l rs /\
    bl_outputs b' = bl_outputs b ++ accepted_outputs l rs.
  Proof.
    induction l as [|c l IH]; intros b rs b' H R LB; cbn [run] in R.
    - injection R as <- <-. cbn [accepted_spends accepted_outputs]. rewrite !app_nil_r. auto 10.
    - inversion H as [|? ? H1 H2]; subst. destruct (step b c) as [[r b1]|w|] eqn:E; cbn [obind] in R; try discriminate R.
      destruct (run b1 l) as [[rs1 b2]|w|] eqn:E2; cbn [obind] in R; try discriminate R. injection R as <- <-.
      apply (step_sound _ _ _ _ H1) in E.
      destruct (IH b1 rs1 b2 H2 E2 (step_legal _ _ _ _ H1 E LB)) as (A1 & A2 & A3 & A4 & A5 & A6).
      destruct (step_spec_fixed _ _ _ _ E) as [F1 F2].
      split; [exact A1|]. split; [congruence|]. split; [congruence|]. split; [cbn [length]; congruence|].
      rewrite A5, A6.
      destruct E; cbn [accepted_spends accepted_outputs with_spend with_output bl_spends bl_outputs]; split; try reflexivity;
        rewrite ?map_app, <- ?app_assoc; reflexivity.
  Qed.

  Lemma run_from_new : forall l t anchor rs b, Forall call_ok l -> run (builder_new t anchor) l = Ret (rs, b) ->
    builder_legal b /\ bl_type b = t /\ bl_anchor b = anchor /\ length rs = length l /\
    map (fun s => (s_fvk s, s_note s, s_path s)) (bl_spends b) = accepted_spends l rs /\
    bl_outputs b = accepted_outputs l rs.
  Proof.
    intros l t anchor rs b H R. apply (run_spec l (builder_new t anchor) rs b H R). split; constructor.
  Qed.

  Lemma reachable_legal : forall t anchor b, reachable t anchor b ->
    builder_legal b /\ bl_type b = t /\ bl_anchor b = anchor.
  Proof.
    intros t anchor b (l & rs & H & R). destruct (run_from_new _ _ _ _ _ H R) as (A & B & D & _). auto.
  Qed.
End Steps.

(** * Lists *)

Lemma set_nth_length : forall A i (x : A) l, length (set_nth i x l) = length l.
Proof.
  intros A i x l. revert i. induction l as [|a l IH]; intros [|i]; cbn [set_nth length]; try reflexivity.
  rewrite IH. reflexivity.
Qed.
Lemma set_nth_same : forall A i (x : A) l, (i < length l)%nat -> nth_error (set_nth i x l) i = Some x.
Proof.
  intros A i x l. revert i. induction l as [|a l IH]; intros [|i] H; cbn [set_nth length nth_error] in *; try lia; [reflexivity|].
  apply IH. lia.
Qed.
Lemma set_nth_other : forall A i j (x : A) l, i <> j -> nth_error (set_nth i x l) j = nth_error l j.
Proof.
  intros A i j x l. revert i j. induction l as [|a l IH]; intros [|i] [|j] H; cbn [set_nth nth_error]; try reflexivity; try lia.
  apply IH. lia.
Qed.

Lemma combine_fst : forall A B (l : list A) (m : list B), length l = length m -> map fst (List.combine l m) = l.
Proof.
  intros A B. induction l as [|a l IH]; intros [|b m] H; cbn [length List.combine map fst] in *; try lia; [reflexivity|].
  rewrite IH by lia. reflexivity.
Qed.
Lemma combine_snd : forall A B (l : list A) (m : list B), length l = length m -> map snd (List.combine l m) = m.
Proof.
  intros A B. induction l as [|a l IH]; intros [|b m] H; cbn [length List.combine map snd] in *; try lia; [reflexivity|].
  rewrite IH by lia. reflexivity.
Qed.

Lemma enumerate_fst : forall A (l : list A), map fst (enumerate l) = seq 0 (length l).
Proof. intros A l. unfold enumerate. apply combine_fst. apply seq_length. Qed.
Lemma enumerate_snd : forall A (l : list A), map snd (enumerate l) = l.
Proof. intros A l. unfold enumerate. apply combine_snd. apply seq_length. Qed.
Lemma enumerate_length : forall A (l : list A), length (enumerate l) = length l.
Proof. intros A l. rewrite <- (map_length snd), enumerate_snd. reflexivity. Qed.
Lemma enumerate_from_in : forall A (l : list A) n i x, In (i, x) (List.combine (seq n (length l)) l) <->
  (n <= i)%nat /\ nth_error l (i - n) = Some x.
Proof.
  intros A. induction l as [|a l IH]; intros n i x; cbn [length seq List.combine In].
  - split; [intros []|]. intros [_ H]. destruct (i - n)%nat; discriminate H.
  - split.
    + intros [H | H].
      * injection H as <- <-. split; [lia|]. rewrite Nat.sub_diag. reflexivity.
      * apply IH in H as [H1 H2]. split; [lia|]. replace (i - n)%nat with (S (i - S n)) by lia. exact H2.
    + intros [H1 H2]. destruct (Nat.eq_dec i n) as [-> | N].
      * left. rewrite Nat.sub_diag in H2. cbn [nth_error] in H2. congruence.
      * right. apply IH. split; [lia|]. replace (i - n)%nat with (S (i - S n)) in H2 by lia. exact H2.
Qed.
Lemma enumerate_in : forall A (l : list A) i x, In (i, x) (enumerate l) <-> nth_error l i = Some x.
Proof.
  intros A l i x. unfold enumerate. rewrite enumerate_from_in, Nat.sub_0_r. split; [intros [_ H]; exact H|].
  intro H. split; [lia|exact H].
Qed.

Lemma nodup_nth : forall A (l : list A) i j x, NoDup l -> nth_error l i = Some x -> nth_error l j = Some x -> i = j.
Proof.
  intros A l i j x N Hi Hj. apply (proj1 (NoDup_nth_error l) N); [|congruence].
  apply nth_error_Some. congruence.
Qed.

Section Build.
  Context {C : Curve} {OR : @Oracles C}.
  Variable L : CurveLaws C.

  (** * Padding and pairing *)

  Lemma pad_dummies_spec : forall A (dummy : rng -> outcome (A * rng)) n r l r',
    pad_dummies dummy n r = Ret (l, r') ->
    length l = n /\ Forall (fun d => exists r0 r1, dummy r0 = Ret (d, r1)) l.
  Proof.
    intros A dummy. induction n as [|n IH]; intros r l r' H; cbn [pad_dummies] in H.
    - injection H as <- <-. split; [reflexivity|constructor].
    - destruct (dummy r) as [[d r1]|w|] eqn:E; cbn [obind] in H; try discriminate H.
      destruct (pad_dummies dummy n r1) as [[l1 r2]|w|] eqn:E2; cbn [obind] in H; try discriminate H.
      injection H as <- <-. destruct (IH _ _ _ E2) as [H1 H2].
      split; [cbn [length]; congruence|]. constructor; [|exact H2]. exists r, r1. exact E.
  Qed.

  Lemma pad_spec : forall A (dummy : rng -> outcome (A * rng)) l n r l' r',
    (length l <= n)%nat -> pad dummy l n r = Ret (l', r') ->
    exists ds, l' = l ++ ds /\ length l' = n /\ Forall (fun d => exists r0 r1, dummy r0 = Ret (d, r1)) ds.
  Proof.
    intros A dummy l n r l' r' HL H. unfold pad in H.
    destruct (pad_dummies dummy (n - length l) r) as [[ds r1]|w|] eqn:E; cbn [obind] in H; try discriminate H.
    injection H as <- <-. apply pad_dummies_spec in E as [H1 H2]. exists ds.
    rewrite firstn_all2 by exact HL. split; [reflexivity|]. split; [rewrite app_length; lia|exact H2].
  Qed.

  (** [index_after m m' idx l]: what pair_up does to one side of the metadata. *)
  Definition index_after (len : nat) (m m' : list nat) (idx : nat) (l : list nat) : Prop :=
    length m' = length m /\
    (length m = len -> NoDup l ->
     (forall i k, (i < len)%nat -> nth_error l k = Some i -> nth_error m' i = Some (idx + k)%nat) /\
     (forall i, ~ In i l -> nth_error m' i = nth_error m i)).

  Lemma index_after_step : forall len m m' idx i l,
    index_after len (if Nat.ltb i len then set_nth i idx m else m) m' (S idx) l ->
    index_after len m m' idx (i :: l).
  Proof.
    intros len m m' idx i l [H1 H2]. destruct (Nat.ltb_spec i len) as [LT | GE].
    - rewrite set_nth_length in *. split; [exact H1|]. intros HL N. inversion N as [|? ? N1 N2]; subst.
      destruct (H2 eq_refl N2) as [H3 H4]. split.
      + intros j k HJ HK. destruct k as [|k].
        * cbn [nth_error] in HK. assert (j = i) by congruence. subst j. rewrite H4 by exact N1.
          rewrite set_nth_same by exact HJ. f_equal. lia.
        * cbn [nth_error] in HK. rewrite (H3 _ _ HJ HK). f_equal. lia.
      + intros j HJ. rewrite H4 by (intro X; apply HJ; right; exact X).
        apply set_nth_other. intro X. apply HJ. left. exact X.
    - split; [exact H1|]. intros HL N. inversion N as [|? ? N1 N2]; subst.
      destruct (H2 eq_refl N2) as [H3 H4]. split.
      + intros j k HJ HK. destruct k as [|k].
        * cbn [nth_error] in HK. assert (j = i) by congruence. subst j. lia.
        * cbn [nth_error] in HK. rewrite (H3 _ _ HJ HK). f_equal. lia.
      + intros j HJ. apply H4. intro X. apply HJ. right. exact X.
  Qed.

  Lemma pair_up_spec : forall l ns no idx m r infos m' r',
    pair_up ns no idx l m r = (infos, m', r') ->
    map ai_spend infos = map (fun x => snd (fst x)) l /\
    map ai_output infos = map (fun x => snd (snd x)) l /\
    Forall (fun a => is_scalar (ai_rcv a)) infos /\
    index_after ns (bm_spends m) (bm_spends m') idx (map (fun x => fst (fst x)) l) /\
    index_after no (bm_outputs m) (bm_outputs m') idx (map (fun x => fst (snd x)) l).
  Proof.
    induction l as [|[[si s] [oi o]] l IH]; intros ns no idx m r infos m' r' H; cbn [pair_up] in H.
    - injection H as <- <- <-. split; [reflexivity|]. split; [reflexivity|]. split; [constructor|].
      split; (split; [reflexivity|]); intros _ _; (split; [|reflexivity]); intros i k _ X; destruct k; discriminate X.
    - assert (RS : is_scalar (fst (trapdoor_random r))).
      { unfold trapdoor_random, rng_scalar. destruct (rng_bytes 64 r) as [w r1]. cbn [fst]. apply to_scalar_range. }
      destruct (trapdoor_random r) as [rcv r1]. cbn [fst] in RS.
      destruct (pair_up ns no (S idx) l _ r1) as [[rest m2] r2] eqn:E. injection H as <- <- <-.
      apply IH in E as (E1 & E2 & E3 & E4 & E5). cbn [map ai_spend ai_output fst snd]. rewrite E1, E2.
      split; [reflexivity|]. split; [reflexivity|]. split; [constructor; [exact RS|exact E3]|].
      split; apply index_after_step; assumption.
  Qed.

  Lemma indices_hit : forall len n (m' : list nat) (l : list nat),
    index_after len (repeat 0%nat len) m' 0 l -> Permutation l (seq 0 n) -> (len <= n)%nat ->
    length m' = len /\
    (forall i, (i < len)%nat -> exists k, nth_error m' i = Some k /\ nth_error l k = Some i) /\
    (forall i j k, nth_error m' i = Some k -> nth_error m' j = Some k -> i = j).
  Proof.
    intros len n m' l [H1 H2] P LE. rewrite repeat_length in *.
    assert (N : NoDup l) by (apply (Permutation_NoDup (Permutation_sym P)), seq_NoDup).
    destruct (H2 eq_refl N) as [H3 _].
    assert (HIT : forall i, (i < len)%nat -> exists k, nth_error m' i = Some k /\ nth_error l k = Some i).
    { intros i Hi. assert (IN : In i l) by (apply (Permutation_in i (Permutation_sym P)), in_seq; lia).
      apply In_nth_error in IN as [k K]. exists k. split; [apply (H3 i k Hi K)|exact K]. }
    split; [exact H1|]. split; [exact HIT|].
    intros i j k Ei Ej.
    assert (Hi : (i < len)%nat) by (rewrite <- H1; apply nth_error_Some; congruence).
    assert (Hj : (j < len)%nat) by (rewrite <- H1; apply nth_error_Some; congruence).
    destruct (HIT i Hi) as (k1 & A1 & A2). destruct (HIT j Hj) as (k2 & B1 & B2).
    assert (k1 = k) by congruence. assert (k2 = k) by congruence. subst. congruence.
  Qed.

  (** The plan behind a pairing. *)
  Record planned (spends : list spend_info) (outputs : list output_info) (n : nat)
    (pre : list action_info) (meta : bundle_metadata) (fuel : nat) : Prop := {
    pl_length : length pre = n;
    pl_rcv : Forall (fun a => is_scalar (ai_rcv a)) pre;
    pl_spends : exists ds, Permutation (map ai_spend pre) (spends ++ ds) /\
                  Forall (fun d => exists r0 r1, spend_dummy fuel r0 = Ret (d, r1)) ds;
    pl_outputs : exists ds, Permutation (map ai_output pre) (outputs ++ ds) /\
                  Forall (fun d => exists r0 r1, output_dummy fuel r0 = Ret (d, r1)) ds;
    pl_spend_index : forall i s, nth_error spends i = Some s ->
      exists k a, spend_action_index meta i = Some k /\ nth_error pre k = Some a /\ ai_spend a = s;
    pl_output_index : forall i o, nth_error outputs i = Some o ->
      exists k a, output_action_index meta i = Some k /\ nth_error pre k = Some a /\ ai_output a = o;
    pl_spend_distinct : forall i j k, spend_action_index meta i = Some k -> spend_action_index meta j = Some k -> i = j;
    pl_output_distinct : forall i j k, output_action_index meta i = Some k -> output_action_index meta j = Some k -> i = j;
    pl_spend_len : length (bm_spends meta) = length spends;
    pl_output_len : length (bm_outputs meta) = length outputs
  }.

  Lemma map_nth_some : forall A B (f : A -> B) l k y, nth_error (map f l) k = Some y ->
    exists x, nth_error l k = Some x /\ f x = y.
  Proof.
    intros A B f l k y H. rewrite nth_error_map in H. destruct (nth_error l k) as [x|] eqn:E; [|discriminate H].
    exists x. split; [reflexivity|]. cbn [option_map] in H. congruence.
  Qed.

  (** One side of the pairing: [full] = items ++ dummies, enumerated and shuffled to [sh]. *)
  Lemma side : forall A (items full : list A) (sh : list (nat * A)) ds n (m' : list nat),
    full = items ++ ds -> length full = n -> Permutation sh (enumerate full) ->
    index_after (length items) (repeat 0%nat (length items)) m' 0 (map fst sh) ->
    Permutation (map snd sh) (items ++ ds) /\ length m' = length items /\
    (forall i x, nth_error items i = Some x -> exists k, nth_error m' i = Some k /\ nth_error (map snd sh) k = Some x) /\
    (forall i j k, nth_error m' i = Some k -> nth_error m' j = Some k -> i = j).
  Proof.
    intros A items full sh ds n m' -> LN P IX.
    assert (P1 : Permutation (map fst sh) (seq 0 n)).
    { rewrite <- LN, <- enumerate_fst. apply Permutation_map. exact P. }
    assert (P2 : Permutation (map snd sh) (items ++ ds)).
    { transitivity (map snd (enumerate (items ++ ds))); [apply Permutation_map; exact P|].
      rewrite enumerate_snd. reflexivity. }
    assert (LE : (length items <= n)%nat) by (rewrite <- LN, app_length; lia).
    destruct (indices_hit _ _ _ _ IX P1 LE) as (A1 & A2 & A3).
    split; [exact P2|]. split; [exact A1|]. split; [|exact A3].
    intros i x Hx. assert (Hi : (i < length items)%nat) by (apply nth_error_Some; congruence).
    destruct (A2 i Hi) as (k & K1 & K2). exists k. split; [exact K1|].
    apply map_nth_some in K2 as ([i' y] & Y1 & Y2). cbn [fst] in Y2. subst i'.
    assert (IN : In (i, y) (enumerate (items ++ ds))) by (apply (Permutation_in _ P); apply (nth_error_In _ _ Y1)).
    apply enumerate_in in IN. rewrite nth_error_app1 in IN by exact Hi.
    rewrite nth_error_map, Y1. cbn [option_map snd]. congruence.
  Qed.

  Lemma pre_actions_spec : forall fuel n spends outputs r pre meta r',
    (length spends <= n)%nat -> (length outputs <= n)%nat ->
    pre_actions fuel n spends outputs r = Ret (pre, meta, r') -> planned spends outputs n pre meta fuel.
  Proof.
    intros fuel n spends outputs r pre meta r' LS LO H. unfold pre_actions in H.
    destruct (pad (spend_dummy fuel) spends n r) as [[sp r1]|w|] eqn:E1; cbn [obind] in H; try discriminate H.
    destruct (pad (output_dummy fuel) outputs n r1) as [[ou r2]|w|] eqn:E2; cbn [obind] in H; try discriminate H.
    apply (pad_spec _ _ _ _ _ _ _ LS) in E1 as (ds & S1 & S2 & S3).
    apply (pad_spec _ _ _ _ _ _ _ LO) in E2 as (os & O1 & O2 & O3).
    pose proof (shuffle_permutation _ (enumerate sp) r2) as P1. destruct (shuffle (enumerate sp) r2) as [sp' r3].
    pose proof (shuffle_permutation _ (enumerate ou) r3) as P2. destruct (shuffle (enumerate ou) r3) as [ou' r4].
    cbn [fst] in P1, P2. injection H as H.
    destruct (pair_up _ _ _ _ _ _) as [[pre0 meta0] r5] eqn:E. injection H as -> -> ->.
    apply pair_up_spec in E as (Q1 & Q2 & Q3 & Q4 & Q5).
    cbn [metadata_new bm_spends bm_outputs] in Q4, Q5.
    assert (L1 : length sp' = n) by (rewrite (Permutation_length P1), enumerate_length; exact S2).
    assert (L2 : length ou' = n) by (rewrite (Permutation_length P2), enumerate_length; exact O2).
    assert (LL : length sp' = length ou') by congruence.
    assert (F1 : forall B (f : nat * spend_info -> B), map (fun x => f (fst x)) (List.combine sp' ou') = map f sp').
    { intros B f. rewrite <- (map_map fst f). rewrite combine_fst by exact LL. reflexivity. }
    assert (F2 : forall B (f : nat * output_info -> B), map (fun x => f (snd x)) (List.combine sp' ou') = map f ou').
    { intros B f. rewrite <- (map_map snd f). rewrite combine_snd by exact LL. reflexivity. }
    rewrite (F1 _ snd) in Q1. rewrite (F2 _ snd) in Q2. rewrite (F1 _ fst) in Q4. rewrite (F2 _ fst) in Q5.
    destruct (side _ spends sp sp' ds n _ S1 S2 P1 Q4) as (A1 & A2 & A3 & A4).
    destruct (side _ outputs ou ou' os n _ O1 O2 P2 Q5) as (B1 & B2 & B3 & B4).
    constructor.
    - rewrite <- (map_length ai_spend), Q1, map_length. exact L1.
    - exact Q3.
    - exists ds. rewrite Q1. split; [exact A1|exact S3].
    - exists os. rewrite Q2. split; [exact B1|exact O3].
    - intros i s Hs. destruct (A3 i s Hs) as (k & K1 & K2). rewrite <- Q1 in K2.
      apply map_nth_some in K2 as (a & K3 & K4). exists k, a. auto.
    - intros i o Ho. destruct (B3 i o Ho) as (k & K1 & K2). rewrite <- Q2 in K2.
      apply map_nth_some in K2 as (a & K3 & K4). exists k, a. auto.
    - exact A4.
    - exact B4.
    - exact A2.
    - exact B2.
  Qed.
End Build.
