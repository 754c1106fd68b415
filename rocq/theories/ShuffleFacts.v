(** Facts about the shuffle of the builder (C79). *)
From Coq Require Import String ZArith List Bool Permutation Lia.
From Coq Require Import Init.Byte.
From Verif Require Import Prelude Fields Curve Oracles RedPallas Value Keys Note Tree Action NoteEnc Bundle Builder
  KeysSpec NoteSpec NoteEncSpec Spec BuilderSpec RngSpec RandomSpec ShuffleSpec PreludeFacts CodecFacts BuilderFacts BuildFacts RngFacts RandomFacts.
Import ListNotations.
Open Scope nat_scope.

(** The shuffle with its indices given. *)
Fixpoint fy {A} (i : nat) (l : list A) (js : list nat) : list A :=
  match i, js with
  | S i', j :: js' => fy i' (swap i j l) js'
  | _, _ => l
  end.

Lemma bounds_SS : forall i, bounds (S (S i)) = S (S i) :: bounds (S i).
Proof. reflexivity. Qed.

Lemma swap_length : forall A i j (l : list A), length (swap i j l) = length l.
Proof. intros. apply Permutation_length, swap_permutation. Qed.
Lemma fy_permutation : forall A i (l : list A) js, Permutation (fy i l js) l.
Proof.
  induction i as [|i IH]; intros l [|j js]; cbn [fy]; try reflexivity. rewrite IH. apply swap_permutation.
Qed.

Lemma nth_error_swap : forall A (l : list A) i j, i < length l -> j < length l ->
  nth_error (swap i j l) i = nth_error l j /\
  (forall k, k <> i -> k <> j -> nth_error (swap i j l) k = nth_error l k).
Proof.
  intros A l i j Hi Hj. unfold swap.
  destruct (nth_error l i) as [a|] eqn:Ei; [|apply nth_error_None in Ei; lia].
  destruct (nth_error l j) as [b|] eqn:Ej; [|apply nth_error_None in Ej; lia].
  assert (LS : length (set_nth j a l) = length l).
  { destruct (set_nth_split A l j b Ej) as (l1 & l2 & E & _ & ES). rewrite ES, E, !app_length. reflexivity. }
  split.
  - apply nth_error_set_nth_eq. rewrite LS. exact Hi.
  - intros k H1 H2. rewrite nth_error_set_nth_neq by congruence. apply nth_error_set_nth_neq. congruence.
Qed.

(** Positions above [i] are final. *)
Lemma fy_above : forall A i (l : list A) js, i < length l -> in_bounds (S i) js -> forall k, i < k ->
  nth_error (fy i l js) k = nth_error l k.
Proof.
  induction i as [|i IH]; intros l js Hi HB k Hk; [destruct js; reflexivity|].
  unfold in_bounds in HB. rewrite bounds_SS in HB. inversion HB as [|j b js' bs HJ HB']; subst. cbn [fy].
  rewrite IH; [|rewrite swap_length; lia|exact HB'|lia].
  apply nth_error_swap; lia.
Qed.

Lemma fy_at : forall A i (l : list A) j js, S i < length l -> in_bounds (S (S i)) (j :: js) ->
  nth_error (fy (S i) l (j :: js)) (S i) = nth_error l j.
Proof.
  intros A i l j js Hi HB. unfold in_bounds in HB. rewrite bounds_SS in HB. inversion HB as [|? ? ? ? HJ HB']; subst. cbn [fy].
  rewrite fy_above; [|rewrite swap_length; lia|exact HB'|lia]. apply nth_error_swap; lia.
Qed.

Lemma nodup_nth_error : forall A (l : list A) i j, NoDup l -> i < length l -> nth_error l i = nth_error l j -> i = j.
Proof. intros A l i j N H E. apply (proj1 (NoDup_nth_error l) N i j H E). Qed.

Lemma fy_inj : forall A i (l : list A) js js', NoDup l -> i < length l -> in_bounds (S i) js -> in_bounds (S i) js' ->
  fy i l js = fy i l js' -> js = js'.
Proof.
  induction i as [|i IH]; intros l js js' N Hi HB HB' E.
  - inversion HB; inversion HB'; reflexivity.
  - pose proof HB as HC. pose proof HB' as HC'. unfold in_bounds in HB, HB'. rewrite bounds_SS in HB, HB'.
    inversion HB as [|j b t bs HJ HT]; subst. inversion HB' as [|j' b' t' bs' HJ' HT']; subst.
    assert (EJ : j = j').
    { apply (nodup_nth_error A l j j' N); [lia|].
      rewrite <- (fy_at A i l j t Hi HC), <- (fy_at A i l j' t' Hi HC'), E. reflexivity. }
    subst j'. f_equal. cbn [fy] in E. apply (IH (swap (S i) j l)); [|rewrite swap_length; lia|exact HT|exact HT'|exact E].
    apply (Permutation_NoDup (Permutation_sym (swap_permutation A (S i) j l))). exact N.
Qed.

Lemma nth_error_ext : forall A (l l' : list A), length l = length l' -> (forall k, k < length l -> nth_error l k = nth_error l' k) -> l = l'.
Proof.
  induction l as [|a l IH]; intros [|b l'] H E; cbn [length] in H; try lia; [reflexivity|].
  pose proof (E 0 ltac:(cbn [length]; lia)) as E0. cbn [nth_error] in E0. injection E0 as ->. f_equal.
  apply IH; [lia|]. intros k Hk. apply (E (S k)). cbn [length]. lia.
Qed.

Lemma fy_surj : forall A i (l l' : list A), NoDup l -> i < length l -> Permutation l l' ->
  (forall k, i < k -> nth_error l k = nth_error l' k) -> exists js, in_bounds (S i) js /\ fy i l js = l'.
Proof.
  induction i as [|i IH]; intros l l' N Hi P AG.
  - exists []. split; [constructor|]. cbn [fy].
    destruct l as [|a l]; [cbn [length] in Hi; lia|]. destruct l' as [|b l']; [apply Permutation_length in P; discriminate P|].
    assert (EL : l = l').
    { apply nth_error_ext; [apply Permutation_length in P; cbn [length] in P; lia|].
      intros k _. apply (AG (S k)). lia. }
    subst l'. f_equal.
    assert (IN : In a (b :: l)) by (apply (Permutation_in a P); left; reflexivity).
    destruct IN as [X|X]; [congruence|]. inversion N as [|? ? N1 N2]; subst. contradiction.
  - pose proof (Permutation_length P) as LP.
    destruct (nth_error l' (S i)) as [x|] eqn:EX; [|apply nth_error_None in EX; lia].
    assert (IN : In x l) by (apply (Permutation_in x (Permutation_sym P)); apply (nth_error_In _ _ EX)).
    apply In_nth_error in IN as [j EJ]. assert (HJ : j < length l) by (apply nth_error_Some; congruence).
    assert (N' : NoDup l') by (apply (Permutation_NoDup P N)).
    assert (LE : j <= S i).
    { destruct (le_lt_dec j (S i)) as [H|H]; [exact H|]. exfalso. rewrite (AG j H) in EJ.
      assert (j = S i); [|lia]. apply (nodup_nth_error A l' j (S i) N'); [lia|congruence]. }
    destruct (IH (swap (S i) j l) l') as (js & HB & EF).
    + apply (Permutation_NoDup (Permutation_sym (swap_permutation A (S i) j l))). exact N.
    + rewrite swap_length. lia.
    + transitivity l; [apply swap_permutation|exact P].
    + intros k Hk. destruct (nth_error_swap A l (S i) j Hi HJ) as [S1 S2].
      destruct (Nat.eq_dec k (S i)) as [->|NE]; [rewrite S1, EJ, EX; reflexivity|].
      rewrite S2 by lia. apply AG. lia.
    + exists (j :: js). split; [|cbn [fy]; exact EF].
      unfold in_bounds. rewrite bounds_SS. constructor; [lia|exact HB].
Qed.

Lemma fy_fair : forall A (l : list A), NoDup l -> fair l (fy (length l - 1) l).
Proof.
  intros A l N. destruct l as [|a l0].
  - constructor; cbn [length].
    + intros js _. destruct js; apply Permutation_refl.
    + intros js js' H H' _. inversion H; inversion H'; reflexivity.
    + intros l' P. apply Permutation_nil in P. subst l'. exists []. split; [constructor|reflexivity].
  - set (l := a :: l0) in *. assert (EL : length l = S (length l - 1)) by (unfold l; cbn [length]; lia).
    constructor.
    + intros js _. apply Permutation_sym, fy_permutation.
    + intros js js' H H' E. rewrite EL in H, H'. apply (fy_inj A (length l - 1) l js js' N); [lia|exact H|exact H'|exact E].
    + intros l' P. destruct (fy_surj A (length l - 1) l l' N ltac:(lia) P) as (js & HB & E).
      * intros k Hk. pose proof (Permutation_length P) as LP.
        transitivity (@None A); [apply nth_error_None; lia|symmetry; apply nth_error_None; lia].
      * exists js. split; [rewrite EL; exact HB|exact E].
Qed.

Lemma map_set_nth : forall A B (g : A -> B) l i x, map g (set_nth i x l) = set_nth i (g x) (map g l).
Proof. induction l as [|a l IH]; intros [|i] x; cbn [set_nth map]; try reflexivity. rewrite IH. reflexivity. Qed.
Lemma map_swap : forall A B (g : A -> B) l i j, map g (swap i j l) = swap i j (map g l).
Proof.
  intros A B g l i j. unfold swap. rewrite !nth_error_map.
  destruct (nth_error l i) as [a|]; cbn [option_map]; [|reflexivity].
  destruct (nth_error l j) as [b|]; cbn [option_map]; [|reflexivity]. rewrite !map_set_nth. reflexivity.
Qed.
Lemma map_fy : forall A B (g : A -> B) i l js, map g (fy i l js) = fy i (map g l) js.
Proof. induction i as [|i IH]; intros l [|j js]; cbn [fy]; try reflexivity. rewrite IH, map_swap. reflexivity. Qed.

Section Model.
  Context {C : Curve} {OR : @Oracles C}.

  Lemma shuffle_from_fy : forall A i (l : list A) r, exists js r',
    indices_drawn r (S i) js r' /\ shuffle_from i l r = (fy i l js, r').
  Proof.
    induction i as [|i IH]; intros l r.
    - exists [], r. split; [split; [constructor|constructor]|reflexivity].
    - cbn [shuffle_from]. pose proof (rng_below_bound (S (S i)) r ltac:(lia)) as HJ.
      destruct (rng_below (S (S i)) r) as [j r1] eqn:E. cbn [fst] in HJ.
      destruct (IH (swap (S i) j l) r1) as (js & r' & [HB T] & ES).
      exists (j :: js), r'. split.
      + split; [unfold in_bounds; rewrite bounds_SS; constructor; [exact HJ|exact HB]|].
        rewrite bounds_SS. cbn [List.combine map fst snd]. apply (trace_index _ _ _ _ _ _ E T).
      + cbn [fy]. exact ES.
  Qed.

  Lemma shuffle_fy : forall A (l : list A) r, exists js r',
    indices_drawn r (length l) js r' /\ shuffle l r = (fy (length l - 1) l js, r').
  Proof.
    intros A l r. destruct l as [|a l].
    - exists [], r. split; [split; constructor|reflexivity].
    - destruct (shuffle_from_fy A (length l) (a :: l) r) as (js & r' & D & E). exists js, r'.
      unfold shuffle. cbn [length]. rewrite Nat.sub_succ, Nat.sub_0_r. split; [exact D|exact E].
  Qed.
End Model.

Lemma shuffle_fair : forall A (l : list A), NoDup l -> exists f, fair l f /\
  forall (C : Curve) (OR : @Oracles C) (r : rng), exists js r', indices_drawn r (length l) js r' /\ shuffle l r = (f js, r').
Proof.
  intros A l N. exists (fy (length l - 1) l). split; [apply fy_fair; exact N|].
  intros C OR r. apply shuffle_fy.
Qed.

Section Order.
  Context {C : Curve} {OR : @Oracles C}.

  Lemma build_actions_length : forall fuel pre r acts ws r', build_actions fuel pre r = Ret (acts, ws, r') -> length acts = length pre.
  Proof.
    intro fuel. induction pre as [|a pre IH]; intros r acts ws r' E; cbn [build_actions] in E.
    - injection E as <- <- <-. reflexivity.
    - destruct (ai_build fuel a r) as [[[act w] r1]|z|] eqn:E1; cbn [obind] in E; try discriminate E.
      destruct (build_actions fuel pre r1) as [[[acts1 ws1] r2]|z|] eqn:E2; cbn [obind] in E; try discriminate E.
      injection E as <- <- <-. cbn [length]. f_equal. apply (IH _ _ _ _ E2).
  Qed.

  Lemma shuffle_enumerated : forall A (l : list A) n r l' r', length l = n -> shuffle (enumerate l) r = (l', r') ->
    exists js, indices_drawn r n js r' /\ map fst l' = fy (n - 1) (seq 0 n) js.
  Proof.
    intros A l n r l' r' LN E. destruct (shuffle_fy _ (enumerate l) r) as (js & r1 & D & ES).
    rewrite E in ES. injection ES as -> ->. rewrite enumerate_length, LN in D. exists js. split; [exact D|].
    rewrite map_fy, enumerate_fst, enumerate_length, LN. reflexivity.
  Qed.

  Lemma index_iff : forall len n m' l, index_after len (repeat 0 len) m' 0 l -> Permutation l (seq 0 n) -> len <= n ->
    forall i k, i < len -> (nth_error m' i = Some k <-> nth_error l k = Some i).
  Proof.
    intros len n m' l IX P LE i k Hi. destruct (indices_hit len n m' l IX P LE) as (_ & H & _).
    destruct (H i Hi) as (k' & K1 & K2). split; intro X.
    - assert (k' = k) by congruence. subst k'. exact K2.
    - assert (k = k'); [|subst k'; exact K1].
      apply (nodup_nth_error _ l); [apply (Permutation_NoDup (Permutation_sym P)), seq_NoDup|apply nth_error_Some; congruence|congruence].
  Qed.

  Lemma pre_actions_order : forall fuel n spends outputs r pre meta r',
    length spends <= n -> length outputs <= n ->
    pre_actions fuel n spends outputs r = Ret (pre, meta, r') ->
    exists js js' r1 r2 r3, draws r [] r1 /\ indices_drawn r1 n js r2 /\ indices_drawn r2 n js' r3 /\ draws r3 [] r' /\
      (forall i k, i < length spends -> (spend_action_index meta i = Some k <-> nth_error (fy (n - 1) (seq 0 n) js) k = Some i)) /\
      (forall i k, i < length outputs -> (output_action_index meta i = Some k <-> nth_error (fy (n - 1) (seq 0 n) js') k = Some i)).
  Proof.
    intros fuel n spends outputs r pre meta r' LS LO H. unfold pre_actions in H.
    destruct (pad (spend_dummy fuel) spends n r) as [[sp r1]|w|] eqn:E1; cbn [obind] in H; try discriminate H.
    destruct (pad (output_dummy fuel) outputs n r1) as [[ou r2]|w|] eqn:E2; cbn [obind] in H; try discriminate H.
    destruct (pad_draws _ _ (spend_from spends) spend_draws (spend_dummy fuel) eq_refl
      (fun q d q' E => spend_dummy_draws fuel q d q' spends E) spends n r sp r1 (fun a Ha => Ha) E1) as (xs & _ & D1).
    destruct (pad_draws _ _ (output_from outputs) output_draws (output_dummy fuel) eq_refl
      (fun q d q' E => output_dummy_draws fuel q d q' outputs E) outputs n r1 ou r2 (fun a Ha => Ha) E2) as (ys & _ & D2).
    apply (pad_spec _ _ _ _ _ _ _ LS) in E1 as (_ & _ & S2 & _). apply (pad_spec _ _ _ _ _ _ _ LO) in E2 as (_ & _ & O2 & _).
    pose proof (shuffle_permutation _ (enumerate sp) r2) as P1. destruct (shuffle (enumerate sp) r2) as [sp' r3] eqn:ES1.
    pose proof (shuffle_permutation _ (enumerate ou) r3) as P2. destruct (shuffle (enumerate ou) r3) as [ou' r4] eqn:ES2.
    cbn [fst] in P1, P2. injection H as H.
    destruct (shuffle_enumerated _ _ _ _ _ _ S2 ES1) as (js & I1 & M1).
    destruct (shuffle_enumerated _ _ _ _ _ _ O2 ES2) as (js' & I2 & M2).
    pose proof H as HD. apply pair_up_draws in HD as (_ & _ & rcvs & _ & D3).
    apply pair_up_spec in H as (_ & _ & _ & Q4 & Q5). cbn [metadata_new bm_spends bm_outputs] in Q4, Q5.
    assert (LL : length sp' = length ou').
    { rewrite (Permutation_length P1), (Permutation_length P2), !enumerate_length. congruence. }
    rewrite <- (map_map fst fst), combine_fst in Q4 by exact LL. rewrite <- (map_map snd fst), combine_snd in Q5 by exact LL.
    rewrite M1 in Q4. rewrite M2 in Q5.
    exists js, js', r2, r3, r4.
    split; [apply (draws_after _ r1); [apply (draws_none _ _ _ D1)|apply (draws_none _ _ _ D2)]|].
    split; [exact I1|]. split; [exact I2|]. split; [apply (draws_none _ _ _ D3)|]. split.
    - apply (index_iff _ _ _ _ Q4 (fy_permutation _ _ _ _) LS).
    - apply (index_iff _ _ _ _ Q5 (fy_permutation _ _ _ _) LO).
  Qed.

  Lemma build_order : forall (L : CurveLaws C) V (try_from : Z -> option V) t anchor b fuel r
    (bd : @unauthorized_bundle C V) meta r' n,
    reachable t anchor b -> build try_from fuel b r = Ret (Ok (Some (bd, meta)), r') -> length (b_actions bd) = n ->
    exists js js' r1 r2 r3, draws r [] r1 /\ indices_drawn r1 n js r2 /\ indices_drawn r2 n js' r3 /\ draws r3 [] r' /\
      (forall i k, i < length (bl_spends b) -> (spend_action_index meta i = Some k <-> nth_error (fy (n - 1) (seq 0 n) js) k = Some i)) /\
      (forall i k, i < length (bl_outputs b) -> (output_action_index meta i = Some k <-> nth_error (fy (n - 1) (seq 0 n) js') k = Some i)).
  Proof.
    intros L V try_from t anchor b fuel r bd meta r' n RB H LN. destruct (reachable_legal L _ _ _ RB) as (LB & _).
    unfold build, build_bundle in H.
    destruct (legal_num_actions try_from b LB) as (n0 & NA & N1 & N2 & G1 & G2). rewrite NA, G1, G2 in H.
    rewrite (anchors_ret _ _ _ (proj1 LB)) in H. cbn [obind negb] in H.
    destruct (pre_actions fuel n0 (bl_spends b) (bl_outputs b) r) as [[[pre meta'] r1]|w|] eqn:E; cbn [obind] in H; try discriminate H.
    pose proof (finish_draws try_from _ _ _ _ _ _ _ _ _ H) as BA.
    assert (EM : meta' = meta).
    { clear - H. unfold finish in H.
      destruct (osum _ _) as [[vb|]|w|]; cbn [obind] in H; try discriminate H.
      destruct (i64_try_from vb) as [i|e]; [|discriminate H]. destruct (try_from i) as [v|]; [|discriminate H].
      destruct (into_bsk _) as [bsk|w|]; cbn [obind] in H; try discriminate H.
      destruct (build_actions fuel pre r1) as [[[acts ws] r2]|w|]; cbn [obind] in H; try discriminate H.
      destruct (derive_cv vb 0) as [z|w|]; cbn [obind] in H; try discriminate H.
      destruct (into_bvk _) as [bvk|w|]; cbn [obind] in H; try discriminate H.
      destruct (assert_ _ _) as [u|w|]; cbn [obind] in H; try discriminate H.
      destruct acts as [|a acts]; [discriminate H|]. injection H as _ -> _. reflexivity. }
    subst meta'.
    pose proof (pl_length _ _ _ _ _ _ (pre_actions_spec _ _ _ _ _ _ _ _ N1 N2 E)) as LP.
    assert (EN : n0 = n) by (rewrite <- LN, (build_actions_length _ _ _ _ _ _ BA); symmetry; exact LP).
    clear LP LN. rewrite EN in *. clear EN.
    destruct (pre_actions_order _ _ _ _ _ _ _ _ N1 N2 E) as (js & js' & q1 & q2 & q3 & D1 & I1 & I2 & D3 & A1 & A2).
    exists js, js', q1, q2, q3. split; [exact D1|]. split; [exact I1|]. split; [exact I2|]. split; [|split; [exact A1|exact A2]].
    destruct (build_actions_draws _ _ _ _ _ _ BA) as (zs & _ & D4 & _).
    apply (draws_after _ r1 _ _ D3). apply (draws_none _ _ _ D4).
  Qed.
End Order.

Lemma placement_fair : forall n, exists f, fair (seq 0 n) f /\
  forall (C : Curve) (OR : @Oracles C) (L : CurveLaws C) (V : Type) (try_from : Z -> option V) t anchor b fuel r
    (bd : @unauthorized_bundle C V) meta r',
    reachable t anchor b -> build try_from fuel b r = Ret (Ok (Some (bd, meta)), r') -> length (b_actions bd) = n ->
    exists js js' r1 r2 r3, draws r [] r1 /\ indices_drawn r1 n js r2 /\ indices_drawn r2 n js' r3 /\ draws r3 [] r' /\
      (forall i k, i < length (bl_spends b) -> (spend_action_index meta i = Some k <-> nth_error (f js) k = Some i)) /\
      (forall i k, i < length (bl_outputs b) -> (output_action_index meta i = Some k <-> nth_error (f js') k = Some i)).
Proof.
  intro n. exists (fy (n - 1) (seq 0 n)). split.
  - pose proof (fy_fair nat (seq 0 n) (seq_NoDup n 0)) as F. rewrite seq_length in F. exact F.
  - intros C OR L V try_from t anchor b fuel r bd meta r'. apply (build_order L).
Qed.
