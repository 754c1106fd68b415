(** Running sums, short range checks and canonicity arguments over the base field. *)
From Coq Require Import String ZArith Znumtheory List Bool Lia.
From Verif Require Import Prelude PreludeFacts Fields Curve CurveFacts Oracles Sinsemilla SinsSpec SinsFacts NumTheory FieldFacts Halo2.
Import ListNotations.
Open Scope Z_scope.

Lemma pmod_tp : pmod = 2 ^ 254 + t_p. Proof. reflexivity. Qed.
Lemma pmod_val : pmod = 28948022309329048855892746252171976963363056481941560715954676764349967630337.
Proof. reflexivity. Qed.
Lemma t_p_val : t_p = 45560315531419706090280762371685220353. Proof. reflexivity. Qed.

(** ** Vanishing *)
Lemma vanishes_iff : forall x, vanishes x <-> (pmod | x).
Proof. intro x. unfold vanishes. pose proof pmod_pos. apply Z.mod_divide. lia. Qed.

Lemma vanishes_eq : forall x y, is_base x -> is_base y -> vanishes (x - y) -> x = y.
Proof.
  intros x y Hx Hy H. apply vanishes_iff in H. destruct H as [k H]. unfold is_base in *.
  assert (k = 0) by nia. subst k. lia.
Qed.

Lemma vanishes_small : forall x, - pmod < x < pmod -> vanishes x -> x = 0.
Proof. intros x Hx H. apply vanishes_iff in H. destruct H as [k H]. assert (k = 0) by nia. subst k. lia. Qed.

Lemma vanishes_mod : forall x, vanishes (x - x mod pmod).
Proof.
  intro x. apply vanishes_iff. exists (x / pmod). pose proof pmod_pos. pose proof (Z_div_mod_eq_full x pmod). lia.
Qed.

Lemma vanishes_zero : vanishes 0.
Proof. apply vanishes_iff. exists 0. lia. Qed.

Lemma vanishes_mul : forall x y, vanishes (x * y) -> vanishes x \/ vanishes y.
Proof.
  intros x y H. apply vanishes_iff in H. destruct (prime_mult _ prime_pmod _ _ H); [left|right]; apply vanishes_iff; assumption.
Qed.

Lemma vanishes_add : forall x y, vanishes x -> vanishes y -> vanishes (x + y).
Proof. intros x y H K. apply vanishes_iff in H, K. apply vanishes_iff. apply Z.divide_add_r; assumption. Qed.
Lemma vanishes_opp : forall x, vanishes x -> vanishes (- x).
Proof. intros x H. apply vanishes_iff in H. apply vanishes_iff. apply Z.divide_opp_r. assumption. Qed.
Lemma vanishes_scale : forall k x, vanishes x -> vanishes (k * x).
Proof. intros k x H. apply vanishes_iff in H. apply vanishes_iff. apply Z.divide_mul_r. assumption. Qed.

Lemma base_zero : forall x, is_base x -> vanishes x -> x = 0.
Proof. intros x H K. apply vanishes_small; [unfold is_base in H; lia|exact K]. Qed.

Lemma bool_check_iff : forall x, is_base x -> (vanishes (bool_check x) <-> x = 0 \/ x = 1).
Proof.
  intros x Hx. unfold bool_check. split.
  - intro H. destruct (vanishes_mul _ _ H) as [K|K].
    + left. apply base_zero; assumption.
    + right. assert (1 - x = 0); [|lia]. unfold is_base in Hx. pose proof pmod_tp. pose proof t_p_val.
      apply vanishes_small; [lia|exact K].
  - intros [-> | ->]; apply vanishes_zero.
Qed.

Lemma gate_cons : forall p l, gate_holds (p :: l) <-> vanishes p /\ gate_holds l.
Proof.
  intros p l. unfold gate_holds. split; [intro H; inversion H; subst; split; assumption|intros [H K]; constructor; assumption].
Qed.
Lemma gate_nil : gate_holds []. Proof. constructor. Qed.

(** A cell guarded by a bit: [b * x = 0] with [b = 1]. *)
Lemma guarded : forall b x, is_base x -> vanishes (b * x) -> b = 1 -> x = 0.
Proof. intros b x Hx H ->. rewrite Z.mul_1_l in H. apply base_zero; assumption. Qed.

(** ** Words *)
Fixpoint wval (ws : list Z) : Z := match ws with [] => 0 | w :: ws' => w + 2 ^ 10 * wval ws' end.

Lemma wval_app : forall a b, wval (a ++ b) = wval a + 2 ^ (10 * Z.of_nat (length a)) * wval b.
Proof.
  induction a as [|w a IH]; intro b.
  - cbn [app wval length]. rewrite Z.mul_0_r, Z.pow_0_r. lia.
  - cbn [app wval length]. rewrite IH, Nat2Z.inj_succ.
    replace (10 * Z.succ (Z.of_nat (length a))) with (10 + 10 * Z.of_nat (length a)) by lia.
    rewrite Z.pow_add_r by lia. ring.
Qed.

Lemma wval_range : forall ws, Forall in_table ws -> 0 <= wval ws < 2 ^ (10 * Z.of_nat (length ws)).
Proof.
  induction ws as [|w ws IH]; intro H.
  - cbn [wval length]. rewrite Z.mul_0_r, Z.pow_0_r. lia.
  - inversion H; subst. specialize (IH H3). unfold in_table in H2. cbn [wval length]. rewrite Nat2Z.inj_succ.
    replace (10 * Z.succ (Z.of_nat (length ws))) with (10 + 10 * Z.of_nat (length ws)) by lia.
    rewrite Z.pow_add_r by lia. nia.
Qed.

Lemma wval_inj : forall a b, length a = length b -> Forall in_table a -> Forall in_table b ->
  wval a = wval b -> a = b.
Proof.
  induction a as [|w a IH]; intros [|v b] HL HA HB HV; try discriminate HL; [reflexivity|].
  inversion HA; subst. inversion HB; subst. cbn [wval] in HV. unfold in_table in *.
  assert (w = v /\ wval a = wval b) as [-> E] by (change (2 ^ 10) with 1024 in *; lia).
  f_equal. apply IH; [injection HL; auto|assumption..].
Qed.

Lemma sins_words_wval : forall n m, length m = (10 * n)%nat -> wval (sins_words n m) = bits_val m.
Proof.
  induction n as [|n IH]; intros m HL.
  - destruct m; [reflexivity|discriminate HL].
  - cbn [sins_words wval]. rewrite IH by (rewrite skipn_length; lia).
    rewrite <- (firstn_skipn 10 m) at 3. rewrite bits_val_app, firstn_length.
    replace (Nat.min 10 (length m)) with 10%nat by lia. reflexivity.
Qed.

Lemma bits_val_repeat_false : forall n, bits_val (repeat false n) = 0.
Proof. induction n as [|n IH]; [reflexivity|]. cbn [repeat bits_val]. rewrite IH. reflexivity. Qed.

Lemma bits_val_pad : forall m, bits_val (sins_pad m) = bits_val m.
Proof. intro m. unfold sins_pad. rewrite bits_val_app, bits_val_repeat_false. lia. Qed.

Lemma msg_words_wval : forall m, wval (msg_words m) = bits_val m.
Proof.
  intro m. unfold msg_words. destruct (pad_length m) as (n & HL & _). rewrite HL.
  rewrite Nat.mul_comm, Nat.div_mul by lia. rewrite sins_words_wval by (rewrite HL; lia). apply bits_val_pad.
Qed.

Lemma table_word : forall w, in_table w <-> is_word w.
Proof. intro w. unfold in_table, is_word. change (2 ^ 10) with 1024. reflexivity. Qed.

Lemma words_are : forall ws m, length ws = ((length m + 9) / 10)%nat -> Forall in_table ws ->
  wval ws = bits_val m -> ws = msg_words m.
Proof.
  intros ws m HL HF HV. apply wval_inj.
  - rewrite msg_words_length. exact HL.
  - exact HF.
  - apply Forall_impl with (2 := msg_words_range m). intros w Hw. apply table_word. exact Hw.
  - rewrite msg_words_wval. exact HV.
Qed.

(** ** Running sums *)
Lemma sum_words_length : forall zs, length (sum_words zs) = pred (length zs).
Proof.
  induction zs as [|z zs IH]; [reflexivity|]. destruct zs as [|z' zs]; [reflexivity|].
  cbn [sum_words length] in *. rewrite IH. reflexivity.
Qed.

Lemma sum_words_cons : forall z z' zs, sum_words (z :: z' :: zs) = sum_word z z' :: sum_words (z' :: zs).
Proof. reflexivity. Qed.

Lemma sum_word_step : forall z z' w, is_base z -> sum_word z z' = w -> 0 <= w + 2 ^ 10 * z' < pmod -> z = w + 2 ^ 10 * z'.
Proof.
  intros z z' w Hz Hw HR. apply vanishes_eq; [exact Hz|exact HR|]. unfold sum_word in Hw. subst w.
  replace (z - ((z - 2 ^ 10 * z') mod pmod + 2 ^ 10 * z')) with ((z - 2 ^ 10 * z') - (z - 2 ^ 10 * z') mod pmod) by ring.
  apply vanishes_mod.
Qed.

Lemma small_pow : forall n, (n <= 25)%nat -> 2 ^ (10 * Z.of_nat n) <= 2 ^ 250.
Proof. intros n H. apply Z.pow_le_mono_r; lia. Qed.
Lemma pow250_lt : 2 ^ 250 < pmod. Proof. reflexivity. Qed.

(** A running sum ending in 0 is the list of shifts of its value. *)
Lemma piece_inv : forall n zs, (n <= 25)%nat -> piece n zs ->
  0 <= nth 0 zs 0 < 2 ^ (10 * Z.of_nat n) /\ zs = honest_piece n (nth 0 zs 0) /\
  wval (piece_words zs) = nth 0 zs 0.
Proof.
  induction n as [|n IH]; intros zs Hn (HL & HB & HT).
  - destruct zs; [|discriminate HL]. cbn. repeat split; lia.
  - destruct zs as [|z zs]; [discriminate HL|]. injection HL as HL.
    inversion HB as [|? ? Hz HB']; subst. cbn [app] in HT.
    assert (HC : sum_words (z :: zs ++ [0]) = sum_word z (nth 0 zs 0) :: sum_words (zs ++ [0])).
    { destruct zs as [|z' zs]; reflexivity. }
    unfold piece_words. cbn [app]. rewrite HC in *. inversion HT as [|? ? Hw HT']; subst.
    destruct (IH zs ltac:(lia)) as (HR & HH & HV); [split; [reflexivity|split; assumption]|].
    unfold piece_words in HV. cbn [wval nth honest_piece]. rewrite HV.
    remember (sum_word z (nth 0 zs 0)) as w eqn:Ew. unfold in_table in Hw.
    assert (HP : 2 ^ (10 * Z.of_nat (S (length zs))) = 2 ^ 10 * 2 ^ (10 * Z.of_nat (length zs))).
    { rewrite Nat2Z.inj_succ. replace (10 * Z.succ (Z.of_nat (length zs))) with (10 + 10 * Z.of_nat (length zs)) by lia.
      apply Z.pow_add_r; lia. }
    assert (E : z = w + 2 ^ 10 * nth 0 zs 0).
    { apply sum_word_step; [exact Hz|symmetry; exact Ew|].
      pose proof (small_pow _ Hn). pose proof pow250_lt. rewrite HP in H. nia. }
    split; [rewrite HP; nia|]. split; [|symmetry; exact E].
    f_equal. replace (z / 2 ^ 10) with (nth 0 zs 0); [exact HH|].
    rewrite E. rewrite Z.mul_comm, Z.div_add by lia. rewrite (Z.div_small w) by lia. lia.
Qed.

Lemma honest_piece_nth : forall n x k, (k < n)%nat -> nth k (honest_piece n x) 0 = x / 2 ^ (10 * Z.of_nat k).
Proof.
  induction n as [|n IH]; intros x k Hk; [lia|]. destruct k as [|k].
  - cbn [honest_piece nth]. rewrite Z.mul_0_r, Z.pow_0_r, Z.div_1_r. reflexivity.
  - cbn [honest_piece nth]. rewrite IH by lia. rewrite Z.div_div by (try apply Z.pow_pos_nonneg; lia).
    f_equal. rewrite <- Z.pow_add_r by lia. f_equal. lia.
Qed.

Lemma piece_nth : forall n zs k, (n <= 25)%nat -> (k < n)%nat -> piece n zs ->
  nth k zs 0 = nth 0 zs 0 / 2 ^ (10 * Z.of_nat k).
Proof.
  intros n zs k Hn Hk HP. destruct (piece_inv n zs Hn HP) as (_ & HH & _).
  rewrite HH at 1. apply honest_piece_nth. exact Hk.
Qed.

Lemma piece_words_length : forall n zs, piece n zs -> length (piece_words zs) = n.
Proof. intros n zs (HL & _). unfold piece_words. rewrite sum_words_length, app_length, HL. cbn [length]. lia. Qed.

Lemma piece_words_table : forall n zs, piece n zs -> Forall in_table (piece_words zs).
Proof. intros n zs (_ & _ & H). exact H. Qed.

Lemma honest_piece_length : forall n x, length (honest_piece n x) = n.
Proof. induction n as [|n IH]; intro x; [reflexivity|]. cbn [honest_piece length]. rewrite IH. reflexivity. Qed.

Lemma div_base : forall x, is_base x -> is_base (x / 2 ^ 10).
Proof.
  intros x H. unfold is_base in *. split; [apply Z.div_pos; lia|].
  apply Z.le_lt_trans with x; [apply Z.div_le_upper_bound; lia|lia].
Qed.

Lemma honest_piece_base : forall n x, is_base x -> Forall is_base (honest_piece n x).
Proof. induction n as [|n IH]; intros x H; [constructor|]. cbn [honest_piece]. constructor; [exact H|]. apply IH, div_base, H. Qed.

Lemma div_word : forall x, is_base x -> in_table (sum_word x (x / 2 ^ 10)).
Proof.
  intros x H. unfold sum_word, in_table. pose proof (Z.mod_pos_bound x (2 ^ 10) ltac:(lia)).
  rewrite (Zmod_eq_full x (2 ^ 10)) in H0 by lia. unfold is_base in H.
  pose proof pmod_val. rewrite Z.mod_small; lia.
Qed.

Lemma honest_piece_sat : forall n x, is_base x -> x < 2 ^ (10 * Z.of_nat n) -> piece n (honest_piece n x).
Proof.
  intros n x HB HX. split; [apply honest_piece_length|]. split; [apply honest_piece_base; exact HB|].
  revert x HB HX. induction n as [|n IH]; intros x HB HX; [constructor|].
  cbn [honest_piece app].
  assert (HD : x / 2 ^ 10 < 2 ^ (10 * Z.of_nat n)).
  { apply Z.div_lt_upper_bound; [lia|]. rewrite <- Z.pow_add_r by lia. eapply Z.lt_le_trans; [exact HX|].
    apply Z.pow_le_mono_r; lia. }
  specialize (IH _ (div_base _ HB) HD).
  destruct n as [|n].
  - cbn [honest_piece app sum_words]. constructor; [|constructor].
    replace 0 with (x / 2 ^ 10); [apply div_word; exact HB|]. change (2 ^ (10 * Z.of_nat 0)) with 1 in HD.
    pose proof (proj1 (div_base _ HB)). lia.
  - cbn [honest_piece app] in *. rewrite sum_words_cons. constructor; [apply div_word; exact HB|exact IH].
Qed.

(** ** witness_check *)
Lemma honest_sum_length : forall n x, length (honest_sum n x) = S n.
Proof. induction n as [|n IH]; intro x; [reflexivity|]. cbn [honest_sum length]. rewrite IH. reflexivity. Qed.

Lemma honest_sum_nth : forall n x k, (k <= n)%nat -> nth k (honest_sum n x) 0 = x / 2 ^ (10 * Z.of_nat k).
Proof.
  induction n as [|n IH]; intros x k Hk.
  - replace k with 0%nat by lia. cbn [honest_sum nth]. rewrite Z.mul_0_r, Z.pow_0_r, Z.div_1_r. reflexivity.
  - destruct k as [|k].
    + cbn [honest_sum nth]. rewrite Z.mul_0_r, Z.pow_0_r, Z.div_1_r. reflexivity.
    + cbn [honest_sum nth]. rewrite IH by lia. rewrite Z.div_div by (try apply Z.pow_pos_nonneg; lia).
      f_equal. rewrite <- Z.pow_add_r by lia. f_equal. lia.
Qed.

Lemma honest_sum_sat : forall n x strict, is_base x -> (strict = true -> x < 2 ^ (10 * Z.of_nat n)) ->
  witness_check n strict (honest_sum n x).
Proof.
  intros n x strict HB HS. split; [apply honest_sum_length|]. split.
  { clear HS. revert x HB. induction n as [|n IH]; intros x HB; cbn [honest_sum]; constructor; try exact HB; [constructor|].
    apply IH, div_base, HB. }
  split.
  { clear HS. revert x HB. induction n as [|n IH]; intros x HB; [constructor|].
    specialize (IH _ (div_base _ HB)).
    destruct n as [|n]; cbn [honest_sum] in *; rewrite sum_words_cons; (constructor; [apply div_word; exact HB|exact IH]). }
  intro E. rewrite honest_sum_nth by lia. specialize (HS E). unfold is_base in HB. apply Z.div_small. lia.
Qed.

(** If the last value of a running sum is 0, the first is below 2^(10 n). *)
Lemma witness_check_piece : forall n strict zs, witness_check n strict zs -> nth n zs 0 = 0 ->
  piece n (firstn n zs).
Proof.
  intros n strict zs (HL & HB & HT & _) HZ.
  assert (E : zs = firstn n zs ++ [0]).
  { rewrite <- (firstn_skipn n zs) at 1. f_equal.
    assert (HK : length (skipn n zs) = 1%nat) by (rewrite skipn_length; lia).
    destruct (skipn n zs) as [|z [|? ?]] eqn:ES; try discriminate HK. f_equal.
    rewrite <- (firstn_skipn n zs) in HZ. rewrite app_nth2 in HZ by (rewrite firstn_length; lia).
    rewrite ES, firstn_length in HZ. replace (n - Nat.min n (length zs))%nat with 0%nat in HZ by lia. exact HZ. }
  split; [rewrite firstn_length; lia|]. split.
  - rewrite E in HB. apply Forall_app in HB. apply HB.
  - rewrite <- E. exact HT.
Qed.

Lemma nth_firstn : forall (A : Type) n k (l : list A) d, (k < n)%nat -> nth k (firstn n l) d = nth k l d.
Proof.
  induction n as [|n IH]; intros k l d Hk; [lia|]. destruct l as [|x l]; [destruct k; reflexivity|].
  destruct k as [|k]; [reflexivity|]. cbn [firstn nth]. apply IH. lia.
Qed.

Lemma witness_check_zero : forall n strict zs, (0 < n <= 25)%nat -> witness_check n strict zs -> nth n zs 0 = 0 ->
  0 <= nth 0 zs 0 < 2 ^ (10 * Z.of_nat n) /\
  forall k, (k < n)%nat -> nth k zs 0 = nth 0 zs 0 / 2 ^ (10 * Z.of_nat k).
Proof.
  intros n strict zs Hn HW HZ. pose proof (witness_check_piece _ _ _ HW HZ) as HP.
  destruct (piece_inv n _ ltac:(lia) HP) as (HR & _).
  rewrite nth_firstn in HR by lia. split; [exact HR|].
  intros k Hk. pose proof (piece_nth n _ k ltac:(lia) Hk HP) as E.
  rewrite !nth_firstn in E by lia. exact E.
Qed.

Lemma witness_check_base : forall n strict zs k, witness_check n strict zs -> is_base (nth k zs 0).
Proof.
  intros n strict zs k (_ & HB & _). destruct (Nat.lt_ge_cases k (length zs)) as [H|H].
  - exact (proj1 (Forall_forall _ _) HB _ (nth_In zs 0 H)).
  - rewrite nth_overflow by exact H. unfold is_base. pose proof pmod_pos. lia.
Qed.

Lemma piece_base : forall n zs k, piece n zs -> is_base (nth k zs 0).
Proof.
  intros n zs k (_ & HB & _). destruct (Nat.lt_ge_cases k (length zs)) as [H|H].
  - exact (proj1 (Forall_forall _ _) HB _ (nth_In zs 0 H)).
  - rewrite nth_overflow by exact H. unfold is_base. pose proof pmod_pos. lia.
Qed.

(** ** Short range checks *)
Lemma witness_short_iff : forall bits x, 0 <= bits <= 10 -> (witness_short bits x <-> 0 <= x < 2 ^ bits).
Proof.
  intros bits x Hb. unfold witness_short, in_table, is_base.
  assert (HP : 2 ^ 10 = 2 ^ bits * 2 ^ (10 - bits)) by (rewrite <- Z.pow_add_r by lia; f_equal; lia).
  pose proof (Z.pow_pos_nonneg 2 bits ltac:(lia) ltac:(lia)).
  pose proof (Z.pow_pos_nonneg 2 (10 - bits) ltac:(lia) ltac:(lia)).
  assert (HU : 2 ^ (10 - bits) <= 2 ^ 10) by (apply Z.pow_le_mono_r; lia).
  change (2 ^ 10) with 1024 in *. pose proof pmod_val. split.
  - intros (HB & HT & HS). rewrite Z.mod_small in HS by nia. nia.
  - intro H2. assert (x < 1024) by nia. split; [lia|]. split; [lia|]. rewrite Z.mod_small by nia. nia.
Qed.

(** ** Canonicity *)
Lemma canon : forall low top v, top = 0 \/ top = 1 -> 0 <= low < 2 ^ 254 -> (top = 1 -> low < t_p) ->
  is_base v -> vanishes (low + top * 2 ^ 254 - v) -> v = low + top * 2 ^ 254.
Proof.
  intros low top v HT HL HC HV H. symmetry. apply vanishes_eq; [|exact HV|exact H].
  unfold is_base. pose proof pmod_tp. pose proof t_p_val. destruct HT as [-> | ->]; [lia|].
  specialize (HC eq_refl). lia.
Qed.

(** low' = low + 2^(10 n) - t_p has a running sum that ends in 0: low < t_p. *)
Lemma below_tp : forall n zs low, (13 <= n <= 14)%nat -> witness_check n false zs ->
  0 <= low < 2 ^ (10 * Z.of_nat n) -> vanishes (low + 2 ^ (10 * Z.of_nat n) - t_p - nth 0 zs 0) ->
  nth n zs 0 = 0 -> low < t_p.
Proof.
  intros n zs low Hn HW HL HV HZ.
  destruct (witness_check_zero n false zs ltac:(lia) HW HZ) as (HR & _).
  pose proof (witness_check_base _ _ _ 0%nat HW) as HB. unfold is_base in HB.
  pose proof pmod_val. pose proof t_p_val.
  assert (HN : n = 13%nat \/ n = 14%nat) by lia.
  assert (E : low + 2 ^ (10 * Z.of_nat n) - t_p = nth 0 zs 0).
  { apply vanishes_eq; [|exact HB|exact HV]. unfold is_base.
    destruct HN as [-> | ->]; [change (10 * Z.of_nat 13) with 130 in *|change (10 * Z.of_nat 14) with 140 in *]; lia. }
  lia.
Qed.

(** Conversely: below t_p the honest running sum of low' ends in 0. *)
Lemma below_tp_honest : forall n low, (13 <= n <= 14)%nat -> 0 <= low < t_p ->
  nth n (honest_sum n ((low + 2 ^ (10 * Z.of_nat n) - t_p) mod pmod)) 0 = 0.
Proof.
  intros n low Hn HL. rewrite honest_sum_nth by lia. pose proof pmod_val. pose proof t_p_val.
  assert (HN : n = 13%nat \/ n = 14%nat) by lia.
  destruct HN as [-> | ->]; [change (10 * Z.of_nat 13) with 130 in *|change (10 * Z.of_nat 14) with 140 in *];
    rewrite Z.mod_small by lia; apply Z.div_small; lia.
Qed.

(** Top bit of a canonical field element. *)
Lemma base_top : forall x, is_base x ->
  bitrange x 254 255 = x / 2 ^ 254 /\ (x / 2 ^ 254 = 0 \/ x / 2 ^ 254 = 1) /\
  x = x mod 2 ^ 254 + 2 ^ 254 * (x / 2 ^ 254) /\ 0 <= x mod 2 ^ 254 < 2 ^ 254 /\
  (x / 2 ^ 254 = 1 -> x mod 2 ^ 254 < t_p).
Proof.
  intros x H. unfold is_base in H. pose proof pmod_val. pose proof pmod_tp. pose proof t_p_val.
  pose proof (Z_div_mod_eq_full x (2 ^ 254)) as E. pose proof (Z.mod_pos_bound x (2 ^ 254) ltac:(lia)) as M.
  assert (T : x / 2 ^ 254 = 0 \/ x / 2 ^ 254 = 1) by lia.
  split; [|split; [exact T|split; [lia|split; [exact M|lia]]]].
  unfold bitrange. change (2 ^ (255 - 254)) with 2. apply Z.mod_small. lia.
Qed.

Lemma bitrange_range : forall x lo hi, lo <= hi -> 0 <= bitrange x lo hi < 2 ^ (hi - lo).
Proof. intros x lo hi H. apply Z.mod_pos_bound. apply Z.pow_pos_nonneg; lia. Qed.

(** Cutting a bit range at m. *)
Lemma bitrange_cut : forall x lo m hi, 0 <= lo <= m -> m <= hi ->
  bitrange x lo hi = bitrange x lo m + 2 ^ (m - lo) * bitrange x m hi.
Proof.
  intros x lo m hi H K. unfold bitrange.
  replace (2 ^ (hi - lo)) with (2 ^ (m - lo) * 2 ^ (hi - m)) by (rewrite <- Z.pow_add_r by lia; f_equal; lia).
  rewrite Z.rem_mul_r by (try apply Z.pow_pos_nonneg; try apply Z.pow_nonzero; lia).
  f_equal. f_equal. rewrite Z.div_div by (try apply Z.pow_pos_nonneg; try apply Z.pow_nonzero; lia).
  f_equal. f_equal. rewrite <- Z.pow_add_r by lia. f_equal. lia.
Qed.

Lemma bitrange_all : forall x hi, 0 <= x < 2 ^ hi -> bitrange x 0 hi = x.
Proof. intros x hi H. unfold bitrange. rewrite Z.pow_0_r, Z.div_1_r, Z.sub_0_r. apply Z.mod_small. exact H. Qed.

Lemma bitrange_low : forall x hi, bitrange x 0 hi = x mod 2 ^ hi.
Proof. intros x hi. unfold bitrange. rewrite Z.pow_0_r, Z.div_1_r, Z.sub_0_r. reflexivity. Qed.

(** The canonicity argument shared by all decompositions. *)
Lemma canon_gen : forall n zs low hi top v, (13 <= n <= 14)%nat -> witness_check n false zs ->
  top = 0 \/ top = 1 -> 0 <= low -> 0 <= hi -> low + hi < 2 ^ 254 -> is_base v ->
  vanishes (low + hi + top * 2 ^ 254 - v) ->
  (top = 1 -> hi = 0) -> (top = 1 -> low < 2 ^ (10 * Z.of_nat n)) ->
  vanishes (low + 2 ^ (10 * Z.of_nat n) - t_p - nth 0 zs 0) ->
  vanishes (top * nth n zs 0) ->
  v = low + hi + top * 2 ^ 254.
Proof.
  intros n zs low hi top v Hn HW HT HL HH HS HV HD Hhi Hlow Hp Hz.
  apply canon; [exact HT|lia| |exact HV|exact HD].
  intro E. rewrite (Hhi E), Z.add_0_r.
  apply (below_tp n zs low Hn HW); [specialize (Hlow E); lia|exact Hp|].
  exact (guarded _ _ (witness_check_base _ _ _ n HW) Hz E).
Qed.

(** Completeness of the same checks: the honest running sum of low' satisfies them. *)
Lemma canon_honest : forall n low hi top, (13 <= n <= 14)%nat -> 0 <= low -> 0 <= hi ->
  (top = 0 \/ top = 1) -> (top = 1 -> low + hi < t_p) ->
  let zs := honest_sum n ((low + 2 ^ (10 * Z.of_nat n) - t_p) mod pmod) in
  witness_check n false zs /\ vanishes (low + 2 ^ (10 * Z.of_nat n) - t_p - nth 0 zs 0) /\
  vanishes (top * nth n zs 0).
Proof.
  intros n low hi top Hn HL HH HT HC. cbv zeta. split; [|split].
  - apply honest_sum_sat; [apply Z.mod_pos_bound; exact pmod_pos|discriminate].
  - rewrite honest_sum_nth by lia. change (10 * Z.of_nat 0) with 0. rewrite Z.pow_0_r, Z.div_1_r. apply vanishes_mod.
  - destruct HT as [-> | ->]; [apply vanishes_zero|]. specialize (HC eq_refl).
    rewrite below_tp_honest by lia. apply vanishes_zero.
Qed.

(** A guarded quantity of the honest assignment: zero as soon as the top bit is set. *)
Lemma guard_honest : forall top x, top = 0 \/ top = 1 -> (top = 1 -> x = 0) -> vanishes (top * x).
Proof. intros top x [-> | ->] H; [apply vanishes_zero|]. rewrite (H eq_refl). apply vanishes_zero. Qed.

Lemma vanishes_id : forall x, vanishes (x - x).
Proof. intro x. rewrite Z.sub_diag. apply vanishes_zero. Qed.

Lemma base_of_lt : forall x, 0 <= x < 2 ^ 254 -> is_base x.
Proof. intros x H. unfold is_base. pose proof pmod_tp. pose proof t_p_val. lia. Qed.
