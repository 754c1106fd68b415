(** Fermat's little theorem, Pocklington's criterion and the primality of the two moduli. *)
From Coq Require Import ZArith List Bool Lia Permutation Znumtheory Zpow_facts.
From Verif Require Import Prelude Fields FastMod.
Import ListNotations.
Open Scope Z_scope.

Definition cong (n a b : Z) : Prop := a mod n = b mod n.

Lemma mod_eq_divide : forall n a b, n <> 0 -> (a mod n = b mod n <-> (n | a - b)).
Proof.
  intros n a b Hn. split; intro H.
  - apply Z.mod_divide; [assumption|]. rewrite Zminus_mod, H, Z.sub_diag. apply Zmod_0_l.
  - destruct H as [k Hk]. replace a with (b + k * n) by lia. apply Z_mod_plus_full.
Qed.

Lemma small_multiple : forall n d, 0 < n -> (n | d) -> - n < d < n -> d = 0.
Proof.
  intros n d Hn [k Hk] Hd. destruct (Z.lt_trichotomy k 0) as [H|[->|H]]; nia.
Qed.

Lemma pow_mod_l : forall a k n, 0 < n -> 0 <= k -> (a mod n) ^ k mod n = a ^ k mod n.
Proof. intros. symmetry. apply Zpower_mod. assumption. Qed.

(** * Fermat *)
Section Fermat.
  Variable p : Z.
  Hypothesis Hp : prime p.

  Let p_gt : 1 < p.
  Proof. destruct Hp; assumption. Qed.

  Definition range1 : list Z := map Z.of_nat (seq 1 (Z.to_nat (p - 1))).

  Lemma range1_in : forall x, In x range1 <-> 1 <= x < p.
  Proof.
    intro x. unfold range1. rewrite in_map_iff. split.
    - intros (k & <- & Hk). apply in_seq in Hk. lia.
    - intro H. exists (Z.to_nat x). split; [lia|]. apply in_seq. lia.
  Qed.

  Lemma range1_nodup : NoDup range1.
  Proof.
    unfold range1. apply FinFun.Injective_map_NoDup; [|apply seq_NoDup].
    intros a b H. lia.
  Qed.

  Definition prodl (l : list Z) : Z := fold_right Z.mul 1 l.

  Lemma prodl_perm : forall l l', Permutation l l' -> prodl l = prodl l'.
  Proof.
    induction 1; unfold prodl in *; cbn [fold_right] in *;
      [reflexivity | congruence | ring | congruence].
  Qed.

  Lemma prime_not_div_small : forall x, 1 <= x < p -> ~ (p | x).
  Proof.
    intros x Hx [k Hk]. assert (x = 0); [|lia]. apply (small_multiple p); [lia|exists k; assumption|lia].
  Qed.

  Lemma prodl_not_div : forall l, (forall x, In x l -> ~ (p | x)) -> ~ (p | prodl l).
  Proof.
    induction l as [|x l IH]; intros H; cbn [prodl fold_right].
    - apply (prime_not_div_small 1). lia.
    - intro D. apply prime_mult in D; [|assumption]. destruct D as [D|D].
      + apply (H x); [left; reflexivity|assumption].
      + apply IH in D; [assumption|]. intros y Hy. apply H. right; assumption.
  Qed.

  Variable a : Z.
  Hypothesis Ha : ~ (p | a).

  Definition mulmap (l : list Z) : list Z := map (fun x => a * x mod p) l.

  Lemma mulmap_perm : Permutation (mulmap range1) range1.
  Proof.
    apply NoDup_Permutation_bis.
    - unfold mulmap.
      assert (G : forall l, NoDup l -> (forall x, In x l -> 1 <= x < p) ->
                            NoDup (map (fun x => a * x mod p) l)).
      { induction l as [|x l IH]; intros HN HI; cbn [map]; constructor.
        - intro HIn. apply in_map_iff in HIn. destruct HIn as (y & Hy & HyIn).
          apply mod_eq_divide in Hy; [|lia].
          replace (a * y - a * x) with (a * (y - x)) in Hy by ring.
          apply prime_mult in Hy; [|assumption]. destruct Hy as [Hy|Hy]; [contradiction|].
          assert (y = x) as ->.
          { pose proof (HI x (or_introl eq_refl)). pose proof (HI y (or_intror HyIn)).
            assert (y - x = 0); [|lia]. apply (small_multiple p); [lia|assumption|lia]. }
          inversion HN; contradiction.
        - apply IH; [inversion HN; assumption|]. intros y Hy. apply HI. right; assumption. }
      apply G; [apply range1_nodup|]. intros x Hx. apply range1_in; assumption.
    - unfold mulmap. rewrite map_length. lia.
    - intros y Hy. unfold mulmap in Hy. apply in_map_iff in Hy. destruct Hy as (x & <- & Hx).
      apply range1_in in Hx. apply range1_in.
      pose proof (Z.mod_pos_bound (a * x) p).
      assert (a * x mod p <> 0); [|lia].
      intro E. apply Z.mod_divide in E; [|lia]. apply prime_mult in E; [|assumption].
      destruct E as [E|E]; [contradiction|]. eapply prime_not_div_small; eassumption.
  Qed.

  Lemma prodl_mulmap : forall l, prodl (mulmap l) mod p = a ^ Z.of_nat (length l) * prodl l mod p.
  Proof.
    induction l as [|x l IH]; [reflexivity|].
    cbn [mulmap map prodl fold_right length].
    change (fold_right Z.mul 1 (map (fun x => a * x mod p) l)) with (prodl (mulmap l)).
    change (fold_right Z.mul 1 l) with (prodl l).
    rewrite Zmult_mod, IH, Zmod_mod, <- Zmult_mod.
    rewrite Nat2Z.inj_succ, Z.pow_succ_r by lia. f_equal. ring.
  Qed.

  Theorem fermat : a ^ (p - 1) mod p = 1.
  Proof.
    pose proof (prodl_mulmap range1) as H.
    rewrite (prodl_perm _ _ mulmap_perm) in H.
    assert (HL : Z.of_nat (length range1) = p - 1).
    { unfold range1. rewrite map_length, seq_length. lia. }
    rewrite HL in H.
    symmetry in H. apply mod_eq_divide in H; [|lia].
    replace (a ^ (p - 1) * prodl range1 - prodl range1) with ((a ^ (p - 1) - 1) * prodl range1) in H by ring.
    apply prime_mult in H; [|assumption]. destruct H as [H|H].
    - replace 1 with (1 mod p) at 2 by (apply Z.mod_small; lia).
      apply mod_eq_divide; [lia|assumption].
    - exfalso. revert H. apply prodl_not_div. intros x Hx. apply range1_in in Hx.
      apply prime_not_div_small; assumption.
  Qed.
End Fermat.

Lemma pow_one_mod : forall p a k m, 1 < p -> 0 <= k -> 0 <= m ->
  a ^ k mod p = 1 -> a ^ (k * m) mod p = 1.
Proof.
  intros p a k m Hp Hk Hm H. rewrite Z.pow_mul_r by lia.
  rewrite <- pow_mod_l by lia. rewrite H. rewrite Z.pow_1_l by lia. apply Z.mod_small; lia.
Qed.

(** [b^s = b^t = 1] for coprime [s], [t] forces [b = 1]. *)
Lemma coprime_orders : forall p b s t, prime p -> 0 < s -> 0 < t -> rel_prime s t ->
  b ^ s mod p = 1 -> b ^ t mod p = 1 -> b mod p = 1.
Proof.
  intros p b s t Hp Hs Ht HR H1 H2.
  pose proof (prime_ge_2 p Hp) as Hp2.
  apply rel_prime_bezout in HR. destruct HR as [u v HB].
  (* positive Bezout: u' s = 1 + v' t *)
  set (n := Z.abs u + Z.abs v).
  assert (exists x y, 0 <= x /\ 0 <= y /\ x * s = 1 + y * t) as (x & y & Hx & Hy & E).
  { exists (u + n * t), (n * s - v).
    unfold n. repeat split; nia. }
  assert (E1 : b ^ (s * x) mod p = 1) by (apply pow_one_mod; lia).
  assert (E2 : b ^ (t * y) mod p = 1) by (apply pow_one_mod; lia).
  replace (s * x) with (1 + t * y) in E1 by lia.
  rewrite Z.pow_add_r in E1 by nia. rewrite Z.pow_1_r in E1.
  rewrite <- Zmult_mod_idemp_r, E2, Z.mul_1_r in E1. exact E1.
Qed.

(** Every number above 1 has a prime divisor whose square is at most it, unless it is prime. *)
Lemma not_prime_small_divisor : forall n, 1 < n -> ~ prime n ->
  exists d, prime d /\ (d | n) /\ d * d <= n.
Proof.
  intros n. assert (H0 : 0 <= n \/ n < 0) by lia. destruct H0 as [H0|H0]; [|lia].
  revert n H0. apply (Zlt_0_ind (fun n => 1 < n -> ~ prime n ->
      exists d, prime d /\ (d | n) /\ d * d <= n)).
  intros n IH _ Hn Hnp.
  destruct (not_prime_divide n Hn Hnp) as (d & Hd & Hdiv).
  destruct Hdiv as [e He].
  assert (Hmin : exists m, 1 < m < n /\ (m | n) /\ m * m <= n).
  { destruct (Z_le_gt_dec d e).
    - exists d. repeat split; try lia; [exists e; lia | nia].
    - exists e. repeat split; try nia; [exists d; lia]. }
  destruct Hmin as (m & Hm & Hmd & Hmm).
  destruct (prime_dec m) as [Hpm|Hpm].
  - exists m. auto.
  - destruct (IH m) as (d' & Hd' & Hdd & Hsq); [lia|lia|assumption|].
    exists d'. split; [assumption|]. split; [eapply Z.divide_trans; eassumption | lia].
Qed.

(** If f is a prime factor of n - 1 with a witness, f divides d - 1 for every prime d | n. *)
Lemma pock_step : forall n f k a d, 1 < n -> prime f -> n - 1 = f * k ->
  a ^ (n - 1) mod n = 1 -> Z.gcd (a ^ k mod n - 1) n = 1 ->
  prime d -> (d | n) -> (f | d - 1).
Proof.
  intros n f k a d Hn Hf Hk H1 HG Hd Hdn.
  pose proof (prime_ge_2 d Hd) as Hd2. pose proof (prime_ge_2 f Hf) as Hf2.
  assert (Hkp : 0 < k) by nia.
  assert (Hmd : forall x, x mod n mod d = x mod d).
  { intro x. symmetry. apply Zmod_div_mod; [lia|lia|assumption]. }
  assert (A1 : a ^ (n - 1) mod d = 1).
  { rewrite <- Hmd, H1. apply Z.mod_small; lia. }
  destruct (Zdivide_dec f (d - 1)) as [|Hnd]; [assumption|exfalso].
  assert (HR : rel_prime f (d - 1)).
  { apply prime_rel_prime; assumption. }
  assert (Hda : ~ (d | a)).
  { intros Hda. assert (a ^ (n - 1) mod d = 0); [|lia].
    apply Z.mod_divide; [lia|]. replace (n - 1) with (1 + (n - 2)) by lia.
    rewrite Z.pow_add_r, Z.pow_1_r by lia. apply Z.divide_mul_l. assumption. }
  assert (E : a ^ k mod d = 1).
  { apply coprime_orders with (s := f) (t := d - 1); try assumption; try lia.
    - rewrite <- Z.pow_mul_r by lia. replace (k * f) with (n - 1) by lia. assumption.
    - rewrite <- Z.pow_mul_r by lia. rewrite Z.mul_comm.
      apply pow_one_mod; try lia. apply fermat; assumption. }
  assert (D : (d | a ^ k mod n - 1)).
  { apply mod_eq_divide; [lia|]. rewrite Hmd, E. symmetry. apply Z.mod_small; lia. }
  assert (d | 1) as H1d.
  { rewrite <- HG. apply Z.gcd_greatest; assumption. }
  apply Z.divide_1_r in H1d. lia.
Qed.

(** The executable certificate check: two distinct prime factors f1, f2 of n - 1 (f2 may
    be 1) whose product squared exceeds n. *)
Definition witness_ok (n f a : Z) : bool :=
  ((n - 1) mod f =? 0) && (Zpow_mod a (n - 1) n =? 1)
  && (Z.gcd (Zpow_mod a ((n - 1) / f) n - 1) n =? 1).

Definition pock_check (n f1 f2 a : Z) : bool :=
  (1 <? n) && witness_ok n f1 a && ((f2 =? 1) || (witness_ok n f2 a && negb (f1 =? f2)))
  && (n <? (f1 * f2) * (f1 * f2)).

Lemma witness_step : forall n f a d, 1 < n -> prime f -> witness_ok n f a = true ->
  prime d -> (d | n) -> (f | d - 1).
Proof.
  intros n f a d Hn Hf HW Hd Hdn. unfold witness_ok in HW.
  rewrite !andb_true_iff, !Z.eqb_eq in HW. destruct HW as [[W1 W2] W3].
  pose proof (prime_ge_2 f Hf).
  rewrite Zpow_mod_correct in W2 by lia. rewrite Zpow_mod_correct in W3 by lia.
  apply (pock_step n f ((n - 1) / f) a d); try assumption.
  apply Z_div_exact_full_2; [lia|assumption].
Qed.

Theorem pocklington : forall n f1 f2 a, prime f1 -> f2 = 1 \/ prime f2 ->
  pock_check n f1 f2 a = true -> prime n.
Proof.
  intros n f1 f2 a P1 P2 HC. unfold pock_check in HC.
  rewrite !andb_true_iff, !Z.ltb_lt, orb_true_iff, Z.eqb_eq, andb_true_iff, negb_true_iff, Z.eqb_neq in HC.
  destruct HC as [[[Hn W1] W2] Hsq].
  destruct (prime_dec n) as [|Hnp]; [assumption|exfalso].
  destruct (not_prime_small_divisor n Hn Hnp) as (d & Hd & Hdn & Hdd).
  pose proof (witness_step n f1 a d Hn P1 W1 Hd Hdn) as D1.
  pose proof (prime_ge_2 d Hd) as Hd2. pose proof (prime_ge_2 f1 P1) as H2.
  assert (D : (f1 * f2 | d - 1)).
  { destruct W2 as [->|[W2 Hne]].
    - rewrite Z.mul_1_r. assumption.
    - destruct P2 as [->|P2]; [rewrite Z.mul_1_r; assumption|].
      pose proof (witness_step n f2 a d Hn P2 W2 Hd Hdn) as D2.
      pose proof (prime_ge_2 f2 P2).
      destruct D1 as [k1 E1].
      assert (HR : rel_prime f2 f1).
      { apply prime_rel_prime; [assumption|]. intro D. apply prime_div_prime in D; auto. }
      assert (f2 | k1) as [k2 E2].
      { apply Gauss with (b := f1); [|assumption]. rewrite Z.mul_comm, <- E1. assumption. }
      exists k2. rewrite E1, E2. ring. }
  assert (HF : 0 < f1 * f2).
  { destruct P2 as [->|P2]; [lia|]. pose proof (prime_ge_2 f2 P2). nia. }
  apply Z.divide_pos_le in D; [|lia].
  set (F := f1 * f2) in *.
  assert (F * F <= (d - 1) * (d - 1)) by (apply Z.mul_le_mono_nonneg; lia). nia.
Qed.

(** The same with the fast reduction, for moduli 2^254 + c. *)
Definition fast_gcd (c n f a : Z) : bool := ((n - 1) mod f =? 0) && (Z.gcd (fast_pow c a ((n - 1) / f) mod n - 1) n =? 1).
Definition fast_check (c n f1 f2 a : Z) : bool :=
  (n =? 2 ^ 254 + c) && (1 <? n) && (fast_pow c a (n - 1) mod n =? 1) && fast_gcd c n f1 a &&
  ((f2 =? 1) || (fast_gcd c n f2 a && negb (f1 =? f2))) && (n <? (f1 * f2) * (f1 * f2)).
Lemma fast_witness : forall c n f a, n = 2 ^ 254 + c -> 1 < n -> 0 < f -> fast_pow c a (n - 1) mod n = 1 -> fast_gcd c n f a = true ->
  witness_ok n f a = true.
Proof.
  intros c n f a E Hn Hf HP HG. unfold fast_gcd in HG. apply andb_true_iff in HG as [G1 G2]. unfold witness_ok.
  assert (0 <= (n - 1) / f) by (apply Z.div_pos; lia).
  rewrite !Zpow_mod_correct by lia. rewrite (fast_pow_mod c n) in HP by lia. rewrite (fast_pow_mod c n) in G2 by lia.
  rewrite HP, G1, G2. reflexivity.
Qed.
Theorem fast_pocklington : forall c n f1 f2 a, prime f1 -> f2 = 1 \/ prime f2 -> fast_check c n f1 f2 a = true -> prime n.
Proof.
  intros c n f1 f2 a P1 P2 HC. apply (pocklington n f1 f2 a P1 P2). unfold fast_check in HC.
  rewrite !andb_true_iff, orb_true_iff, !andb_true_iff, Z.eqb_eq, !Z.ltb_lt in HC. destruct HC as [[[[[E Hn] HP] G1] G2] HS].
  apply Z.eqb_eq in HP. unfold pock_check. rewrite !andb_true_iff, orb_true_iff, !andb_true_iff, !Z.ltb_lt.
  pose proof (prime_ge_2 _ P1). split; [split; [split; [exact Hn|]|]|exact HS].
  - apply (fast_witness c); assumption || lia.
  - destruct G2 as [G2|[G2 NE]]; [left; exact G2|right]. split; [|exact NE]. destruct P2 as [->|P2].
    + apply (fast_witness c); assumption || lia.
    + pose proof (prime_ge_2 _ P2). apply (fast_witness c); assumption || lia.
Qed.

(** Trial division for small primes. *)
Fixpoint no_divisor (fuel : nat) (d n : Z) : bool :=
  match fuel with
  | O => false
  | S fuel' => if n <? d * d then true else negb (n mod d =? 0) && no_divisor fuel' (d + 1) n
  end.

Lemma no_divisor_correct : forall fuel d n, no_divisor fuel d n = true -> 2 <= d ->
  forall m, d <= m -> m * m <= n -> ~ (m | n).
Proof.
  induction fuel as [|fuel IH]; intros d n H Hd m Hm Hmm; cbn [no_divisor] in H; [discriminate|].
  destruct (Z.ltb_spec n (d * d)); [nia|].
  apply andb_true_iff in H. destruct H as [H1 H2].
  destruct (Z.eq_dec m d) as [->|].
  - intro D. apply Z.mod_divide in D; [|lia]. rewrite D in H1. discriminate.
  - apply (IH (d + 1) n); try assumption; lia.
Qed.

Theorem trial_prime : forall fuel n, 1 < n -> no_divisor fuel 2 n = true -> prime n.
Proof.
  intros fuel n Hn H. destruct (prime_dec n) as [|Hnp]; [assumption|exfalso].
  destruct (not_prime_small_divisor n Hn Hnp) as (d & Hd & Hdn & Hdd).
  pose proof (prime_ge_2 d Hd).
  apply (no_divisor_correct fuel 2 n H) with (m := d); auto; lia.
Qed.

Ltac small_prime := apply (trial_prime 4000); [lia | vm_compute; reflexivity].
Ltac pock f1 f2 := apply (pocklington _ f1 f2 2); [ | | vm_compute; reflexivity].

Lemma prime_4025699 : prime 4025699. Proof. small_prime. Qed.
Lemma prime_80513981 : prime 80513981.
Proof. pock 4025699 1; [exact prime_4025699 | left; reflexivity]. Qed.
Lemma prime_5247740253619 : prime 5247740253619.
Proof. pock 80513981 1; [exact prime_80513981 | left; reflexivity]. Qed.
Lemma prime_q2 : prime 1690502597179744445941507.
Proof. pock 5247740253619 1; [exact prime_5247740253619 | left; reflexivity]. Qed.
Lemma prime_5701177 : prime 5701177. Proof. small_prime. Qed.
Lemma prime_399082391 : prime 399082391.
Proof. pock 5701177 1; [exact prime_5701177 | left; reflexivity]. Qed.
Lemma prime_31649 : prime 31649. Proof. small_prime. Qed.
Lemma prime_12149 : prime 12149. Proof. small_prime. Qed.
Lemma prime_5239247429827 : prime 5239247429827.
Proof. pock 31649 12149; [exact prime_31649 | right; exact prime_12149]. Qed.
Lemma prime_q1 : prime 10427374428728808478656897599072717.
Proof. pock 5239247429827 399082391; [exact prime_5239247429827 | right; exact prime_399082391]. Qed.

Theorem prime_qmod : prime qmod.
Proof.
  apply (fast_pocklington (qmod - 2 ^ 254) qmod 10427374428728808478656897599072717 1690502597179744445941507 2);
    [exact prime_q1 | right; exact prime_q2 | vm_compute; reflexivity].
Qed.

Lemma prime_6942563 : prime 6942563. Proof. small_prime. Qed.
Lemma prime_41655379 : prime 41655379.
Proof. pock 6942563 1; [exact prime_6942563 | left; reflexivity]. Qed.
Lemma prime_22160661629 : prime 22160661629.
Proof. pock 41655379 1; [exact prime_41655379 | left; reflexivity]. Qed.
Lemma prime_772231 : prime 772231. Proof. small_prime. Qed.
Lemma prime_413527 : prime 413527. Proof. small_prime. Qed.
Lemma prime_325086459374267 : prime 325086459374267.
Proof. pock 772231 413527; [exact prime_772231 | right; exact prime_413527]. Qed.
Lemma prime_p1 : prime 8999194758858563409123804352480028797519453.
Proof. pock 325086459374267 22160661629; [exact prime_325086459374267 | right; exact prime_22160661629]. Qed.

Theorem prime_pmod : prime pmod.
Proof.
  apply (fast_pocklington (pmod - 2 ^ 254) pmod 8999194758858563409123804352480028797519453 1 2);
    [exact prime_p1 | left; reflexivity | vm_compute; reflexivity].
Qed.

(** * Powers that are and are not 1 *)
Lemma pow_5 : fast_pow (pmod - 2 ^ 254) 5 ((pmod - 1) / 2) mod pmod = pmod - 1.
Proof. vm_compute. reflexivity. Qed.
Definition cube_root_of_1 : Z := 20444556541222657078399132219657928148671392403212669005631716460534733845831.
Lemma pow_minus_5 : fast_pow (pmod - 2 ^ 254) (-5) ((pmod - 1) / 3) mod pmod = cube_root_of_1.
Proof. vm_compute. reflexivity. Qed.
Theorem no_sqrt_of_5 : forall y, y * y mod pmod <> 5.
Proof.
  intros y H.
  pose proof pow_5 as HE. rewrite (fast_pow_mod _ pmod) in HE; [|ring|reflexivity|vm_compute; discriminate].
  assert (E : (y * y mod pmod) ^ ((pmod - 1) / 2) mod pmod = pmod - 1) by (rewrite H; exact HE).
  rewrite pow_mod_l in E by (vm_compute; (reflexivity || discriminate)).
  replace (y * y) with (y ^ 2) in E by ring.
  rewrite <- Z.pow_mul_r in E by (vm_compute; (reflexivity || discriminate)).
  change (2 * ((pmod - 1) / 2)) with (pmod - 1) in E.
  rewrite fermat in E; [vm_compute in E; discriminate E | exact prime_pmod |].
  intros [k Hk]. rewrite Hk in H.
  replace (k * pmod * (k * pmod)) with (k * pmod * k * pmod) in H by ring.
  rewrite Z_mod_mult in H. discriminate H.
Qed.

Theorem no_cuberoot_of_minus_5 : forall x, x * x * x mod pmod <> (-5) mod pmod.
Proof.
  intros x H.
  assert (HE : fast_pow (pmod - 2 ^ 254) (-5) ((pmod - 1) / 3) mod pmod <> 1) by (rewrite pow_minus_5; discriminate).
  rewrite (fast_pow_mod _ pmod) in HE; [|ring|reflexivity|vm_compute; discriminate].
  apply HE. clear HE.
  rewrite <- pow_mod_l by (vm_compute; (reflexivity || discriminate)).
  rewrite <- H. rewrite pow_mod_l by (vm_compute; (reflexivity || discriminate)).
  replace (x * x * x) with (x ^ 3) by ring.
  rewrite <- Z.pow_mul_r by (vm_compute; (reflexivity || discriminate)).
  change (3 * ((pmod - 1) / 3)) with (pmod - 1).
  apply fermat; [exact prime_pmod|].
  intros [k Hk]. rewrite Hk in H.
  replace (k * pmod * (k * pmod) * (k * pmod)) with (k * pmod * k * pmod * k * pmod) in H by ring.
  rewrite Z_mod_mult in H. vm_compute in H. discriminate H.
Qed.
