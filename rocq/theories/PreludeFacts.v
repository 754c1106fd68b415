(** Lemmas about the codecs and lists of Prelude.v. *)
From Coq Require Import String ZArith List Bool Lia.
From Coq Require Import ZifyBool ZifyNat ZifyN.
From Coq Require Import Init.Byte.
From Verif Require Import Prelude.
Import ListNotations.
Open Scope Z_scope.
Ltac Zify.zify_post_hook ::= Z.div_mod_to_equations.

(** * Monads *)
Lemma obind_ret : forall A B (m : outcome A) (k : A -> outcome B) b,
  obind m k = Ret b -> exists a, m = Ret a /\ k a = Ret b.
Proof. intros A B [a|w|] k b H; cbn in H; try discriminate. exists a; auto. Qed.

Lemma optbind_some : forall A B (m : option A) (k : A -> option B) b,
  optbind m k = Some b -> exists a, m = Some a /\ k a = Some b.
Proof. intros A B [a|] k b H; cbn in H; try discriminate. exists a; auto. Qed.

Lemma assert_ret : forall w b u, assert_ w b = Ret u -> b = true.
Proof. intros w [] u H; cbn in H; congruence. Qed.

Lemma unwrap_ret : forall A w (m : option A) a, unwrap w m = Ret a -> m = Some a.
Proof. intros A w [x|] a H; cbn in H; congruence. Qed.

(** Take apart a chain of binds that returned. *)
Ltac inv_ret :=
  repeat match goal with
  | H : obind _ _ = Ret _ |- _ =>
      let a := fresh "a" in let H1 := fresh "H" in
      apply obind_ret in H; destruct H as (a & H1 & H)
  | H : optbind _ _ = Some _ |- _ =>
      let a := fresh "a" in let H1 := fresh "H" in
      apply optbind_some in H; destruct H as (a & H1 & H)
  | H : assert_ _ _ = Ret _ |- _ => apply assert_ret in H
  | H : unwrap _ _ = Ret _ |- _ => apply unwrap_ret in H
  | H : Ret _ = Ret _ |- _ => injection H; clear H; intros; subst
  | H : Some _ = Some _ |- _ => injection H; clear H; intros; subst
  | H : Ok _ = Ok _ |- _ => injection H; clear H; intros; subst
  | H : (_, _) = (_, _) |- _ => injection H; clear H; intros; subst
  | H : Panic _ = Ret _ |- _ => discriminate H
  | H : OutOfFuel = Ret _ |- _ => discriminate H
  | H : None = Some _ |- _ => discriminate H
  | H : Some _ = None |- _ => discriminate H
  | H : Ok _ = Err _ |- _ => discriminate H
  | H : Err _ = Ok _ |- _ => discriminate H
  end.

(** * Bytes *)
Lemma Z_of_byte_range : forall b, 0 <= Z_of_byte b < 256.
Proof.
  intro b. unfold Z_of_byte. pose proof (Byte.to_N_bounded b) as H. lia.
Qed.

Lemma byte_of_Z_of_byte : forall b, byte_of_Z (Z_of_byte b) = b.
Proof.
  intro b. unfold byte_of_Z. pose proof (Z_of_byte_range b).
  rewrite Z.mod_small by lia. unfold Z_of_byte. rewrite N2Z.id. rewrite Byte.of_to_N. reflexivity.
Qed.

Lemma Z_of_byte_of_Z : forall z, Z_of_byte (byte_of_Z z) = z mod 256.
Proof.
  intro z. unfold byte_of_Z.
  destruct (Byte.of_N (Z.to_N (z mod 256))) as [b|] eqn:E.
  - apply Byte.to_of_N in E. unfold Z_of_byte. rewrite E. rewrite Z2N.id; [reflexivity|].
    pose proof (Z.mod_pos_bound z 256). lia.
  - apply Byte.of_N_None_iff in E. pose proof (Z.mod_pos_bound z 256). lia.
Qed.

Lemma Z_of_byte_inj : forall a b, Z_of_byte a = Z_of_byte b -> a = b.
Proof.
  intros a b H. rewrite <- (byte_of_Z_of_byte a), H. apply byte_of_Z_of_byte.
Qed.

Lemma byte_eqb_eq : forall a b, Byte.eqb a b = true <-> a = b.
Proof.
  intros a b. split; [apply Byte.byte_dec_bl | apply Byte.byte_dec_lb].
Qed.

Lemma bytes_eqb_eq : forall a b, bytes_eqb a b = true <-> a = b.
Proof.
  induction a as [|x a IH]; destruct b as [|y b]; cbn [bytes_eqb]; split; intro H; try congruence.
  - apply andb_true_iff in H. destruct H as [H1 H2].
    apply byte_eqb_eq in H1. apply IH in H2. congruence.
  - injection H; intros; subst. apply andb_true_iff. split; [apply byte_eqb_eq | apply IH]; reflexivity.
Qed.

Lemma bytes_eqb_refl : forall a, bytes_eqb a a = true.
Proof. intro a. apply bytes_eqb_eq. reflexivity. Qed.

(** * Little-endian bytes *)
Lemma le_bytes_length : forall n v, length (le_bytes n v) = n.
Proof. induction n; intros; cbn [le_bytes length]; auto. Qed.

Lemma pow256_S : forall n, 256 ^ Z.of_nat (S n) = 256 * 256 ^ Z.of_nat n.
Proof. intro n. rewrite Nat2Z.inj_succ, Z.pow_succ_r; lia. Qed.

Lemma pow256_pos : forall n, 0 < 256 ^ Z.of_nat n.
Proof. intro n. apply Z.pow_pos_nonneg; lia. Qed.

Lemma le_val_le_bytes_mod : forall n v, le_val (le_bytes n v) = v mod 256 ^ Z.of_nat n.
Proof.
  induction n as [|n IH]; intro v.
  - cbn. rewrite Z.mod_1_r. reflexivity.
  - cbn [le_bytes le_val]. rewrite IH, Z_of_byte_of_Z, pow256_S.
    rewrite Z.rem_mul_r by (pose proof (pow256_pos n); lia). lia.
Qed.

Lemma le_val_le_bytes : forall n v, 0 <= v < 256 ^ Z.of_nat n -> le_val (le_bytes n v) = v.
Proof. intros. rewrite le_val_le_bytes_mod. apply Z.mod_small. assumption. Qed.

Lemma le_val_range : forall l, 0 <= le_val l < 256 ^ Z.of_nat (length l).
Proof.
  induction l as [|b l IH]; cbn [le_val length].
  - cbn. lia.
  - rewrite pow256_S. pose proof (Z_of_byte_range b). lia.
Qed.

Lemma le_bytes_le_val : forall n l, length l = n -> le_bytes n (le_val l) = l.
Proof.
  induction n as [|n IH]; destruct l as [|b l]; cbn [length]; intro H; try discriminate; try reflexivity.
  cbn [le_val le_bytes]. pose proof (Z_of_byte_range b).
  replace ((Z_of_byte b + 256 * le_val l) / 256) with (le_val l) by lia.
  rewrite IH by lia. f_equal.
  rewrite <- (byte_of_Z_of_byte b) at 2. apply Z_of_byte_inj.
  rewrite !Z_of_byte_of_Z. lia.
Qed.

Lemma le_bytes_inj : forall n u v, 0 <= u < 256 ^ Z.of_nat n -> 0 <= v < 256 ^ Z.of_nat n ->
  le_bytes n u = le_bytes n v -> u = v.
Proof.
  intros n u v Hu Hv H. rewrite <- (le_val_le_bytes n u), <- (le_val_le_bytes n v), H by assumption.
  reflexivity.
Qed.

Lemma le_val_inj : forall a b, length a = length b -> le_val a = le_val b -> a = b.
Proof.
  intros a b HL HV. rewrite <- (le_bytes_le_val (length a) a eq_refl), HV, HL.
  apply le_bytes_le_val. reflexivity.
Qed.

(** * Bits *)
Lemma le_bits_length : forall n v, length (le_bits n v) = n.
Proof. induction n; intros; cbn [le_bits length]; auto. Qed.

Lemma pow2_S : forall n, 2 ^ Z.of_nat (S n) = 2 * 2 ^ Z.of_nat n.
Proof. intro n. rewrite Nat2Z.inj_succ, Z.pow_succ_r; lia. Qed.

Lemma pow2_pos : forall n, 0 < 2 ^ Z.of_nat n.
Proof. intro n. apply Z.pow_pos_nonneg; lia. Qed.

Lemma odd_mod2 : forall v, Z.b2z (Z.odd v) = v mod 2.
Proof. intro v. rewrite Zmod_odd. destruct (Z.odd v); reflexivity. Qed.

Lemma bits_val_le_bits_mod : forall n v, bits_val (le_bits n v) = v mod 2 ^ Z.of_nat n.
Proof.
  induction n as [|n IH]; intro v.
  - cbn. rewrite Z.mod_1_r. reflexivity.
  - cbn [le_bits bits_val]. rewrite IH, odd_mod2, pow2_S.
    rewrite Z.rem_mul_r by (pose proof (pow2_pos n); lia). lia.
Qed.

Lemma bits_val_le_bits : forall n v, 0 <= v < 2 ^ Z.of_nat n -> bits_val (le_bits n v) = v.
Proof. intros. rewrite bits_val_le_bits_mod. apply Z.mod_small. assumption. Qed.

Lemma bits_val_range : forall l, 0 <= bits_val l < 2 ^ Z.of_nat (length l).
Proof.
  induction l as [|b l IH]; cbn [bits_val length].
  - cbn. lia.
  - rewrite pow2_S. destruct b; cbn [Z.b2z]; lia.
Qed.

Lemma le_bits_bits_val : forall n l, length l = n -> le_bits n (bits_val l) = l.
Proof.
  induction n as [|n IH]; destruct l as [|b l]; cbn [length]; intro H; try discriminate; try reflexivity.
  cbn [bits_val le_bits].
  replace ((Z.b2z b + 2 * bits_val l) / 2) with (bits_val l) by (destruct b; cbn [Z.b2z]; lia).
  rewrite IH by lia. f_equal.
  rewrite Z.odd_add_mul_2. destruct b; reflexivity.
Qed.

Lemma bits_val_inj : forall a b, length a = length b -> bits_val a = bits_val b -> a = b.
Proof.
  intros a b HL HV. rewrite <- (le_bits_bits_val (length a) a eq_refl), HV, HL.
  apply le_bits_bits_val. reflexivity.
Qed.

Lemma le_bits_inj : forall n u v, 0 <= u < 2 ^ Z.of_nat n -> 0 <= v < 2 ^ Z.of_nat n ->
  le_bits n u = le_bits n v -> u = v.
Proof.
  intros n u v Hu Hv H. rewrite <- (bits_val_le_bits n u), <- (bits_val_le_bits n v), H by assumption.
  reflexivity.
Qed.

Lemma bits_val_app : forall a b, bits_val (a ++ b) = bits_val a + 2 ^ Z.of_nat (length a) * bits_val b.
Proof.
  induction a as [|x a IH]; intro b; cbn [app bits_val length].
  - change (2 ^ Z.of_nat 0) with 1. lia.
  - rewrite IH, pow2_S. lia.
Qed.

Lemma le_bits_app : forall m n v,
  le_bits (m + n) v = le_bits m v ++ le_bits n (v / 2 ^ Z.of_nat m).
Proof.
  induction m as [|m IH]; intros n v.
  - cbn [Nat.add le_bits app]. change (2 ^ Z.of_nat 0) with 1. rewrite Z.div_1_r. reflexivity.
  - cbn [Nat.add le_bits app]. rewrite IH. f_equal. f_equal. f_equal.
    rewrite pow2_S. rewrite Z.div_div by (pose proof (pow2_pos m); lia). reflexivity.
Qed.

Lemma le_bits_mod : forall n v, le_bits n (v mod 2 ^ Z.of_nat n) = le_bits n v.
Proof.
  intros n v. apply bits_val_inj.
  - rewrite !le_bits_length. reflexivity.
  - rewrite !bits_val_le_bits_mod. apply Z.mod_mod. pose proof (pow2_pos n); lia.
Qed.

Lemma byte_bits_length : forall b, length (byte_bits b) = 8%nat.
Proof. intro b. apply le_bits_length. Qed.

Lemma bytes_bits_length : forall l, length (bytes_bits l) = (8 * length l)%nat.
Proof.
  induction l as [|b l IH]; [reflexivity|].
  unfold bytes_bits in *. cbn [flat_map]. rewrite app_length, IH, byte_bits_length. cbn [length]. lia.
Qed.

Lemma bits_val_bytes_bits : forall l, bits_val (bytes_bits l) = le_val l.
Proof.
  induction l as [|b l IH]; [reflexivity|].
  unfold bytes_bits in *. cbn [flat_map le_val]. rewrite bits_val_app, IH, byte_bits_length.
  unfold byte_bits. rewrite bits_val_le_bits.
  - change (2 ^ Z.of_nat 8) with 256. reflexivity.
  - change (2 ^ Z.of_nat 8) with 256. apply Z_of_byte_range.
Qed.

Lemma pow_256_2 : forall n, 256 ^ Z.of_nat n = 2 ^ Z.of_nat (8 * n).
Proof.
  intro n. rewrite Nat2Z.inj_mul. rewrite Z.pow_mul_r by lia. reflexivity.
Qed.

Lemma bytes_bits_le_bytes : forall n v, bytes_bits (le_bytes n v) = le_bits (8 * n) v.
Proof.
  intros n v. apply bits_val_inj.
  - rewrite bytes_bits_length, le_bytes_length, le_bits_length. reflexivity.
  - rewrite bits_val_bytes_bits, le_val_le_bytes_mod, bits_val_le_bits_mod, pow_256_2. reflexivity.
Qed.

Lemma bytes_bits_inj : forall a b, length a = length b -> bytes_bits a = bytes_bits b -> a = b.
Proof.
  intros a b HL H. apply le_val_inj; [assumption|].
  rewrite <- !bits_val_bytes_bits, H. reflexivity.
Qed.

(** * Lists *)
Lemma app_inj_len : forall A (a b c d : list A), length a = length c -> a ++ b = c ++ d -> a = c /\ b = d.
Proof.
  induction a as [|x a IH]; destruct c as [|y c]; cbn [length app]; intros d HL H; try discriminate.
  - auto.
  - injection H as -> H. apply IH in H; [|lia]. destruct H; subst; auto.
Qed.

Lemma skipn_skipn : forall A m n (l : list A), skipn m (skipn n l) = skipn (n + m) l.
Proof.
  induction n as [|n IH]; intro l; [reflexivity|].
  destruct l as [|x l]; cbn [skipn Nat.add]; [apply skipn_nil|apply IH].
Qed.

Lemma fit_length : forall n l, length (fit n l) = n.
Proof.
  intros n l. unfold fit. rewrite firstn_length, app_length, repeat_length. lia.
Qed.

Lemma slice_length : forall a b l, (a <= b)%nat -> (b <= length l)%nat -> length (slice a b l) = (b - a)%nat.
Proof.
  intros a b l H1 H2. unfold slice. rewrite firstn_length, skipn_length. lia.
Qed.

Lemma slice_app : forall a b c l, (a <= b)%nat -> (b <= c)%nat ->
  slice a b l ++ slice b c l = slice a c l.
Proof.
  intros a b c l H1 H2. unfold slice.
  rewrite <- (firstn_skipn (b - a) (firstn (c - a) (skipn a l))).
  rewrite firstn_firstn. rewrite Nat.min_l by lia. f_equal.
  rewrite skipn_firstn_comm. rewrite skipn_skipn.
  f_equal; [lia|]. f_equal. lia.
Qed.

Lemma slice_full : forall l n, length l = n -> slice 0 n l = l.
Proof. intros l n H. unfold slice. cbn [skipn]. apply firstn_all2. lia. Qed.

Lemma skipn_app_len : forall A (a b : list A) n, length a = n -> skipn n (a ++ b) = b.
Proof.
  intros A a b n H. rewrite skipn_app, skipn_all2 by lia.
  replace (n - length a)%nat with 0%nat by lia. reflexivity.
Qed.

Lemma firstn_app_len : forall A (a b : list A) n, length a = n -> firstn n (a ++ b) = a.
Proof.
  intros A a b n H. rewrite firstn_app, firstn_all2 by lia.
  replace (n - length a)%nat with 0%nat by lia. cbn [firstn]. apply app_nil_r.
Qed.

Lemma slice_app_l : forall (a b : bytes) n, length a = n -> slice 0 n (a ++ b) = a.
Proof. intros a b n H. unfold slice. cbn [skipn]. rewrite Nat.sub_0_r. apply firstn_app_len. assumption. Qed.

Lemma slice_app_r : forall (a b : bytes) n i j, length a = n -> (n <= i)%nat ->
  slice i j (a ++ b) = slice (i - n) (j - n) b.
Proof.
  intros a b n i j H Hi. unfold slice.
  rewrite skipn_app, skipn_all2 by lia. cbn [app]. rewrite H. f_equal. lia.
Qed.

(** * xor *)
Lemma byte_xor_invol : forall a b, byte_xor (byte_xor a b) b = a.
Proof.
  intros a b. unfold byte_xor. rewrite Z_of_byte_of_Z.
  pose proof (Z_of_byte_range a) as Ha. pose proof (Z_of_byte_range b) as Hb.
  assert (HX : 0 <= Z.lxor (Z_of_byte a) (Z_of_byte b) < 256).
  { assert (H0 : 0 <= Z.lxor (Z_of_byte a) (Z_of_byte b)) by (apply Z.lxor_nonneg; lia).
    split; [exact H0|].
    destruct (Z.eq_dec (Z.lxor (Z_of_byte a) (Z_of_byte b)) 0) as [->|Hn]; [lia|].
    change 256 with (2 ^ 8). apply Z.log2_lt_pow2; [lia|].
    eapply Z.le_lt_trans; [apply Z.log2_lxor; lia|].
    assert (forall x, 0 <= x < 256 -> Z.log2 x < 8) as HL.
    { intros x Hx. destruct (Z.eq_dec x 0) as [->|]; [cbn; lia|].
      apply Z.log2_lt_pow2; [lia|]. change (2 ^ 8) with 256. lia. }
    pose proof (HL _ Ha). pose proof (HL _ Hb). lia. }
  rewrite Z.mod_small by exact HX.
  rewrite Z.lxor_assoc, Z.lxor_nilpotent, Z.lxor_0_r. apply byte_of_Z_of_byte.
Qed.

Lemma xor_bytes_length : forall a b, length a = length b -> length (xor_bytes a b) = length a.
Proof.
  induction a as [|x a IH]; destruct b as [|y b]; cbn [length xor_bytes]; intro H; try discriminate; auto.
Qed.

Lemma xor_bytes_invol : forall a b, length a = length b -> xor_bytes (xor_bytes a b) b = a.
Proof.
  induction a as [|x a IH]; destruct b as [|y b]; cbn [length xor_bytes]; intro H; try discriminate; auto.
  rewrite byte_xor_invol, IH by lia. reflexivity.
Qed.

Lemma xor_bytes_firstn : forall n a b, firstn n (xor_bytes a b) = xor_bytes (firstn n a) (firstn n b).
Proof.
  induction n as [|n IH]; destruct a as [|x a]; destruct b as [|y b]; cbn [firstn xor_bytes]; auto.
  rewrite IH. reflexivity.
Qed.
