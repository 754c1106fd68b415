(** RedDSA signatures are Schnorr signatures (C74). *)
From Coq Require Import String ZArith List Bool Lia Znumtheory.
From Coq Require Import Init.Byte.
From Verif Require Import Prelude Fields Curve Oracles RedPallas KeysSpec Signing RngSpec RandomSpec
  PreludeFacts NumTheory FieldFacts CurveFacts KeysFacts.
Import ListNotations.
Open Scope Z_scope.

Section Schnorr.
  Context {C : Curve} {OR : @Oracles C} (L : CurveLaws C).
  #[local] Opaque hstar pt_encode to_repr le_val qmod.

  Lemma scalar_repr_val : forall b s, scalar_from_repr b = Some s -> s = le_val b /\ 0 <= s < qmod.
  Proof.
    intros b s H. unfold scalar_from_repr in H. destruct (le_val b <? qmod) eqn:E; [|discriminate H]. injection H as <-.
    split; [reflexivity|]. apply Z.ltb_lt in E. split; [apply (proj1 (le_val_range b))|exact E].
  Qed.

  Lemma inverse_exists : forall k, k mod qmod <> 0 -> exists u, (u * k) mod qmod = 1.
  Proof.
    intros k Hk. assert (HR : rel_prime k qmod).
    { apply rel_prime_sym. apply prime_rel_prime; [exact prime_qmod|].
      intro D. apply Hk. apply Z.mod_divide; [|assumption]. pose proof qmod_pos; lia. }
    apply rel_prime_bezout in HR. destruct HR as [u v E]. exists u.
    replace (u * k) with (1 + (- v) * qmod) by lia. rewrite Z.mod_add by (pose proof qmod_pos; lia). apply Z.mod_1_l. reflexivity.
  Qed.

  (** Two valid answers to one commitment R reveal the key. *)
  Lemma two_answers : forall t vk m m' s s',
    verify t vk m s = true -> verify t vk m' s' = true -> sig_r s = sig_r s' ->
    (challenge vk m s - challenge vk m' s') mod qmod <> 0 ->
    exists u, (u * (challenge vk m s - challenge vk m' s')) mod qmod = 1 /\
      vk = pt_mul ((u * (le_val (sig_s s) - le_val (sig_s s'))) mod qmod) (basepoint t).
  Proof.
    intros t vk m m' s s' H H' HR N. apply (verify_spec L) in H as (R & sc & D & S & E). apply (verify_spec L) in H' as (R' & sc' & D' & S' & E').
    apply scalar_repr_val in S as [-> _]. apply scalar_repr_val in S' as [-> _].
    assert (R' = R) by congruence. subst R'.
    change (hstar (sig_r s ++ vk_to_bytes vk ++ m)) with (challenge vk m s) in E.
    change (hstar (sig_r s' ++ vk_to_bytes vk ++ m')) with (challenge vk m' s') in E'.
    destruct (inverse_exists _ N) as (u & U). exists u. split; [exact U|].
    apply (mul_inj_point L (challenge vk m s - challenge vk m' s')); [exact N|].
    rewrite (mul_mod L), <- (mul_mul L), Z.mul_assoc.
    assert (K : pt_mul (challenge vk m s - challenge vk m' s') vk = pt_mul (le_val (sig_s s) - le_val (sig_s s')) (basepoint t)).
    { rewrite !(mul_sub L), E, E'. unfold pt_sub. rewrite (neg_add L), (add_4 L), (add_neg_r L), (add_id_l L). reflexivity. }
    rewrite K. apply (mul_mod_eq L). rewrite Z.mul_mod by (pose proof qmod_pos; lia). rewrite (Z.mul_comm _ u), U, Z.mul_1_l.
    symmetry. apply Z.mod_mod. pose proof qmod_pos; lia.
  Qed.

  (** Given R there is at most one valid answer. *)
  Lemma one_answer : forall t vk m s s', basepoint t <> pt_id -> wf_sig s -> wf_sig s' ->
    verify t vk m s = true -> verify t vk m s' = true -> sig_r s = sig_r s' -> s = s'.
  Proof.
    intros t vk m [r s] [r' s'] B [_ W] [_ W'] H H' HR. cbn [sig_r sig_s] in *. subst r'.
    apply (verify_spec L) in H as (R & sc & D & S & E). apply (verify_spec L) in H' as (R' & sc' & D' & S' & E').
    cbn [sig_r sig_s] in *. apply scalar_repr_val in S as [-> R1]. apply scalar_repr_val in S' as [-> R2].
    assert (R' = R) by congruence. subst R'. rewrite <- E in E'. apply (mul_inj L _ _ _ B) in E'.
    rewrite !Z.mod_small in E' by assumption. f_equal. apply le_val_inj; [congruence|congruence].
  Qed.

  (** Nonces repeat only for the same randomizer, key and message. *)
  Lemma app_eq_len : forall A (a a' b b' : list A), length a = length a' -> a ++ b = a' ++ b' -> a = a' /\ b = b'.
  Proof.
    intros A a. induction a as [|x a IH]; intros [|x' a'] b b' LE H; try discriminate LE; [split; [reflexivity|exact H]|].
    cbn [app] in H. injection H as -> H. destruct (IH a' b b') as [-> ->]; [cbn [length] in LE; congruence|exact H|]. split; reflexivity.
  Qed.
  Lemma nonces : forall t sk sk' m m' x x', basepoint t <> pt_id -> length x = length x' ->
    sig_r (reddsa t sk m x) = sig_r (reddsa t sk' m' x') ->
    (x = x' /\ sk mod qmod = sk' mod qmod /\ m = m') \/
    (nonce_input t sk m x <> nonce_input t sk' m' x' /\ hstar (nonce_input t sk m x) = hstar (nonce_input t sk' m' x')).
  Proof.
    intros t sk sk' m m' x x' B LX H. unfold reddsa in H. cbn [sig_r] in H. apply (encode_inj L) in H. apply (mul_inj L _ _ _ B) in H.
    fold (nonce_input t sk m x) in H. fold (nonce_input t sk' m' x') in H.
    rewrite !Z.mod_small in H by apply hstar_range.
    destruct (list_eq_dec Byte.byte_eq_dec (nonce_input t sk m x) (nonce_input t sk' m' x')) as [E|E]; [left|right; split; assumption].
    unfold nonce_input in E. apply app_eq_len in E as [-> E]; [|exact LX]. apply app_eq_len in E as [E ->]; [|rewrite !encode_length; reflexivity].
    split; [reflexivity|]. split; [|reflexivity]. apply (encode_inj L) in E. apply (mul_inj L _ _ _ B E).
  Qed.
End Schnorr.
