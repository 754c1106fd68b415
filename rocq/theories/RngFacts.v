(** Facts about the draws of the functions of the model. *)
From Coq Require Import String ZArith List Permutation Lia.
From Coq Require Import Init.Byte.
From Verif Require Import Prelude Fields Curve Oracles Keys Note Tree RedPallas Value NoteEnc PreludeFacts NoteFacts KeysFacts RngSpec.
Import ListNotations.
Open Scope Z_scope.

#[local] Opaque sk_from_bytes commitment_inner rseed_esk_inner aead_encrypt rng_bytes to_scalar to_repr pt_encode.

Section Facts.
  Context {C : Curve} {OR : @Oracles C}.

  Lemma trace_app : forall r l r1 l' r', trace r l r1 -> trace r1 l' r' -> trace r (l ++ l') r'.
  Proof.
    intros r l r1 l' r' H. induction H as [r|n r b r1 l r2 E T IH|n r i r1 l r2 E T IH|r P r1 l r2 E T IH]; intro H'; cbn [app].
    - exact H'.
    - exact (trace_bytes _ _ _ _ _ _ E (IH H')).
    - exact (trace_index _ _ _ _ _ _ E (IH H')).
    - exact (trace_point _ _ _ _ _ E (IH H')).
  Qed.

  Lemma draws_nil : forall r, draws r [] r.
  Proof. intro r. exists [], []. split; [constructor|constructor]. Qed.
  Lemma draws_app : forall r s r1 s' r', draws r s r1 -> draws r1 s' r' -> draws r (s ++ s') r'.
  Proof.
    intros r s r1 s' r' (l & t & T & P) (l' & t' & T' & P'). exists (l ++ l'), (t ++ t'). split; [apply (trace_app _ _ _ _ _ T T')|].
    rewrite P, P'. rewrite <- !app_assoc. apply Permutation_app_head. rewrite !app_assoc. apply Permutation_app_tail. apply Permutation_app_comm.
  Qed.
  Lemma draws_perm : forall r s s' r', Permutation s s' -> draws r s r' -> draws r s' r'.
  Proof. intros r s s' r' P (l & t & T & Q). exists l, t. split; [exact T|]. rewrite Q. apply Permutation_app_tail. exact P. Qed.
  Lemma draws_drop : forall r s s' r', draws r (s ++ s') r' -> draws r s r'.
  Proof. intros r s s' r' (l & t & T & Q). exists l, (s' ++ t). split; [exact T|]. rewrite Q, app_assoc. reflexivity. Qed.
  Lemma draws_none : forall r s r', draws r s r' -> draws r [] r'.
  Proof. intros r s r' H. apply (draws_drop r [] s r' H). Qed.
  Lemma draws_after : forall r r1 s r', draws r [] r1 -> draws r1 s r' -> draws r s r'.
  Proof. intros r r1 s r' H H'. apply (draws_app _ _ _ _ _ H H'). Qed.
  Lemma draws_before : forall r s r1 r', draws r s r1 -> draws r1 [] r' -> draws r s r'.
  Proof. intros r s r1 r' H H'. rewrite <- (app_nil_r s). apply (draws_app _ _ _ _ _ H H'). Qed.

  Lemma bytes_draws : forall n r b r', rng_bytes n r = (b, r') -> draws r [Bytes b] r'.
  Proof. intros n r b r' H. exists [Bytes b], []. split; [|reflexivity]. apply (trace_bytes _ _ _ _ _ _ H). constructor. Qed.
  Lemma below_draws : forall n r i r', rng_below n r = (i, r') -> draws r [Index n i] r'.
  Proof. intros n r i r' H. exists [Index n i], []. split; [|reflexivity]. apply (trace_index _ _ _ _ _ _ H). constructor. Qed.
  Lemma point_draws : forall r P r', o_rng_point r = (P, r') -> draws r [Point P] r'.
  Proof. intros r P r' H. exists [Point P], []. split; [|reflexivity]. apply (trace_point _ _ _ _ _ H). constructor. Qed.

  Lemma bytes_len : forall n r b r', rng_bytes n r = (b, r') -> length b = n.
  Proof. intros n r b r' H. pose proof (rng_bytes_length n r) as X. rewrite H in X. exact X. Qed.

  Lemma scalar_draws : forall r x r', rng_scalar r = (x, r') -> exists b, length b = 64%nat /\ x = to_scalar b /\ draws r [Bytes b] r'.
  Proof.
    intros r x r' H. unfold rng_scalar in H. destruct (rng_bytes 64 r) as [b r1] eqn:E. injection H as <- <-.
    exists b. split; [apply (bytes_len _ _ _ _ E)|]. split; [reflexivity|]. apply (bytes_draws _ _ _ _ E).
  Qed.
  Lemma base_draws : forall r x r', rng_base r = (x, r') -> draws r [] r'.
  Proof.
    intros r x r' H. unfold rng_base in H. destruct (rng_bytes 64 r) as [b r1] eqn:E. injection H as <- <-.
    apply (draws_none _ [Bytes b]). apply (bytes_draws _ _ _ _ E).
  Qed.
  Lemma random_bases_draws : forall n r l r', random_bases n r = (l, r') -> draws r [] r'.
  Proof.
    induction n as [|n IH]; intros r l r' H; cbn [random_bases] in H.
    - injection H as _ <-. apply draws_nil.
    - destruct (rng_base r) as [x r1] eqn:E. destruct (random_bases n r1) as [l' r2] eqn:E'. injection H as _ <-.
      apply (draws_after _ r1); [apply (base_draws _ _ _ E)|apply (IH _ _ _ E')].
  Qed.
  Lemma mp_dummy_draws : forall r p r', mp_dummy r = (p, r') -> draws r [] r'.
  Proof.
    intros r p r' H. unfold mp_dummy, rng_u32 in H. destruct (rng_bytes 4 r) as [b r1] eqn:E.
    destruct (random_bases merkle_depth r1) as [l r2] eqn:E'. injection H as _ <-.
    apply (draws_after _ r1); [apply (draws_none _ [Bytes b]); apply (bytes_draws _ _ _ _ E)|apply (random_bases_draws _ _ _ _ E')].
  Qed.

  Lemma sk_random_draws : forall fuel r sk r', sk_random fuel r = Ret (sk, r') ->
    draws r [Bytes sk] r' /\ length sk = 32%nat /\ sk_from_bytes sk = Ret (Some sk).
  Proof.
    induction fuel as [|fuel IH]; intros r sk r' H; cbn [sk_random] in H; [discriminate H|].
    destruct (rng_bytes 32 r) as [b r1] eqn:E. destruct (sk_from_bytes b) as [[s|]|w|] eqn:E2; cbn [obind] in H; try discriminate H.
    - injection H as <- <-. assert (s = b) by apply (sk_from_bytes_some _ _ E2). subst s.
      split; [apply (bytes_draws _ _ _ _ E)|]. split; [apply (bytes_len _ _ _ _ E)|exact E2].
    - destruct (IH _ _ _ H) as (D & K). split; [|exact K]. apply (draws_after _ r1); [|exact D].
      apply (draws_none _ [Bytes b]). apply (bytes_draws _ _ _ _ E).
  Qed.
  Lemma rseed_random_draws : forall fuel rho r s r', rseed_random fuel rho r = Ret (s, r') -> draws r [Bytes s] r' /\ length s = 32%nat.
  Proof.
    induction fuel as [|fuel IH]; intros rho r s r' H; cbn [rseed_random] in H; [discriminate H|].
    destruct (rng_bytes 32 r) as [b r1] eqn:E. unfold rseed_from_bytes in H. destruct (is_some (rseed_esk_inner b rho)).
    - injection H as <- <-. split; [apply (bytes_draws _ _ _ _ E)|apply (bytes_len _ _ _ _ E)].
    - destruct (IH _ _ _ _ H) as (D & K). split; [|exact K]. apply (draws_after _ r1); [|exact D].
      apply (draws_none _ [Bytes b]). apply (bytes_draws _ _ _ _ E).
  Qed.
  Lemma note_new_draws : forall fuel a v rho r n r', note_new fuel a v rho r = Ret (n, r') ->
    draws r [Bytes (n_rseed n)] r' /\ length (n_rseed n) = 32%nat /\ n_rho n = rho.
  Proof.
    induction fuel as [|fuel IH]; intros a v rho r n r' H; cbn [note_new] in H; [discriminate H|].
    destruct (rseed_random (S fuel) rho r) as [[s r1]|w|] eqn:E; cbn [obind] in H; try discriminate H.
    destruct (rseed_random_draws _ _ _ _ _ E) as (D & K). unfold note_from_parts in H.
    destruct (is_some (commitment_inner (mk_note a v rho s))).
    - injection H as <- <-. split; [exact D|]. split; [exact K|reflexivity].
    - destruct (IH _ _ _ _ _ _ H) as (D' & K'). split; [|exact K']. apply (draws_after _ r1); [|exact D']. apply (draws_none _ _ _ D).
  Qed.
  Lemma outgoing_draws : forall e cv cmx r out r', encrypt_outgoing_plaintext e cv cmx r = (out, r') ->
    match e_ovk e with
    | Some _ => r' = r
    | None => exists ock op, length ock = 32%nat /\ length op = 64%nat /\ out = aead_encrypt ock op /\ draws r [Bytes ock; Bytes op] r'
    end.
  Proof.
    intros e cv cmx r out r' H. unfold encrypt_outgoing_plaintext in H. destruct (e_ovk e) as [o|]; [congruence|].
    destruct (rng_bytes 32 r) as [ock r1] eqn:E. destruct (rng_bytes 64 r1) as [op r2] eqn:E'. injection H as <- <-.
    exists ock, op. split; [apply (bytes_len _ _ _ _ E)|]. split; [apply (bytes_len _ _ _ _ E')|]. split; [reflexivity|].
    apply (draws_app _ [Bytes ock] r1 [Bytes op]); [apply (bytes_draws _ _ _ _ E)|apply (bytes_draws _ _ _ _ E')].
  Qed.
  Lemma sign_draws : forall t sk msg r s r', sign t sk msg r = (s, r') ->
    exists b, length b = 80%nat /\ draws r [Bytes b] r' /\ rng_bytes 80 r = (b, r').
  Proof.
    intros t sk msg r s r' H. unfold sign in H. destruct (rng_bytes 80 r) as [b r1] eqn:E. apply (f_equal snd) in H. change (r1 = r') in H. subst r1.
    exists b. split; [apply (bytes_len _ _ _ _ E)|]. split; [apply (bytes_draws _ _ _ _ E)|reflexivity].
  Qed.
End Facts.
