(** The retry loops of the builder (C82). *)
From Coq Require Import String ZArith List Bool Lia.
From Coq Require Import Init.Byte.
From Verif Require Import Prelude Fields Curve Oracles RedPallas Value Keys Note Tree Action NoteEnc Bundle Builder RngSpec FuelSpec
  PreludeFacts RngFacts BuildFacts RandomFacts.
Import ListNotations.
Open Scope Z_scope.

(** [y] is [x], unless [x] ran out of fuel. *)
Definition same {A} (x y : outcome A) : Prop := x <> OutOfFuel -> y = x.
Lemma same_refl : forall A (x : outcome A), same x x.
Proof. intros A x _. reflexivity. Qed.
Lemma same_bind : forall A B (x y : outcome A) (f g : A -> outcome B), same x y -> (forall a, same (f a) (g a)) -> same (obind x f) (obind y g).
Proof.
  intros A B x y f g H K N. destruct x as [a|w|]; cbn [obind] in *.
  - rewrite (H ltac:(discriminate)). cbn [obind]. apply K. exact N.
  - rewrite (H ltac:(discriminate)). reflexivity.
  - destruct (N eq_refl).
Qed.
Lemma bind_fuel : forall A B (x : outcome A) (f : A -> outcome B), obind x f = OutOfFuel -> x = OutOfFuel \/ exists a, x = Ret a /\ f a = OutOfFuel.
Proof. intros A B [a|w|] f H; cbn [obind] in H; [right; exists a; split; [reflexivity|exact H]|discriminate H|left; reflexivity]. Qed.
Lemma bind_nf : forall A B (x : outcome A) (f : A -> outcome B), x <> OutOfFuel -> (forall a, x = Ret a -> f a <> OutOfFuel) -> obind x f <> OutOfFuel.
Proof. intros A B x f H K E. apply bind_fuel in E as [E|(a & E & F)]; [exact (H E)|exact (K a E F)]. Qed.
Lemma unwrap_nf : forall A w (x : option A), unwrap w x <> OutOfFuel.
Proof. intros A w [a|]; discriminate. Qed.
Lemma assert_nf : forall w b, assert_ w b <> OutOfFuel.
Proof. intros w [|]; discriminate. Qed.

Section Fuel.
  Context {C : Curve} {OR : @Oracles C}.

  Lemma sk_random_same : forall k k' r, (k <= k')%nat -> same (sk_random k r) (sk_random k' r).
  Proof.
    induction k as [|k IH]; intros k' r HK; [intro N; destruct (N eq_refl)|]. destruct k' as [|k']; [lia|].
    cbn [sk_random]. destruct (rng_bytes 32 r) as [b r']. apply same_bind; [apply same_refl|].
    intros [s|]; [apply same_refl|apply IH; lia].
  Qed.
  Lemma rseed_same : forall k k' rho r, (k <= k')%nat -> same (rseed_random k rho r) (rseed_random k' rho r).
  Proof.
    induction k as [|k IH]; intros k' rho r HK; [intro N; destruct (N eq_refl)|]. destruct k' as [|k']; [lia|].
    cbn [rseed_random]. destruct (rng_bytes 32 r) as [b r']. destruct (rseed_from_bytes b rho); [apply same_refl|apply IH; lia].
  Qed.
  Lemma note_new_same : forall k k' to v rho r, (k <= k')%nat -> same (note_new k to v rho r) (note_new k' to v rho r).
  Proof.
    induction k as [|k IH]; intros k' to v rho r HK; [intro N; destruct (N eq_refl)|]. destruct k' as [|k']; [lia|].
    cbn [note_new]. apply same_bind; [apply rseed_same; exact HK|]. intros [rseed r'].
    destruct (note_from_parts to v rho rseed); [apply same_refl|apply IH; lia].
  Qed.
  Lemma note_dummy_same : forall k k' rho r, (k <= k')%nat -> same (note_dummy k rho r) (note_dummy k' rho r).
  Proof.
    intros k k' rho r HK. unfold note_dummy. apply same_bind; [apply sk_random_same; exact HK|]. intros [sk r1].
    apply same_bind; [apply same_refl|]. intro f. apply same_bind; [apply same_refl|]. intro a.
    destruct (match rho with Some x => (x, r1) | None => _ end) as [rho' r2].
    apply same_bind; [apply note_new_same; exact HK|]. intros [n r3]. apply same_refl.
  Qed.
  Lemma spend_dummy_same : forall k k' r, (k <= k')%nat -> same (spend_dummy k r) (spend_dummy k' r).
  Proof. intros k k' r HK. unfold spend_dummy. apply same_bind; [apply note_dummy_same; exact HK|]. intros [[[sk f] n] r1]. apply same_refl. Qed.
  Lemma output_dummy_same : forall k k' r, (k <= k')%nat -> same (output_dummy k r) (output_dummy k' r).
  Proof. intros k k' r HK. unfold output_dummy. apply same_bind; [apply sk_random_same; exact HK|]. intros [sk r1]. apply same_refl. Qed.
  Lemma pad_same : forall A (d d' : rng -> outcome (A * rng)), (forall r, same (d r) (d' r)) -> forall l n r, same (pad d l n r) (pad d' l n r).
  Proof.
    intros A d d' H l n r. unfold pad. apply same_bind; [|intros [x y]; apply same_refl]. revert r. generalize (n - length l)%nat. intro m.
    induction m as [|m IH]; intro r; cbn [pad_dummies]; [apply same_refl|].
    apply same_bind; [apply H|]. intros [x r1]. apply same_bind; [apply IH|]. intros [y r2]. apply same_refl.
  Qed.
  Lemma pre_actions_same : forall k k' n sp ou r, (k <= k')%nat -> same (pre_actions k n sp ou r) (pre_actions k' n sp ou r).
  Proof.
    intros k k' n sp ou r HK. unfold pre_actions. apply same_bind; [apply pad_same; intro; apply spend_dummy_same; exact HK|]. intros [s r1].
    apply same_bind; [apply pad_same; intro; apply output_dummy_same; exact HK|]. intros [o r2]. apply same_refl.
  Qed.
  Lemma ai_build_same : forall k k' a r, (k <= k')%nat -> same (ai_build k a r) (ai_build k' a r).
  Proof.
    intros k k' a r HK. unfold ai_build. cbv zeta. apply same_bind; [apply same_refl|]. intro v. apply same_bind; [apply same_refl|]. intro cv.
    apply same_bind; [apply same_refl|]. intro nf. destruct (rng_scalar r) as [alpha r1].
    apply same_bind; [apply note_new_same; exact HK|]. intros [n r2]. apply same_refl.
  Qed.
  Lemma build_actions_same : forall k k' l r, (k <= k')%nat -> same (build_actions k l r) (build_actions k' l r).
  Proof.
    intros k k' l r HK. revert r. induction l as [|a l IH]; intro r; cbn [build_actions]; [apply same_refl|].
    apply same_bind; [apply ai_build_same; exact HK|]. intros [[act w] r1]. apply same_bind; [apply IH|]. intros [[x y] r2]. apply same_refl.
  Qed.
  Lemma finish_same : forall V (try_from : Z -> option V) k k' pre meta f anchor r, (k <= k')%nat ->
    same (finish try_from k pre meta f anchor r) (finish try_from k' pre meta f anchor r).
  Proof.
    intros V try_from k k' pre meta f anchor r HK. unfold finish. apply same_bind; [apply same_refl|]. intros [vb|]; [|apply same_refl].
    destruct (i64_try_from vb) as [i|]; [|apply same_refl]. destruct (try_from i) as [v|]; [|apply same_refl].
    apply same_bind; [apply same_refl|]. intro bsk. apply same_bind; [apply build_actions_same; exact HK|]. intros [[acts ws] r']. apply same_refl.
  Qed.
  Lemma build_bundle_same : forall V (try_from : Z -> option V) k k' r anchor t sp ou, (k <= k')%nat ->
    same (build_bundle try_from k r anchor t sp ou) (build_bundle try_from k' r anchor t sp ou).
  Proof.
    intros V try_from k k' r anchor t sp ou HK. unfold build_bundle. cbv zeta. destruct (negb _ && _); [apply same_refl|].
    apply same_bind; [apply same_refl|]. intros [|]; cbn [negb]; [|apply same_refl]. destruct (negb _ && _); [apply same_refl|].
    destruct (num_actions t (length sp) (length ou)) as [n|]; [|apply same_refl].
    apply same_bind; [apply pre_actions_same; exact HK|]. intros [[pre meta] r1]. apply finish_same. exact HK.
  Qed.

  Theorem more_fuel : forall V (try_from : Z -> option V) k k' b r x, (k <= k')%nat -> build try_from k b r = x -> x <> OutOfFuel -> build try_from k' b r = x.
  Proof. intros V try_from k k' b r x HK E N. rewrite <- E in N |- *. apply build_bundle_same; assumption. Qed.

  (** * Running out of fuel *)

  #[local] Opaque commitment_inner rseed_esk_inner.

  Lemma bytes32 : forall r b r', rng_bytes 32 r = (b, r') -> length b = 32%nat.
  Proof. intros r b r' H. apply (bytes_len _ _ _ _ H). Qed.

  Lemma ask_nf : forall sk, ask_from_sk sk <> OutOfFuel.
  Proof.
    intro sk. unfold ask_from_sk. cbv zeta. apply bind_nf; [apply assert_nf|]. intros _ _. apply bind_nf; [apply unwrap_nf|]. intros ret _.
    destruct (sign_bit _ =? 1); [apply unwrap_nf|discriminate].
  Qed.
  Lemma fvk_nf : forall sk, fvk_from_sk sk <> OutOfFuel.
  Proof. intro sk. unfold fvk_from_sk. apply bind_nf; [apply ask_nf|discriminate]. Qed.
  Lemma rivk_nf : forall f s, fvk_rivk_scope f s <> OutOfFuel.
  Proof.
    intros f [|]; cbn [fvk_rivk_scope]; [discriminate|]. apply bind_nf; [|discriminate].
    unfold ak_to_bytes. apply bind_nf; [apply assert_nf|discriminate].
  Qed.
  Lemma sk_nf : forall b, sk_from_bytes b <> OutOfFuel.
  Proof.
    intro b. unfold sk_from_bytes. cbv zeta. apply bind_nf; [apply fvk_nf|]. intros f _. apply bind_nf; [|discriminate].
    unfold fvk_derive_internal. apply bind_nf; [apply rivk_nf|discriminate].
  Qed.

  Lemma sk_random_stuck : forall k r, sk_random k r = OutOfFuel ->
    exists bs r1, trace r (map Bytes bs) r1 /\ (k <= length bs)%nat /\ Forall (fun b => length b = 32%nat) bs /\ Forall bad_key bs.
  Proof.
    induction k as [|k IH]; intros r H.
    - exists [], r. split; [constructor|]. split; [apply Nat.le_refl|]. split; constructor.
    - cbn [sk_random] in H. destruct (rng_bytes 32 r) as [b r'] eqn:E. apply bind_fuel in H as [H|(s & H & F)]; [destruct (sk_nf _ H)|].
      destruct s as [s|]; [discriminate F|]. destruct (IH _ F) as (bs & r1 & T & LE & L32 & BK).
      exists (b :: bs), r1. split; [cbn [map]; econstructor; [exact E|exact T]|]. split; [cbn [length]; lia|].
      split; constructor; [exact (bytes32 _ _ _ E)|exact L32|exact H|exact BK].
  Qed.
  Lemma rseed_stuck : forall k rho r, rseed_random k rho r = OutOfFuel ->
    exists bs r1, trace r (map Bytes bs) r1 /\ (k <= length bs)%nat /\ Forall (fun b => length b = 32%nat) bs /\ Forall (fun b => rseed_esk_inner b rho = None) bs.
  Proof.
    induction k as [|k IH]; intros rho r H.
    - exists [], r. split; [constructor|]. split; [apply Nat.le_refl|]. split; constructor.
    - cbn [rseed_random] in H. destruct (rng_bytes 32 r) as [b r'] eqn:E. unfold rseed_from_bytes in H.
      destruct (rseed_esk_inner b rho) as [e|] eqn:EB; cbn [is_some] in H; [discriminate H|].
      destruct (IH _ _ H) as (bs & r1 & T & LE & L32 & BK).
      exists (b :: bs), r1. split; [cbn [map]; econstructor; [exact E|exact T]|]. split; [cbn [length]; lia|].
      split; constructor; [exact (bytes32 _ _ _ E)|exact L32|exact EB|exact BK].
  Qed.
  Lemma rseed_run : forall k rho r s r', rseed_random k rho r = Ret (s, r') ->
    exists bs, trace r (map Bytes (bs ++ [s])) r' /\ Forall (fun b => length b = 32%nat) (bs ++ [s]) /\ Forall (fun b => rseed_esk_inner b rho = None) bs.
  Proof.
    induction k as [|k IH]; intros rho r s r' H; [discriminate H|].
    cbn [rseed_random] in H. destruct (rng_bytes 32 r) as [b r0] eqn:E. unfold rseed_from_bytes in H.
    destruct (rseed_esk_inner b rho) as [e|] eqn:EB; cbn [is_some] in H.
    - injection H as <- <-. exists []. split; [cbn; econstructor; [exact E|constructor]|]. split; [|constructor].
      constructor; [exact (bytes32 _ _ _ E)|constructor].
    - destruct (IH _ _ _ _ H) as (bs & T & L32 & BK). exists (b :: bs). split; [cbn [app map]; econstructor; [exact E|exact T]|].
      split; [cbn [app]; constructor; [exact (bytes32 _ _ _ E)|exact L32]|]. constructor; [exact EB|exact BK].
  Qed.
  Lemma trace_app : forall r l r1 m r2, trace r l r1 -> trace r1 m r2 -> trace r (l ++ m) r2.
  Proof.
    intros r l r1 m r2 H. induction H as [q|n q b q1 l q' E T IH|n q i q1 l q' E T IH|q P q1 l q' E T IH]; intro K; cbn [app].
    - exact K. - econstructor; [exact E|exact (IH K)]. - econstructor; [exact E|exact (IH K)]. - econstructor; [exact E|exact (IH K)].
  Qed.
  Lemma esk_bad : forall to v rho bs, Forall (fun b => rseed_esk_inner b rho = None) bs -> Forall (bad_seed to v rho) bs.
  Proof. intros to v rho bs H. eapply Forall_impl; [|exact H]. intros b E. left. exact E. Qed.
  Lemma note_new_stuck : forall k to v rho r, note_new k to v rho r = OutOfFuel ->
    exists bs r1, trace r (map Bytes bs) r1 /\ (k <= length bs)%nat /\ Forall (fun b => length b = 32%nat) bs /\ Forall (bad_seed to v rho) bs.
  Proof.
    induction k as [|k IH]; intros to v rho r H.
    - exists [], r. split; [constructor|]. split; [apply Nat.le_refl|]. split; constructor.
    - cbn [note_new] in H. apply bind_fuel in H as [H|([s r'] & H & F)].
      + destruct (rseed_stuck _ _ _ H) as (bs & r1 & T & LE & L32 & BK). exists bs, r1. split; [exact T|]. split; [exact LE|].
        split; [exact L32|apply esk_bad; exact BK].
      + unfold note_from_parts in F. cbv zeta in F. destruct (commitment_inner (mk_note to v rho s)) as [c|] eqn:EC; cbn [is_some] in F; [discriminate F|].
        destruct (rseed_run _ _ _ _ _ H) as (bs & T & L32 & BK). destruct (IH _ _ _ _ F) as (bs' & r1 & T' & LE & L32' & BK').
        exists ((bs ++ [s]) ++ bs'), r1. split; [rewrite map_app; apply (trace_app _ _ _ _ _ T T')|].
        split; [rewrite !app_length; cbn [length]; lia|]. split; [apply Forall_app; split; assumption|].
        apply Forall_app. split; [|exact BK']. apply Forall_app. split; [apply esk_bad; exact BK|]. constructor; [right; exact EC|constructor].
  Qed.

  Lemma stuck_key : forall k r0 r, draws r0 [] r -> sk_random k r = OutOfFuel -> rejected_in_a_row k r0.
  Proof.
    intros k r0 r D H. destruct (sk_random_stuck _ _ H) as (bs & r1 & T & LE & L32 & BK). exists r, bs, r1.
    split; [exact D|]. split; [exact T|]. split; [exact LE|]. split; [exact L32|left; exact BK].
  Qed.
  Lemma stuck_note : forall k to v rho r0 r, draws r0 [] r -> note_new k to v rho r = OutOfFuel -> rejected_in_a_row k r0.
  Proof.
    intros k to v rho r0 r D H. destruct (note_new_stuck _ _ _ _ _ H) as (bs & r1 & T & LE & L32 & BK). exists r, bs, r1.
    split; [exact D|]. split; [exact T|]. split; [exact LE|]. split; [exact L32|right; exists to, v, rho; exact BK].
  Qed.

  (** * What cannot run out *)

  Lemma smod_nf : forall x, mod_r_p x <> OutOfFuel.
  Proof. intro x. unfold mod_r_p. apply unwrap_nf. Qed.
  Lemma ivk_nf : forall f s, fvk_to_ivk f s <> OutOfFuel.
  Proof.
    assert (K : forall f, ivk_from_fvk f <> OutOfFuel).
    { intro f. unfold ivk_from_fvk. apply bind_nf; [|discriminate]. unfold kapk_from_fvk. apply bind_nf; [apply unwrap_nf|].
      intros x _. unfold scalar_of_nonzero_base. apply bind_nf; [apply smod_nf|]. intros y _. apply bind_nf; [apply assert_nf|discriminate]. }
    intros f [|]; cbn [fvk_to_ivk]; [apply K|]. apply bind_nf; [|intros; apply K].
    unfold fvk_derive_internal. apply bind_nf; [apply rivk_nf|discriminate].
  Qed.
  Lemma address_nf : forall f j s, fvk_address_at f j s <> OutOfFuel.
  Proof. intros f j s. unfold fvk_address_at. apply bind_nf; [apply ivk_nf|discriminate]. Qed.
  Lemma commitment_nf : forall n, commitment n <> OutOfFuel.
  Proof. intro n. unfold commitment. apply unwrap_nf. Qed.
  Lemma nullifier_nf : forall n f, note_nullifier n f <> OutOfFuel.
  Proof.
    intros n f. unfold note_nullifier. apply bind_nf; [apply commitment_nf|]. intros cm _. unfold nf_derive. apply bind_nf; [apply smod_nf|discriminate].
  Qed.
  Lemma cv_nf : forall v r, derive_cv v r <> OutOfFuel.
  Proof. intros v r. unfold derive_cv. apply bind_nf; [apply unwrap_nf|discriminate]. Qed.
  Lemma value_nf : forall a, ai_value_sum a <> OutOfFuel.
  Proof. intro a. unfold ai_value_sum, note_value_sub. apply unwrap_nf. Qed.
  Lemma opt_nf : forall A B (f : A -> outcome B) x, (forall a, f a <> OutOfFuel) -> opt_omap f x <> OutOfFuel.
  Proof. intros A B f [a|] H; cbn [opt_omap]; [|discriminate]. apply bind_nf; [apply H|discriminate]. Qed.
  Lemma witness_nf : forall s n alpha rcv, from_action_context_unchecked s n alpha rcv <> OutOfFuel.
  Proof.
    intros s n alpha rcv. unfold from_action_context_unchecked. cbv zeta. apply bind_nf; [apply commitment_nf|]. intros cm _.
    apply bind_nf; [apply rivk_nf|discriminate].
  Qed.
  Lemma osum_nf : forall l acc, Forall (fun x => x <> OutOfFuel) l -> osum l acc <> OutOfFuel.
  Proof.
    intros l acc H. revert acc. induction H as [|x l N F IH]; intro acc; cbn [osum]; [discriminate|]. destruct acc as [a|]; [|apply IH].
    apply bind_nf; [exact N|]. intros; apply IH.
  Qed.
  Lemma anchors_nf : forall l anchor, all_anchors_match l anchor <> OutOfFuel.
  Proof.
    intros l anchor. induction l as [|s l IH]; cbn [all_anchors_match]; [discriminate|]. apply bind_nf.
    - unfold has_matching_anchor. destruct (_ =? 0); [discriminate|]. apply bind_nf; [apply commitment_nf|discriminate].
    - intros [|] _; [exact IH|discriminate].
  Qed.

  (** * The builder *)

  Lemma note_dummy_stuck : forall k rho r0 r, draws r0 [] r -> note_dummy k rho r = OutOfFuel -> rejected_in_a_row k r0.
  Proof.
    intros k rho r0 r D H. unfold note_dummy in H. apply bind_fuel in H as [H|([sk r1] & E1 & H)]; [exact (stuck_key _ _ _ D H)|].
    assert (D1 : draws r0 [] r1) by (apply (draws_after _ r); [exact D|apply (draws_none _ _ _ (proj1 (sk_random_draws _ _ _ _ E1)))]).
    apply bind_fuel in H as [H|(f & _ & H)]; [destruct (fvk_nf _ H)|]. apply bind_fuel in H as [H|(a & _ & H)]; [destruct (address_nf _ _ _ H)|].
    destruct (match rho with Some x => (x, r1) | None => _ end) as [rho' r2] eqn:ER.
    assert (D2 : draws r0 [] r2).
    { destruct rho as [x|]; [injection ER as _ <-; exact D1|]. destruct (nf_dummy r1) as [nf q] eqn:EP. injection ER as _ <-.
      unfold nf_dummy in EP. destruct (o_rng_point r1) as [P q'] eqn:EP'. injection EP as _ <-.
      apply (draws_after _ r1); [exact D1|apply (draws_none _ _ _ (point_draws _ _ _ EP'))]. }
    apply bind_fuel in H as [H|([n r3] & _ & H)]; [exact (stuck_note _ _ _ _ _ _ D2 H)|discriminate H].
  Qed.
  Lemma spend_dummy_stuck : forall k r0 r, draws r0 [] r -> spend_dummy k r = OutOfFuel -> rejected_in_a_row k r0.
  Proof.
    intros k r0 r D H. unfold spend_dummy in H. apply bind_fuel in H as [H|([[[sk f] n] r1] & _ & H)]; [exact (note_dummy_stuck _ _ _ _ D H)|].
    destruct (mp_dummy r1) as [p r2]. discriminate H.
  Qed.
  Lemma output_dummy_stuck : forall k r0 r, draws r0 [] r -> output_dummy k r = OutOfFuel -> rejected_in_a_row k r0.
  Proof.
    intros k r0 r D H. unfold output_dummy in H. apply bind_fuel in H as [H|([sk r1] & _ & H)]; [exact (stuck_key _ _ _ D H)|].
    apply bind_fuel in H as [H|(f & _ & H)]; [destruct (fvk_nf _ H)|]. apply bind_fuel in H as [H|(a & _ & H)]; [destruct (address_nf _ _ _ H)|discriminate H].
  Qed.
  Lemma pad_stuck : forall A k (d : rng -> outcome (A * rng)), (forall r0 r, draws r0 [] r -> d r = OutOfFuel -> rejected_in_a_row k r0) ->
    (forall r x r', d r = Ret (x, r') -> draws r [] r') ->
    forall l n r0 r, draws r0 [] r -> pad d l n r = OutOfFuel -> rejected_in_a_row k r0.
  Proof.
    intros A k d HS HL l n r0 r D H. unfold pad in H. apply bind_fuel in H as [H|([ds r'] & _ & H)]; [|discriminate H].
    revert r D H. generalize (n - length l)%nat. intro m. induction m as [|m IH]; intros r D H; cbn [pad_dummies] in H; [discriminate H|].
    apply bind_fuel in H as [H|([x r1] & E & H)]; [exact (HS _ _ D H)|].
    assert (D1 : draws r0 [] r1) by (apply (draws_after _ r); [exact D|exact (HL _ _ _ E)]).
    apply bind_fuel in H as [H|([y r2] & _ & H)]; [exact (IH _ D1 H)|discriminate H].
  Qed.
  Lemma pad_later : forall A (d : rng -> outcome (A * rng)), (forall r x r', d r = Ret (x, r') -> draws r [] r') ->
    forall l n r x r', pad d l n r = Ret (x, r') -> draws r [] r'.
  Proof.
    intros A d HL l n r x r' H. unfold pad in H. destruct (pad_dummies d (n - length l) r) as [[ds q]|w|] eqn:E; cbn [obind] in H; try discriminate H.
    injection H as _ <-. apply (pad_dummies_later _ _ HL _ _ _ _ E).
  Qed.
  Lemma pre_actions_stuck : forall k n sp ou r, pre_actions k n sp ou r = OutOfFuel -> rejected_in_a_row k r.
  Proof.
    intros k n sp ou r H. unfold pre_actions in H. apply bind_fuel in H as [H|([s r1] & E1 & H)].
    { apply (pad_stuck _ k _ (spend_dummy_stuck k) (spend_dummy_later k) sp n r r (draws_nil r) H). }
    pose proof (pad_later _ _ (spend_dummy_later k) _ _ _ _ _ E1) as D1.
    apply bind_fuel in H as [H|([o r2] & E2 & H)].
    { apply (pad_stuck _ k _ (output_dummy_stuck k) (output_dummy_later k) ou n r r1 D1 H). }
    destruct (shuffle (enumerate s) r2) as [s' r3]. destruct (shuffle (enumerate o) r3) as [o' r4]. discriminate H.
  Qed.
  Lemma pre_actions_later : forall k n sp ou r pre meta r', pre_actions k n sp ou r = Ret (pre, meta, r') -> draws r [] r'.
  Proof.
    intros k n sp ou r pre meta r' H. unfold pre_actions in H.
    destruct (pad (spend_dummy k) sp n r) as [[s r1]|w|] eqn:E1; cbn [obind] in H; try discriminate H.
    destruct (pad (output_dummy k) ou n r1) as [[o r2]|w|] eqn:E2; cbn [obind] in H; try discriminate H.
    destruct (shuffle (enumerate s) r2) as [s' r3] eqn:E3. destruct (shuffle (enumerate o) r3) as [o' r4] eqn:E4.
    injection H as H. destruct (pair_up_draws _ _ _ _ _ _ _ _ _ H) as (_ & _ & rcvs & _ & D).
    apply (draws_after _ r1); [exact (pad_later _ _ (spend_dummy_later k) _ _ _ _ _ E1)|].
    apply (draws_after _ r2); [exact (pad_later _ _ (output_dummy_later k) _ _ _ _ _ E2)|].
    apply (draws_after _ r3); [exact (shuffle_later _ _ _ _ _ E3)|]. apply (draws_after _ r4); [exact (shuffle_later _ _ _ _ _ E4)|].
    exact (draws_none _ _ _ D).
  Qed.
  Lemma ai_build_stuck : forall k a r0 r, draws r0 [] r -> ai_build k a r = OutOfFuel -> rejected_in_a_row k r0.
  Proof.
    intros k a r0 r D H. unfold ai_build in H. cbv zeta in H. apply bind_fuel in H as [H|(v & _ & H)]; [destruct (value_nf _ H)|].
    apply bind_fuel in H as [H|(cv & _ & H)]; [destruct (cv_nf _ _ H)|]. apply bind_fuel in H as [H|(nf & _ & H)]; [destruct (nullifier_nf _ _ H)|].
    destruct (rng_scalar r) as [alpha r1] eqn:E1. destruct (scalar_draws _ _ _ E1) as (b & _ & _ & DB).
    assert (D1 : draws r0 [] r1) by (apply (draws_after _ r); [exact D|exact (draws_none _ _ _ DB)]).
    apply bind_fuel in H as [H|([n r2] & _ & H)]; [exact (stuck_note _ _ _ _ _ _ D1 H)|].
    apply bind_fuel in H as [H|(cm & _ & H)]; [destruct (commitment_nf _ H)|].
    apply bind_fuel in H as [H|(e & _ & H)].
    { unfold encryptor_new in H. apply bind_fuel in H as [H|(esk & _ & H)]; [|discriminate H]. unfold note_esk, rseed_esk in H. destruct (unwrap_nf _ _ _ H). }
    destruct (encrypt_outgoing_plaintext e cv (cmx_of cm) r2) as [out r3].
    apply bind_fuel in H as [H|(da & _ & H)]; [destruct (opt_nf _ _ _ _ ask_nf H)|].
    apply bind_fuel in H as [H|(w & _ & H)]; [destruct (witness_nf _ _ _ _ H)|discriminate H].
  Qed.
  Lemma build_actions_stuck : forall k l r0 r, draws r0 [] r -> build_actions k l r = OutOfFuel -> rejected_in_a_row k r0.
  Proof.
    intros k l r0. induction l as [|a l IH]; intros r D H; cbn [build_actions] in H; [discriminate H|].
    apply bind_fuel in H as [H|([[act w] r1] & E & H)]; [exact (ai_build_stuck _ _ _ _ D H)|].
    destruct (ai_build_draws _ _ _ _ _ _ E) as (z & _ & DZ).
    assert (D1 : draws r0 [] r1) by (apply (draws_after _ r); [exact D|exact (draws_none _ _ _ DZ)]).
    apply bind_fuel in H as [H|([[x y] r2] & _ & H)]; [exact (IH _ D1 H)|discriminate H].
  Qed.
  Lemma build_bundle_stuck : forall V (try_from : Z -> option V) k r anchor t sp ou,
    build_bundle try_from k r anchor t sp ou = OutOfFuel -> rejected_in_a_row k r.
  Proof.
    intros V try_from k r anchor t sp ou H. unfold build_bundle in H. cbv zeta in H. destruct (negb _ && _); [discriminate H|].
    apply bind_fuel in H as [H|(ok & _ & H)]; [destruct (anchors_nf _ _ H)|]. destruct ok; cbn [negb] in H; [|discriminate H].
    destruct (negb _ && _); [discriminate H|]. destruct (num_actions t (length sp) (length ou)) as [n|]; [|discriminate H].
    apply bind_fuel in H as [H|([[pre meta] r1] & E & H)]; [exact (pre_actions_stuck _ _ _ _ _ H)|].
    pose proof (pre_actions_later _ _ _ _ _ _ _ _ E) as D1. unfold finish in H.
    apply bind_fuel in H as [H|(vs & _ & H)].
    { apply osum_nf in H; [destruct H|]. apply Forall_forall. intros x Hx. apply in_map_iff in Hx as (a & <- & _). apply value_nf. }
    destruct vs as [vb|]; [|discriminate H]. destruct (i64_try_from vb) as [i|]; [|discriminate H]. destruct (try_from i) as [v|]; [|discriminate H].
    apply bind_fuel in H as [H|(bsk & _ & H)]; [unfold into_bsk in H; destruct (unwrap_nf _ _ _ H)|].
    apply bind_fuel in H as [H|([[acts ws] r'] & _ & H)]; [exact (build_actions_stuck _ _ _ _ D1 H)|].
    apply bind_fuel in H as [H|(z & _ & H)]; [destruct (cv_nf _ _ H)|].
    apply bind_fuel in H as [H|(bvk & _ & H)]; [unfold into_bvk in H; destruct (unwrap_nf _ _ _ H)|].
    apply bind_fuel in H as [H|(u & _ & H)]; [destruct (assert_nf _ _ H)|discriminate H].
  Qed.

  Theorem build_ends : forall V (try_from : Z -> option V) k b r, build try_from k b r = OutOfFuel -> rejected_in_a_row k r.
  Proof. intros V try_from k b r H. exact (build_bundle_stuck V try_from k r _ _ _ _ H). Qed.
End Fuel.
