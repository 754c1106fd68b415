(** Proofs for C92. *)
From Coq Require Import String ZArith List Bool Lia Permutation.
From Coq Require Import Init.Byte.
From Verif Require Import Prelude Fields Curve Oracles RedPallas Value Keys Note Action Bundle Builder Signing BundleSpec SigningSpec
  ScheduleSpec PreludeFacts CurveFacts SigningFacts.
Import ListNotations.
Open Scope Z_scope.

Section Facts.
  Context {C : Curve} {OR : @Oracles C} {V : Type}.

  (** * Two passes over the actions that do not touch the same action *)
  Definition fixed {R M} (f : R -> M -> M * R) (m : M) : Prop := forall r, f r m = (m, r).

  Lemma a_map_same : forall A (a : action A) m, m = a_auth a -> a_map (fun _ => m) a = a.
  Proof. intros A a m ->. destruct a. reflexivity. Qed.

  Lemma map_ctx_commute : forall R1 R2 M (f1 : R1 -> M -> M * R1) (f2 : R2 -> M -> M * R2) (l : list (@action C M)),
    (forall a, In a l -> fixed f1 (a_auth a) \/ fixed f2 (a_auth a)) ->
    (forall m r, fixed f1 m \/ fixed f2 (fst (f1 r m))) -> (forall m r, fixed f2 m \/ fixed f1 (fst (f2 r m))) ->
    forall r1 r2,
    fst (map_ctx f2 r2 (fst (map_ctx f1 r1 l))) = fst (map_ctx f1 r1 (fst (map_ctx f2 r2 l))) /\
    snd (map_ctx f2 r2 (fst (map_ctx f1 r1 l))) = snd (map_ctx f2 r2 l).
  Proof.
    intros R1 R2 M f1 f2 l D G1 G2. induction l as [|a l IH]; intros r1 r2; [split; reflexivity|].
    specialize (IH (fun x H => D x (or_intror H))). cbn [map_ctx].
    destruct (D a (or_introl eq_refl)) as [F|F].
    - rewrite (F r1). destruct (f2 r2 (a_auth a)) as [m2 r2'] eqn:E2.
      specialize (IH r1 r2'). destruct (map_ctx f1 r1 l) as [l1 q1] eqn:M1. destruct (map_ctx f2 r2' l) as [l2 q2] eqn:M2.
      cbn [fst snd] in *. cbn [map_ctx]. cbn [a_map a_auth]. rewrite E2. cbn [a_auth].
      assert (FF : fixed f1 m2).
      { destruct (G2 (a_auth a) r2) as [X|X]; [|rewrite E2 in X; exact X]. rewrite (X r2) in E2. inversion E2. subst m2. exact F. }
      rewrite (FF r1). destruct (map_ctx f2 r2' l1) as [l12 q12]. destruct (map_ctx f1 r1 l2) as [l21 q21]. cbn [fst snd] in *.
      destruct IH as [-> ->]. split; reflexivity.
    - rewrite (F r2). destruct (f1 r1 (a_auth a)) as [m1 r1'] eqn:E1.
      specialize (IH r1' r2). destruct (map_ctx f1 r1' l) as [l1 q1] eqn:M1. destruct (map_ctx f2 r2 l) as [l2 q2] eqn:M2.
      cbn [fst snd] in *. cbn [map_ctx]. cbn [a_map a_auth]. rewrite E1. cbn [a_auth].
      assert (FF : fixed f2 m1).
      { destruct (G1 (a_auth a) r1) as [X|X]; [|rewrite E1 in X; exact X]. rewrite (X r1) in E1. inversion E1. subst m1. exact F. }
      rewrite (FF r2). destruct (map_ctx f2 r2 l1) as [l12 q12]. destruct (map_ctx f1 r1' l2) as [l21 q21]. cbn [fst snd] in *.
      destruct IH as [-> ->]. split; reflexivity.
  Qed.

  (** * The two kinds of step *)
  Definition sign_step (sh : bytes) (ask : Z) (r : rng) (m : maybe_signed) : maybe_signed * rng :=
    match m with
    | Unsigned p =>
        if ak_eqb (sp_ak p) (ak_of_ask ask) then
          let (s, r') := sign SpendAuth (sk_randomize ask (sp_alpha p)) sh r in (Signed s, r')
        else (Unsigned p, r)
    | Signed s => (Signed s, r)
    end.
  Definition with_actions {P} (b : @partial_bundle C V P) (l : list (action maybe_signed)) : @partial_bundle C V P :=
    mk_bundle l (b_flags b) (b_value_balance b) (b_anchor b) (b_auth b).
  Definition sh_of {P} (b : @partial_bundle C V P) : bytes := pa_sighash (ip_sigs (b_auth b)).

  Lemma sign_unfold : forall P (b : @partial_bundle C V P) r ask,
    bundle_sign b r ask = (with_actions b (fst (map_ctx (sign_step (sh_of b) ask) r (b_actions b))),
                           snd (map_ctx (sign_step (sh_of b) ask) r (b_actions b))).
  Proof.
    intros P b r ask. unfold bundle_sign, map_authorization. cbv zeta. change (fun (r0 : rng) (s : maybe_signed) => _) with (sign_step (sh_of b) ask).
    destruct (map_ctx (sign_step (sh_of b) ask) r (b_actions b)) as [l q]. reflexivity.
  Qed.
  Definition counted {P} (b : @partial_bundle C V P) (x : list (action maybe_signed) * nat) : result build_error (@partial_bundle C V P) :=
    match snd x with
    | O => Err BE_InvalidExternalSignature
    | S O => Ok (with_actions b (fst x))
    | _ => Err BE_DuplicateSignature
    end.
  Lemma attach_unfold : forall P (b : @partial_bundle C V P) s,
    append_signature b s = counted b (map_ctx (app_step (sh_of b) s) 0%nat (b_actions b)).
  Proof.
    intros P b s. unfold append_signature, map_authorization. cbv zeta. change (fun (r0 : nat) (s0 : maybe_signed) => _) with (app_step (sh_of b) s).
    destruct (map_ctx (app_step (sh_of b) s) 0%nat (b_actions b)) as [l q]. reflexivity.
  Qed.

  (** Which actions a step touches. *)
  Definition touches (sh : bytes) (st : step) (m : maybe_signed) : bool :=
    match m with
    | Signed _ => false
    | Unsigned p => match st with
                    | SignBy ask _ => ak_eqb (sp_ak p) (ak_of_ask ask)
                    | Attach s => verify SpendAuth (vk_randomize (sp_ak p) (sp_alpha p)) sh s
                    end
    end.
  Lemma sign_fixed : forall sh ask r0 m, touches sh (SignBy ask r0) m = false -> fixed (sign_step sh ask) m.
  Proof. intros sh ask r0 [p|s] H r; cbn [touches sign_step] in *; [rewrite H; reflexivity|reflexivity]. Qed.
  Lemma attach_fixed : forall sh s m, touches sh (Attach s) m = false -> fixed (app_step sh s) m.
  Proof. intros sh s [p|s'] H r; cbn [touches app_step] in *; [rewrite H; reflexivity|reflexivity]. Qed.
  Lemma sign_signs : forall sh ask m r, fixed (sign_step sh ask) m \/ exists s, fst (sign_step sh ask r m) = Signed s.
  Proof.
    intros sh ask [p|s] r; [|left; intro; reflexivity]. unfold fixed. cbn [sign_step]. destruct (ak_eqb _ _); [|left; intro; reflexivity].
    right. destruct (sign _ _ _ _) as [s r']. exists s. reflexivity.
  Qed.
  Lemma attach_signs : forall sh s m r, fixed (app_step sh s) m \/ exists s', fst (app_step sh s r m) = Signed s'.
  Proof.
    intros sh s [p|s'] r; [|left; intro; reflexivity]. unfold fixed. cbn [app_step]. destruct (verify _ _ _ _); [|left; intro; reflexivity].
    right. exists s. reflexivity.
  Qed.
  Lemma sign_keeps : forall sh ask s, fixed (sign_step sh ask) (Signed s).
  Proof. intros sh ask s r. reflexivity. Qed.
  Lemma attach_keeps : forall sh s s', fixed (app_step sh s) (Signed s').
  Proof. intros sh s s' r. reflexivity. Qed.

  Definition apart {P} (b : @partial_bundle C V P) (x y : step) : Prop :=
    forall a, In a (b_actions b) -> touches (sh_of b) x (a_auth a) = false \/ touches (sh_of b) y (a_auth a) = false.

  Lemma steps_swap : forall P (b b1 b2 : @partial_bundle C V P) x y, apart b x y ->
    run_step b x = Ok b1 -> run_step b y = Ok b2 -> exists b3, run_step b1 y = Ok b3 /\ run_step b2 x = Ok b3.
  Proof.
    intros P b b1 b2 x y A H1 H2. set (sh := sh_of b) in *.
    destruct x as [ask r|s], y as [ask' r'|s']; cbn [run_step] in *.
    - rewrite sign_unfold in H1, H2. cbn [fst] in H1, H2. fold sh in H1, H2.
      assert (E1 : b1 = with_actions b (fst (map_ctx (sign_step sh ask) r (b_actions b)))) by congruence.
      assert (E2 : b2 = with_actions b (fst (map_ctx (sign_step sh ask') r' (b_actions b)))) by congruence. clear H1 H2. subst b1 b2.
      eexists. split; [reflexivity|]. rewrite !sign_unfold. cbn [fst with_actions b_actions].
      change (sh_of (with_actions b ?l)) with sh.
      destruct (map_ctx_commute _ _ _ (sign_step sh ask) (sign_step sh ask') (b_actions b)) with (r1 := r) (r2 := r') as [E _].
      + intros a HI. destruct (A a HI) as [X|X]; [left; apply (sign_fixed _ _ _ _ X)|right; apply (sign_fixed _ _ _ _ X)].
      + intros m q. destruct (sign_signs sh ask m q) as [X|[s X]]; [left; exact X|right; rewrite X; apply sign_keeps].
      + intros m q. destruct (sign_signs sh ask' m q) as [X|[s X]]; [left; exact X|right; rewrite X; apply sign_keeps].
      + unfold with_actions in *. cbn [b_flags b_value_balance b_anchor b_auth b_actions] in *. rewrite E. reflexivity.
    - rewrite sign_unfold in H1. cbn [fst] in H1. rewrite attach_unfold in H2. fold sh in H1, H2.
      assert (E1 : b1 = with_actions b (fst (map_ctx (sign_step sh ask) r (b_actions b)))) by congruence. clear H1. subst b1.
      destruct (map_ctx_commute _ _ _ (sign_step sh ask) (app_step sh s') (b_actions b)) with (r1 := r) (r2 := 0%nat) as [E E'].
      + intros a HI. destruct (A a HI) as [X|X]; [left; apply (sign_fixed _ _ _ _ X)|right; apply (attach_fixed _ _ _ X)].
      + intros m q. destruct (sign_signs sh ask m q) as [X|[s X]]; [left; exact X|right; rewrite X; apply attach_keeps].
      + intros m q. destruct (attach_signs sh s' m q) as [X|[s X]]; [left; exact X|right; rewrite X; apply sign_keeps].
      + unfold counted in H2. rewrite <- E' in H2. rewrite attach_unfold. change (sh_of (with_actions b ?l)) with sh.
        cbn [with_actions b_actions]. unfold counted. destruct (snd (map_ctx (app_step sh s') 0%nat (fst (map_ctx (sign_step sh ask) r (b_actions b))))) as [|[|n]]; try discriminate H2.
        assert (E2 : b2 = with_actions b (fst (map_ctx (app_step sh s') 0%nat (b_actions b)))) by congruence. clear H2. subst b2.
        eexists. split; [reflexivity|]. rewrite sign_unfold. cbn [fst with_actions b_actions]. change (sh_of (with_actions b ?l)) with sh.
        unfold with_actions in *. cbn [b_flags b_value_balance b_anchor b_auth b_actions] in *. rewrite E. reflexivity.
    - rewrite sign_unfold in H2. cbn [fst] in H2. rewrite attach_unfold in H1. fold sh in H1, H2.
      assert (E2 : b2 = with_actions b (fst (map_ctx (sign_step sh ask') r' (b_actions b)))) by congruence. clear H2. subst b2.
      destruct (map_ctx_commute _ _ _ (sign_step sh ask') (app_step sh s) (b_actions b)) with (r1 := r') (r2 := 0%nat) as [E E'].
      + intros a HI. destruct (A a HI) as [X|X]; [right; apply (attach_fixed _ _ _ X)|left; apply (sign_fixed _ _ _ _ X)].
      + intros m q. destruct (sign_signs sh ask' m q) as [X|[s' X]]; [left; exact X|right; rewrite X; apply attach_keeps].
      + intros m q. destruct (attach_signs sh s m q) as [X|[s' X]]; [left; exact X|right; rewrite X; apply sign_keeps].
      + unfold counted in H1. rewrite <- E' in H1. rewrite attach_unfold. change (sh_of (with_actions b ?l)) with sh.
        cbn [with_actions b_actions]. unfold counted. destruct (snd (map_ctx (app_step sh s) 0%nat (fst (map_ctx (sign_step sh ask') r' (b_actions b))))) as [|[|n]]; try discriminate H1.
        assert (E1 : b1 = with_actions b (fst (map_ctx (app_step sh s) 0%nat (b_actions b)))) by congruence. clear H1. subst b1.
        eexists. split; [reflexivity|]. rewrite sign_unfold. cbn [fst with_actions b_actions]. change (sh_of (with_actions b ?l)) with sh.
        unfold with_actions in *. cbn [b_flags b_value_balance b_anchor b_auth b_actions] in *. rewrite E. reflexivity.
    - rewrite attach_unfold in H1, H2. fold sh in H1, H2.
      assert (D1 : forall a, In a (b_actions b) -> fixed (app_step sh s) (a_auth a) \/ fixed (app_step sh s') (a_auth a))
        by (intros a HI; destruct (A a HI) as [X|X]; [left|right]; apply (attach_fixed _ _ _ X)).
      assert (D2 : forall a, In a (b_actions b) -> fixed (app_step sh s') (a_auth a) \/ fixed (app_step sh s) (a_auth a))
        by (intros a HI; destruct (D1 a HI) as [X|X]; [right|left]; exact X).
      assert (G : forall s1 s2 m q, fixed (app_step sh s1) m \/ fixed (app_step sh s2) (fst (app_step sh s1 q m)))
        by (intros s1 s2 m q; destruct (attach_signs sh s1 m q) as [X|[s0 X]]; [left; exact X|right; rewrite X; apply attach_keeps]).
      destruct (map_ctx_commute _ _ _ (app_step sh s) (app_step sh s') (b_actions b) D1 (G s s') (G s' s) 0%nat 0%nat) as [E E'].
      destruct (map_ctx_commute _ _ _ (app_step sh s') (app_step sh s) (b_actions b) D2 (G s' s) (G s s') 0%nat 0%nat) as [_ E''].
      unfold counted in H1, H2. rewrite <- E'' in H1. rewrite <- E' in H2. rewrite !attach_unfold.
      destruct (snd (map_ctx (app_step sh s) 0%nat (fst (map_ctx (app_step sh s') 0%nat (b_actions b))))) as [|[|n]] eqn:N1; try discriminate H1.
      destruct (snd (map_ctx (app_step sh s') 0%nat (fst (map_ctx (app_step sh s) 0%nat (b_actions b))))) as [|[|n]] eqn:N2; try discriminate H2.
      assert (E1 : b1 = with_actions b (fst (map_ctx (app_step sh s) 0%nat (b_actions b)))) by congruence. clear H1. subst b1.
      assert (E2 : b2 = with_actions b (fst (map_ctx (app_step sh s') 0%nat (b_actions b)))) by congruence. clear H2. subst b2.
      change (sh_of (with_actions b ?l)) with sh. unfold counted. cbn [with_actions b_actions]. rewrite N1, N2.
      eexists. split; [reflexivity|]. unfold with_actions. cbn [b_flags b_value_balance b_anchor b_auth b_actions]. rewrite E. reflexivity.
  Qed.

  (** * What one step does *)
  Definition step_effect (sh : bytes) (x : step) (a a' : @action C maybe_signed) : Prop :=
    action_effects a' = action_effects a /\
    if touches sh x (a_auth a) then exists s, a_auth a' = Signed s else a_auth a' = a_auth a.

  Lemma map_ctx_touch : forall R (f : R -> maybe_signed -> maybe_signed * R) sh x,
    (forall m, touches sh x m = false -> fixed f m) -> (forall m r, touches sh x m = true -> exists s, fst (f r m) = Signed s) ->
    forall l r, Forall2 (step_effect sh x) l (fst (map_ctx f r l)).
  Proof.
    intros R f sh x F0 F1 l. induction l as [|a l IH]; intro r; [constructor|]. cbn [map_ctx].
    destruct (f r (a_auth a)) as [m q] eqn:E. specialize (IH q). destruct (map_ctx f q l) as [l1 q1]. cbn [fst] in *.
    constructor; [|exact IH]. split; [destruct a; reflexivity|]. destruct (touches sh x (a_auth a)) eqn:T.
    - destruct (F1 _ r T) as [s HS]. rewrite E in HS. exists s. exact HS.
    - rewrite (F0 _ T r) in E. cbn [a_map a_auth]. congruence.
  Qed.

  Lemma run_step_effect : forall P (b b1 : @partial_bundle C V P) x, run_step b x = Ok b1 ->
    b_auth b1 = b_auth b /\ Forall2 (step_effect (sh_of b) x) (b_actions b) (b_actions b1).
  Proof.
    intros P b b1 [ask r|s] H; cbn [run_step] in H.
    - rewrite sign_unfold in H. cbn [fst] in H.
      assert (E : b1 = with_actions b (fst (map_ctx (sign_step (sh_of b) ask) r (b_actions b)))) by congruence. subst b1.
      split; [reflexivity|]. cbn [with_actions b_actions]. apply map_ctx_touch; [apply sign_fixed|].
      intros [p|s] q T; cbn [touches sign_step] in *; [|discriminate T]. rewrite T. destruct (sign _ _ _ _) as [s q']. exists s. reflexivity.
    - rewrite attach_unfold in H. unfold counted in H. destruct (snd _) as [|[|n]]; try discriminate H.
      assert (E : b1 = with_actions b (fst (map_ctx (app_step (sh_of b) s) 0%nat (b_actions b)))) by congruence. subst b1.
      split; [reflexivity|]. cbn [with_actions b_actions]. apply map_ctx_touch; [apply attach_fixed|].
      intros [p|s'] q T; cbn [touches app_step] in *; [|discriminate T]. rewrite T. exists s. reflexivity.
  Qed.

  Lemma Forall2_nth_l : forall A B (R : A -> B -> Prop) l l', Forall2 R l l' -> forall j a, nth_error l j = Some a ->
    exists a', nth_error l' j = Some a' /\ R a a'.
  Proof.
    intros A B R l l' F. induction F as [|x y l l' H F IH]; intros [|j] a E; cbn [nth_error] in *; try discriminate E.
    - exists y. split; [reflexivity|]. assert (x = a) by congruence. subst. exact H.
    - exact (IH j a E).
  Qed.
  Lemma Forall2_nth_r : forall A B (R : A -> B -> Prop) l l', Forall2 R l l' -> forall j a', nth_error l' j = Some a' ->
    exists a, nth_error l j = Some a /\ R a a'.
  Proof.
    intros A B R l l' F. induction F as [|x y l l' H F IH]; intros [|j] a E; cbn [nth_error] in *; try discriminate E.
    - exists x. split; [reflexivity|]. assert (y = a) by congruence. subst. exact H.
    - exact (IH j a E).
  Qed.

  Context (L : CurveLaws C).

  Lemma attach_touches : forall P sighash (b : @partial_bundle C V P) s j a, authorizable sighash b -> nth_error (b_actions b) j = Some a ->
    (touches (sh_of b) (Attach s) (a_auth a) = true <-> good_for b sighash s j).
  Proof.
    intros P sighash b s j a AZ H. pose proof (good_fits P sighash b s j a AZ H) as G. unfold fits in G. unfold sh_of, touches.
    destruct (a_auth a); exact G.
  Qed.

  Lemma independent_perm : forall P sighash (b : @partial_bundle C V P) target l l', Permutation l l' ->
    independent sighash b target l -> independent sighash b target l'.
  Proof.
    intros P sighash b target l l' PE [K T G A].
    assert (PK : Permutation (signer_keys l) (signer_keys l')) by (apply Permutation_flat_map; exact PE).
    assert (PA : Permutation (attached l) (attached l')) by (apply Permutation_flat_map; exact PE).
    assert (IA : forall s, In s (attached l') -> In s (attached l)) by (intros s; apply Permutation_in, Permutation_sym, PA).
    constructor.
    - exact (Permutation_NoDup PK K).
    - exact (Permutation_NoDup (Permutation_map target PA) T).
    - intros s HS. apply G, IA, HS.
    - intros s a p HS E1 E2 HI. apply (A s a p (IA s HS) E1 E2). exact (Permutation_in _ (Permutation_sym PK) HI).
  Qed.

  Lemma independent_apart : forall P sighash (b : @partial_bundle C V P) target x y l, authorizable sighash b ->
    independent sighash b target (x :: y :: l) -> apart b x y.
  Proof.
    intros P sighash b target x y l AZ [K T G A] a HI. apply In_nth_error in HI as [j HJ].
    destruct (touches (sh_of b) x (a_auth a)) eqn:TX; [|left; reflexivity].
    destruct (touches (sh_of b) y (a_auth a)) eqn:TY; [exfalso|right; reflexivity].
    destruct x as [ask r|s], y as [ask' r'|s'].
    - unfold touches in TX, TY. destruct (a_auth a) as [p|s]; [|discriminate TX]. apply (ak_eqb_eq L) in TX, TY.
      cbn [signer_keys flat_map app] in K. inversion K as [|? ? N _]. apply N. left. congruence.
    - apply (attach_touches _ _ _ _ _ _ AZ HJ) in TY. destruct (G s') as [_ U]; [cbn; auto|]. apply U in TY as E. subst j.
      unfold touches in TX. destruct (a_auth a) as [p|s] eqn:EA; [|discriminate TX]. apply (ak_eqb_eq L) in TX.
      apply (A s' a p); [cbn; auto|exact HJ|exact EA|]. cbn [signer_keys flat_map app]. left. congruence.
    - apply (attach_touches _ _ _ _ _ _ AZ HJ) in TX. destruct (G s) as [_ U]; [cbn; auto|]. apply U in TX as E. subst j.
      unfold touches in TY. destruct (a_auth a) as [p|s'] eqn:EA; [|discriminate TY]. apply (ak_eqb_eq L) in TY.
      apply (A s a p); [cbn; auto|exact HJ|exact EA|]. cbn [signer_keys flat_map app]. left. congruence.
    - apply (attach_touches _ _ _ _ _ _ AZ HJ) in TX, TY. destruct (G s) as [_ U]; [cbn; auto|]. destruct (G s') as [_ U']; [cbn; auto|].
      apply U in TX. apply U' in TY. cbn [attached flat_map app map] in T. inversion T as [|? ? N _]. apply N. left. congruence.
  Qed.

  Lemma independent_ok : forall P sighash (b : @partial_bundle C V P) target x l, authorizable sighash b ->
    independent sighash b target (x :: l) -> exists b1, run_step b x = Ok b1.
  Proof.
    intros P sighash b target [ask r|s] l AZ [K T G A]; cbn [run_step]; [eexists; reflexivity|].
    destruct (G s) as [G1 G2]; [cbn; auto|]. destruct (append_spec P sighash b s AZ) as (_ & _ & X).
    destruct (X _ G1 G2) as (b' & E & _). exists b'. exact E.
  Qed.

  Lemma run_step_authorizable : forall P sighash (b b1 : @partial_bundle C V P) x, authorizable sighash b -> run_step b x = Ok b1 ->
    authorizable sighash b1.
  Proof.
    intros P sighash b b1 [ask r|s] AZ H; cbn [run_step] in H.
    - assert (E : b1 = fst (bundle_sign b r ask)) by congruence. subst b1. apply (sign_authorizable L _ _ _ _ _ AZ).
    - destruct (append_ok _ _ _ _ _ AZ H) as (_ & _ & X & _). exact X.
  Qed.

  Lemma independent_step : forall P sighash (b b1 : @partial_bundle C V P) target x l, authorizable sighash b ->
    independent sighash b target (x :: l) -> run_step b x = Ok b1 -> independent sighash b1 target l.
  Proof.
    intros P sighash b b1 target x l AZ IND H. pose proof (run_step_effect _ _ _ _ H) as [EA F]. pose proof IND as [K T G A].
    assert (IA : forall s, In s (attached l) -> In s (attached (x :: l))) by (intros s HS; unfold attached; cbn [flat_map]; apply in_or_app; right; exact HS).
    assert (IK : forall k, In k (signer_keys l) -> In k (signer_keys (x :: l))) by (intros k HS; unfold signer_keys; cbn [flat_map]; apply in_or_app; right; exact HS).
    assert (BACK : forall s j, good_for b1 sighash s j -> good_for b sighash s j).
    { intros s j (a' & HJ & (p & EP) & HV). destruct (Forall2_nth_r _ _ _ _ _ F j a' HJ) as (a & HA & EE & TT).
      exists a. split; [exact HA|]. pose proof (effects_rk _ _ _ _ EE) as RK. destruct (touches (sh_of b) x (a_auth a)).
      - destruct TT as [s0 E0]. congruence.
      - split; [exists p; congruence|]. rewrite <- RK. exact HV. }
    constructor.
    - destruct x as [ask r|s]; [inversion K; assumption|exact K].
    - destruct x as [ask r|s]; [exact T|inversion T; assumption].
    - intros s HS. destruct (G s (IA s HS)) as [G1 G2]. split; [|intros j X; apply G2, BACK, X].
      pose proof G1 as (a & HA & (p & EP) & HV). destruct (Forall2_nth_l _ _ _ _ _ F _ a HA) as (a' & HA' & EE & TT).
      assert (NT : touches (sh_of b) x (a_auth a) = false).
      { destruct (touches (sh_of b) x (a_auth a)) eqn:TX; [exfalso|reflexivity]. destruct x as [ask r|s'].
        - rewrite EP in TX. cbn [touches] in TX. apply (ak_eqb_eq L) in TX. apply (A s a p (IA s HS) HA EP). cbn. left. congruence.
        - apply (attach_touches _ _ _ _ _ _ AZ HA) in TX. destruct (G s') as [_ U]; [cbn; auto|]. apply U in TX.
          cbn [attached flat_map app map] in T. inversion T as [|? ? N _]. apply N. rewrite <- TX. exact (in_map target _ _ HS). }
      rewrite NT in TT. exists a'. split; [exact HA'|]. split; [exists p; congruence|]. rewrite (effects_rk _ _ _ _ EE). exact HV.
    - intros s a' p HS HA' EP HI. destruct (Forall2_nth_r _ _ _ _ _ F _ a' HA') as (a & HA & EE & TT).
      destruct (touches (sh_of b) x (a_auth a)); [destruct TT as [s0 E0]; congruence|].
      apply (A s a p (IA s HS) HA); [congruence|exact (IK _ HI)].
  Qed.

  Lemma independent_runs : forall P sighash target l (b : @partial_bundle C V P), authorizable sighash b -> independent sighash b target l ->
    exists b', run_steps b l = Ok b'.
  Proof.
    intros P sighash target l. induction l as [|x l IH]; intros b AZ IND; cbn [run_steps]; [eexists; reflexivity|].
    destruct (independent_ok _ _ _ _ _ _ AZ IND) as [b1 E]. rewrite E.
    exact (IH b1 (run_step_authorizable _ _ _ _ _ AZ E) (independent_step _ _ _ _ _ _ _ AZ IND E)).
  Qed.

  Lemma independent_order : forall P sighash target l l', Permutation l l' -> forall b : @partial_bundle C V P,
    authorizable sighash b -> independent sighash b target l -> run_steps b l = run_steps b l'.
  Proof.
    intros P sighash target l l' PE. induction PE as [|x l l' PE IH|x y l|l l' l'' P1 IH1 P2 IH2]; intros b AZ IND.
    - reflexivity.
    - cbn [run_steps]. destruct (run_step b x) as [b1|e] eqn:E; [|reflexivity].
      exact (IH b1 (run_step_authorizable _ _ _ _ _ AZ E) (independent_step _ _ _ _ _ _ _ AZ IND E)).
    - pose proof (independent_perm _ _ _ _ _ _ (perm_swap x y l) IND) as IND'.
      destruct (independent_ok _ _ _ _ _ _ AZ IND) as [b1 E1]. destruct (independent_ok _ _ _ _ _ _ AZ IND') as [b2 E2].
      destruct (steps_swap _ b b1 b2 y x (independent_apart _ _ _ _ _ _ _ AZ IND) E1 E2) as (b3 & X1 & X2).
      cbn [run_steps]. rewrite E1, E2, X1, X2. reflexivity.
    - rewrite (IH1 b AZ IND). exact (IH2 b AZ (independent_perm _ _ _ _ _ _ P1 IND)).
  Qed.

  Lemma steps_in_any_order : forall P sighash (b : @partial_bundle C V P) target l l', authorizable sighash b ->
    independent sighash b target l -> Permutation l l' -> exists b', run_steps b l = Ok b' /\ run_steps b l' = Ok b'.
  Proof.
    intros P sighash b target l l' AZ IND PE. destruct (independent_runs _ _ _ _ _ AZ IND) as [b' E]. exists b'. split; [exact E|].
    rewrite <- (independent_order _ _ _ _ _ PE _ AZ IND). exact E.
  Qed.

  (** * Proving, and signing again *)
  Definition with_proof {P Q} (pr : Q) (b : @partial_bundle C V P) : @partial_bundle C V Q :=
    mk_bundle (b_actions b) (b_flags b) (b_value_balance b) (b_anchor b) (mk_progress pr (ip_sigs (b_auth b))).
  Definition on_ok {E A B} (f : A -> B) (x : result E A) : result E B := match x with Ok a => Ok (f a) | Err e => Err e end.

  Lemma run_step_proof : forall P Q (pr : Q) (b : @partial_bundle C V P) x, run_step (with_proof pr b) x = on_ok (with_proof pr) (run_step b x).
  Proof.
    intros P Q pr b [ask r|s]; cbn [run_step].
    - rewrite !sign_unfold. reflexivity.
    - rewrite !attach_unfold. unfold counted. change (sh_of (with_proof pr b)) with (sh_of b).
      change (b_actions (with_proof pr b)) with (b_actions b). destruct (snd _) as [|[|n]]; reflexivity.
  Qed.
  Lemma run_steps_proof : forall P Q (pr : Q) l (b : @partial_bundle C V P), run_steps (with_proof pr b) l = on_ok (with_proof pr) (run_steps b l).
  Proof.
    intros P Q pr l. induction l as [|x l IH]; intro b; [reflexivity|]. cbn [run_steps]. rewrite run_step_proof.
    destruct (run_step b x) as [b1|e]; cbn [on_ok]; [apply IH|reflexivity].
  Qed.
  Lemma run_step_circuits : forall P (b b1 : @partial_bundle C V P) x, run_step b x = Ok b1 ->
    b_auth b1 = b_auth b /\ b_flags b1 = b_flags b /\ b_anchor b1 = b_anchor b /\ length (b_actions b1) = length (b_actions b) /\
    map (fun a => to_instance a (b_flags b1) (b_anchor b1)) (b_actions b1) = map (fun a => to_instance a (b_flags b) (b_anchor b)) (b_actions b).
  Proof.
    intros P b b1 x H. pose proof (run_step_effect _ _ _ _ H) as [EA F].
    assert (E : b_flags b1 = b_flags b /\ b_anchor b1 = b_anchor b).
    { destruct x as [ask r|s]; cbn [run_step] in H.
      - rewrite sign_unfold in H. cbn [fst] in H. assert (E : b1 = with_actions b (fst (map_ctx (sign_step (sh_of b) ask) r (b_actions b)))) by congruence.
        subst b1. split; reflexivity.
      - rewrite attach_unfold in H. unfold counted in H. destruct (snd _) as [|[|n]]; try discriminate H.
        assert (E : b1 = with_actions b (fst (map_ctx (app_step (sh_of b) s) 0%nat (b_actions b)))) by congruence. subst b1. split; reflexivity. }
    destruct E as [E1 E2]. rewrite E1, E2. split; [exact EA|]. split; [reflexivity|]. split; [reflexivity|].
    clear -F. induction F as [|a a' l l' [H _] F [IH1 IH2]]; [split; reflexivity|]. cbn [length map]. rewrite IH1, IH2. split; [reflexivity|].
    f_equal. exact (f_equal (fun e => to_instance e (b_flags b) (b_anchor b)) H).
  Qed.
  Lemma run_steps_circuits : forall P l (b b1 : @partial_bundle C V P), run_steps b l = Ok b1 ->
    b_auth b1 = b_auth b /\ length (b_actions b1) = length (b_actions b) /\
    map (fun a => to_instance a (b_flags b1) (b_anchor b1)) (b_actions b1) = map (fun a => to_instance a (b_flags b) (b_anchor b)) (b_actions b).
  Proof.
    intros P l. induction l as [|x l IH]; intros b b1 H; cbn [run_steps] in H.
    - assert (b = b1) by congruence. subst b1. split; [reflexivity|]. split; reflexivity.
    - destruct (run_step b x) as [b2|e] eqn:E; [|discriminate H]. destruct (run_step_circuits _ _ _ _ E) as (A1 & _ & _ & A2 & A3).
      destruct (IH _ _ H) as (B1 & B2 & B3). split; [congruence|]. split; congruence.
  Qed.

  Lemma create_proof_unfold : forall hp Sg SA (b : bundle (in_progress unproven Sg) SA V) r,
    create_proof hp b r =
      let! _ := assert_ "NonEmpty::from_vec" (negb (Nat.eqb (length (b_actions b)) 0)) in
      let! (p, r') := proof_create hp (up_circuits (ip_proof (b_auth b))) (map (fun a => to_instance a (b_flags b) (b_anchor b)) (b_actions b)) r in
      Ret (match p with
           | Some proof => (Ok (mk_bundle (b_actions b) (b_flags b) (b_value_balance b) (b_anchor b) (mk_progress proof (ip_sigs (b_auth b)))), r')
           | None => (Err BE_Proof, r')
           end).
  Proof.
    intros hp Sg SA b r. unfold create_proof, try_map_authorization. rewrite try_map_id. destruct (assert_ _ _) as [u|w|]; cbn [obind]; try reflexivity.
    destruct (proof_create _ _ _ _) as [[[p|] r1]|w|]; reflexivity.
  Qed.

  Lemma proving_at_any_moment : forall hp (b : @partial_bundle C V unproven) r b1 r1 l, create_proof hp b r = Ret (Ok b1, r1) ->
    match run_steps b l with
    | Ok b' => exists b1', run_steps b1 l = Ok b1' /\ create_proof hp b' r = Ret (Ok b1', r1)
    | Err e => run_steps b1 l = Err e
    end.
  Proof.
    intros hp b r b1 r1 l H. rewrite create_proof_unfold in H. destruct (assert_ _ _) as [u|w|] eqn:EA; cbn [obind] in H; try discriminate H.
    destruct (proof_create _ _ _ _) as [[[p|] r']|w|] eqn:EP; cbn [obind] in H; try discriminate H.
    assert (E1 : b1 = with_proof p b) by (unfold with_proof; congruence). assert (E2 : r' = r1) by congruence. clear H. subst b1 r'.
    rewrite run_steps_proof. destruct (run_steps b l) as [b'|e] eqn:ER; cbn [on_ok]; [|reflexivity].
    exists (with_proof p b'). split; [reflexivity|]. destruct (run_steps_circuits _ _ _ _ ER) as (A1 & A2 & A3).
    rewrite create_proof_unfold, A1, A2, A3, EA. cbn [obind]. rewrite EP. cbn [obind]. unfold with_proof. rewrite A1. reflexivity.
  Qed.

  Lemma map_ctx_instances : forall R A B (f : R -> A -> B * R) fl anc (l : list (@action C A)) r,
    map (fun a => to_instance a fl anc) (fst (map_ctx f r l)) = map (fun a => to_instance a fl anc) l /\ length (fst (map_ctx f r l)) = length l.
  Proof.
    intros R A B f fl anc l. induction l as [|a l IH]; intro r; [split; reflexivity|]. cbn [map_ctx].
    destruct (f r (a_auth a)) as [m q]. destruct (IH q) as [I1 I2]. destruct (map_ctx f q l) as [l1 q1]. cbn [fst] in *.
    cbn [map length]. rewrite I1, I2. split; reflexivity.
  Qed.

  Lemma proving_before_or_after_preparing : forall hp (b0 : @unauthorized_bundle C V) r b1 r1 r2 sighash,
    create_proof hp b0 r = Ret (Ok b1, r1) ->
    create_proof hp (fst (prepare b0 r2 sighash)) r = Ret (Ok (fst (prepare b1 r2 sighash)), r1).
  Proof.
    intros hp b0 r b1 r1 r2 sighash H. rewrite create_proof_unfold in H. destruct (assert_ _ _) as [u|w|] eqn:EA; cbn [obind] in H; try discriminate H.
    destruct (proof_create _ _ _ _) as [[[p|] r']|w|] eqn:EP; cbn [obind] in H; try discriminate H.
    assert (E1 : b1 = mk_bundle (b_actions b0) (b_flags b0) (b_value_balance b0) (b_anchor b0) (mk_progress p (ip_sigs (b_auth b0)))) by congruence.
    assert (E2 : r' = r1) by congruence. clear H. subst b1 r'. rewrite create_proof_unfold. unfold prepare, map_authorization. cbn [b_actions b_auth b_flags b_value_balance b_anchor ip_sigs ip_proof].
    match goal with |- context [map_ctx ?f r2 (b_actions b0)] => pose proof (map_ctx_instances _ _ _ f (b_flags b0) (b_anchor b0) (b_actions b0) r2) as [I1 I2];
      destruct (map_ctx f r2 (b_actions b0)) as [l q] end. cbn [fst] in I1, I2.
    destruct (sign Binding _ sighash q) as [s q']. cbn [fst b_actions b_auth b_flags b_value_balance b_anchor ip_sigs ip_proof].
    rewrite I1, I2, EA. cbn [obind]. rewrite EP. reflexivity.
  Qed.

  (** A second pass by the same signer finds nothing to sign. *)
  Lemma map_ctx_again : forall R M (f g : R -> M -> M * R) (l : list (@action C M)), (forall m r, fixed g (fst (f r m))) -> forall r r',
    map_ctx g r' (fst (map_ctx f r l)) = (fst (map_ctx f r l), r').
  Proof.
    intros R M f g l F. induction l as [|a l IH]; intros r r'; [reflexivity|]. cbn [map_ctx]. destruct (f r (a_auth a)) as [m q] eqn:E.
    specialize (IH q r'). destruct (map_ctx f q l) as [l1 q1]. cbn [fst] in *. cbn [map_ctx]. cbn [a_map a_auth].
    pose proof (F (a_auth a) r) as X. rewrite E in X. cbn [fst] in X. rewrite (X r'), IH. reflexivity.
  Qed.
  Lemma signing_again : forall P (b : @partial_bundle C V P) ask r r',
    bundle_sign (fst (bundle_sign b r ask)) r' ask = (fst (bundle_sign b r ask), r').
  Proof.
    intros P b ask r r'. rewrite (sign_unfold P b). cbn [fst]. rewrite sign_unfold. change (sh_of (with_actions b ?l)) with (sh_of b).
    cbn [with_actions b_actions]. rewrite map_ctx_again; [reflexivity|]. intros [p|s] q; [|intro; reflexivity]. cbn [sign_step].
    destruct (ak_eqb _ _) eqn:E.
    - destruct (sign _ _ _ _) as [s q']. intro. reflexivity.
    - intro q0. cbn [fst sign_step]. rewrite E. reflexivity.
  Qed.

  Lemma second_signature : forall P sighash (b b1 : @partial_bundle C V P) s s', authorizable sighash b -> append_signature b s = Ok b1 ->
    (forall j, good_for b sighash s' j -> good_for b sighash s j) -> append_signature b1 s' = Err BE_InvalidExternalSignature.
  Proof.
    intros P sighash b b1 s s' AZ H G. pose proof (run_step_effect _ _ _ (Attach s) H) as [_ F].
    destruct (append_ok _ _ _ _ _ AZ H) as (_ & _ & AZ1 & _). apply (append_spec P sighash b1 s' AZ1).
    intros j (a' & HJ & (p & EP) & HV). destruct (Forall2_nth_r _ _ _ _ _ F j a' HJ) as (a & HA & EE & TT).
    destruct (touches (sh_of b) (Attach s) (a_auth a)) eqn:T; [destruct TT as [s0 E0]; congruence|].
    assert (X : good_for b sighash s j).
    { apply G. exists a. split; [exact HA|]. split; [exists p; congruence|]. rewrite <- (effects_rk _ _ _ _ EE). exact HV. }
    apply (attach_touches _ _ _ _ _ _ AZ HA) in X. congruence.
  Qed.

  Lemma what_the_prover_is_given : forall hp Sg SA (b : bundle (in_progress unproven Sg) SA V) r is,
    b_actions b <> [] -> omap to_halo2_instance (to_instances b) = Ret is ->
    create_proof hp b r =
      match hp (up_circuits (ip_proof (b_auth b))) is r with
      | (Some proof, r') => Ret (Ok (mk_bundle (b_actions b) (b_flags b) (b_value_balance b) (b_anchor b) (mk_progress proof (ip_sigs (b_auth b)))), r')
      | (None, r') => Ret (Err BE_Proof, r')
      end.
  Proof.
    intros hp Sg SA b r is NE HI. rewrite create_proof_unfold. destruct (b_actions b) as [|a l] eqn:E; [contradiction NE; reflexivity|]. rewrite <- E.
    assert (X : assert_ "NonEmpty::from_vec" (negb (Nat.eqb (length (b_actions b)) 0)) = Ret tt) by (rewrite E; reflexivity). rewrite X. cbn [obind].
    unfold proof_create. unfold to_instances in HI. rewrite HI. cbn [obind]. destruct (hp _ is r) as [[p|] r']; reflexivity.
  Qed.
End Facts.
