(** Proofs for C88: the maps of src/bundle.rs and src/action.rs. *)
From Coq Require Import String ZArith List Bool Lia.
From Coq Require Import Init.Byte.
From Verif Require Import Prelude Fields Curve Oracles RedPallas Value Keys Note Action NoteEnc Bundle
  BundleSpec MapSpec PreludeFacts BundleFacts Toy ToyFacts ToyBundle.
Import ListNotations.
Open Scope Z_scope.

Section MapFacts.
  Context {C : Curve} {OR : @Oracles C}.

  Lemma map_ctx_runs : forall R A B (f : R -> A -> B * R) (l : list (action A)) r l' r',
    map_ctx f r l = (l', r') ->
    runs (fun r0 a b r1 => f r0 a = (b, r1)) r (map a_auth l) (map a_auth l') r' /\
    map action_effects l' = map action_effects l.
  Proof.
    intros R A B f. induction l as [|a l IH]; intros r l' r'; cbn [map_ctx map].
    - intro H. injection H as <- <-. split; [constructor|reflexivity].
    - destruct (f r (a_auth a)) as [b r1] eqn:F. destruct (map_ctx f r1 l) as [bs r2] eqn:M.
      intro H. injection H as <- <-. destruct (IH _ _ _ M) as [I1 I2]. cbn [map]. split.
      + exact (runs_cons _ _ _ _ _ _ _ _ F I1).
      + rewrite I2. reflexivity.
  Qed.

  Lemma map_authorization_maps : forall R T S V T' S' (b : bundle T S V) (ctx : R)
    (spend_auth : R -> T -> S -> S' * R) (step : R -> T -> T' * R) b' ctx',
    map_authorization b ctx spend_auth step = (b', ctx') ->
    effects b' = effects b /\
    exists c1,
      runs (fun r s s' r1 => spend_auth r (b_auth b) s = (s', r1)) ctx
        (map a_auth (b_actions b)) (map a_auth (b_actions b')) c1 /\
      step c1 (b_auth b) = (b_auth b', ctx').
  Proof.
    intros R T S V T' S' b ctx sa st b' ctx'. unfold map_authorization.
    destruct (map_ctx _ ctx (b_actions b)) as [acts r1] eqn:M. destruct (st r1 (b_auth b)) as [t r2] eqn:ST.
    intro H. injection H as <- <-. destruct (map_ctx_runs _ _ _ _ _ _ _ _ M) as [I1 I2]. split.
    - unfold effects. cbn [b_actions b_flags b_value_balance b_anchor]. rewrite I2. reflexivity.
    - exists r1. split; [exact I1|exact ST].
  Qed.

  (** The three ways a run can end. *)
  Lemma try_map_ctx_ok : forall R A B E (f : R -> A -> result E B * R) (l : list (action A)) r l' r',
    try_map_ctx f r l = (Ok l', r') ->
    runs (fun r0 a b r1 => f r0 a = (Ok b, r1)) r (map a_auth l) (map a_auth l') r' /\
    map action_effects l' = map action_effects l.
  Proof.
    intros R A B E f. induction l as [|a l IH]; intros r l' r'; cbn [try_map_ctx map].
    - intro H. injection H as <- <-. split; [constructor|reflexivity].
    - destruct (f r (a_auth a)) as [b r1] eqn:F. destruct b as [b|e]; cbn [a_try_map]; [|discriminate].
      destruct (try_map_ctx f r1 l) as [[bs|e] r2] eqn:M; [|discriminate].
      intro H. injection H as <- <-. destruct (IH _ _ _ M) as [I1 I2]. cbn [map]. split.
      + exact (runs_cons _ _ _ _ _ _ _ _ F I1).
      + rewrite I2. reflexivity.
  Qed.
  Lemma try_map_ctx_err : forall R A B E (f : R -> A -> result E B * R) (l : list (action A)) r e r',
    try_map_ctx f r l = (Err e, r') ->
    exists pre s post oks r1, map a_auth l = pre ++ s :: post /\
      runs (fun r0 a b r1 => f r0 a = (Ok b, r1)) r pre oks r1 /\ f r1 s = (Err e, r').
  Proof.
    intros R A B E f. induction l as [|a l IH]; intros r e r'; cbn [try_map_ctx map]; [discriminate|].
    destruct (f r (a_auth a)) as [b r1] eqn:F. destruct b as [b|e']; cbn [a_try_map].
    - destruct (try_map_ctx f r1 l) as [[bs|e'] r2] eqn:M; [discriminate|].
      intro H. injection H as <- <-. destruct (IH _ _ _ M) as (pre & s & post & oks & r3 & I1 & I2 & I3).
      exists (a_auth a :: pre), s, post, (b :: oks), r3. split; [rewrite I1; reflexivity|]. split; [|exact I3].
      exact (runs_cons _ _ _ _ _ _ _ _ F I2).
    - intro H. injection H as <- <-. exists [], (a_auth a), (map a_auth l), [], r. split; [reflexivity|].
      split; [constructor|exact F].
  Qed.

  (** A run of a function has one result, and a run that fails somewhere does not succeed. *)
  Lemma runs_det : forall R A B E (f : R -> A -> result E B * R) l r l1 r1 l2 r2,
    runs (fun r0 a b r' => f r0 a = (Ok b, r')) r l l1 r1 -> runs (fun r0 a b r' => f r0 a = (Ok b, r')) r l l2 r2 ->
    l1 = l2 /\ r1 = r2.
  Proof.
    intros R A B E f l r l1 r1 l2 r2 H. revert l2 r2. induction H as [r|r a b r1 l l' r' F H IH]; intros l2 r2 K; inversion K; subst.
    - split; reflexivity.
    - match goal with X : f r a = (Ok ?b0, ?r0), Y : runs _ ?r0 l _ _ |- _ => rewrite F in X; injection X as <- <-; destruct (IH _ _ Y) as [-> ->] end.
      split; reflexivity.
  Qed.
  Lemma runs_prefix : forall R A B (f : R -> A -> B -> R -> Prop) pre post r l' r',
    runs f r (pre ++ post) l' r' -> exists l1 l2 r1, l' = l1 ++ l2 /\ runs f r pre l1 r1 /\ runs f r1 post l2 r'.
  Proof.
    intros R A B f. induction pre as [|a pre IH]; intros post r l' r' H.
    - exists [], l', r. split; [reflexivity|]. split; [constructor|exact H].
    - cbn [app] in H. inversion H; subst. match goal with Y : runs _ _ (pre ++ post) _ _ |- _ => destruct (IH _ _ _ _ Y) as (l1 & l2 & r2 & -> & I2 & I3) end.
      eexists (_ :: l1), l2, r2. split; [reflexivity|]. split; [econstructor; eassumption|exact I3].
  Qed.
  Lemma runs_not_failing : forall R A B E (f : R -> A -> result E B * R) pre s post r l' r' oks r1 e r2,
    runs (fun r0 a b r' => f r0 a = (Ok b, r')) r (pre ++ s :: post) l' r' ->
    runs (fun r0 a b r' => f r0 a = (Ok b, r')) r pre oks r1 -> f r1 s = (Err e, r2) -> False.
  Proof.
    intros R A B E f pre s post r l' r' oks r1 e r2 H P F.
    destruct (runs_prefix _ _ _ _ _ _ _ _ _ H) as (l1 & l2 & r3 & _ & H1 & H2).
    destruct (runs_det _ _ _ _ _ _ _ _ _ _ _ P H1) as [_ <-]. inversion H2; subst. congruence.
  Qed.
  (** The first failure is unique. *)
  Lemma runs_first_failure : forall R A B E (f : R -> A -> result E B * R) pre s post r oks r1 e r2 pre' s' post' oks' r1' e' r2',
    pre ++ s :: post = pre' ++ s' :: post' ->
    runs (fun r0 a b r' => f r0 a = (Ok b, r')) r pre oks r1 -> f r1 s = (Err e, r2) ->
    runs (fun r0 a b r' => f r0 a = (Ok b, r')) r pre' oks' r1' -> f r1' s' = (Err e', r2') -> e = e' /\ r2 = r2'.
  Proof.
    intros R A B E f. induction pre as [|a pre IH]; intros s post r oks r1 e r2 pre' s' post' oks' r1' e' r2' Q H F H' F'.
    - inversion H; subst. destruct pre' as [|a' pre'].
      + inversion H'; subst. cbn [app] in Q. injection Q as <- <-. rewrite F in F'. injection F' as <- <-. split; reflexivity.
      + cbn [app] in Q. injection Q as <- _. inversion H'; subst. congruence.
    - destruct pre' as [|a' pre'].
      + cbn [app] in Q. injection Q as <- _. inversion H; subst. inversion H'; subst. congruence.
      + cbn [app] in Q. injection Q as <- Q. inversion H; subst. inversion H'; subst.
        match goal with X : f r a = (Ok ?b1, ?s1), Y : f r a = (Ok ?b2, ?s2) |- _ => rewrite X in Y; injection Y as <- <- end.
        eapply IH; eassumption.
  Qed.

  Lemma effects_same_length : forall A B (l : list (action A)) (l' : list (action B)),
    map action_effects l' = map action_effects l -> length l' = length l.
  Proof. intros A B l l' H. apply (f_equal (@length _)) in H. rewrite !map_length in H. exact H. Qed.
  Lemma action_ext : forall A (a b : action A), action_effects a = action_effects b -> a_auth a = a_auth b -> a = b.
  Proof.
    intros A [nf rk cmx ct cv au] [nf' rk' cmx' ct' cv' au']. unfold action_effects.
    cbn [a_nf a_rk a_cmx a_ct a_cv a_auth]. congruence.
  Qed.
  Lemma actions_ext : forall A (l l' : list (action A)),
    map action_effects l = map action_effects l' -> map a_auth l = map a_auth l' -> l = l'.
  Proof.
    intro A. induction l as [|a l IH]; intros [|a' l']; cbn [map]; try discriminate; [reflexivity|].
    intros H K. assert (H0 := f_equal (@hd_error _) H). assert (H1 := f_equal (@tl _) H). cbn [hd_error tl] in H0, H1.
    injection K as K0 K. rewrite (IH _ H1 K). f_equal.
    apply action_ext; [|exact K0]. generalize (action_effects a) (action_effects a') H0. intros x y Q. congruence.
  Qed.
  Lemma bundle_ext : forall T S V (b b' : bundle T S V),
    effects b = effects b' -> map a_auth (b_actions b) = map a_auth (b_actions b') -> b_auth b = b_auth b' -> b = b'.
  Proof.
    intros T S V [a f v n u] [a' f' v' n' u']. unfold effects. cbn [b_actions b_flags b_value_balance b_anchor b_auth].
    intros H K W. injection H as HA HF HV HN. rewrite (actions_ext _ _ _ HA K). congruence.
  Qed.

  (** Everything [try_map_authorization] can do, by cases on the callbacks. *)
  Lemma try_map_cases : forall R T S V T' S' E (b : bundle T S V) (ctx : R)
    (spend_auth : R -> T -> S -> result E S' * R) (step : R -> T -> outcome (result E T' * R)),
    b_actions b <> [] ->
    let good := runs (fun r s s' r1 => spend_auth r (b_auth b) s = (Ok s', r1)) ctx in
    (exists pre s post oks c1 e c2, map a_auth (b_actions b) = pre ++ s :: post /\ good pre oks c1 /\
       spend_auth c1 (b_auth b) s = (Err e, c2) /\ try_map_authorization b ctx spend_auth step = Ret (Err e, c2)) \/
    (exists acts c1, good (map a_auth (b_actions b)) (map a_auth acts) c1 /\ map action_effects acts = map action_effects (b_actions b) /\
       try_map_authorization b ctx spend_auth step =
         match step c1 (b_auth b) with
         | Ret (Ok t, c2) => Ret (Ok (mk_bundle acts (b_flags b) (b_value_balance b) (b_anchor b) t), c2)
         | Ret (Err e, c2) => Ret (Err e, c2)
         | Panic why => Panic why
         | OutOfFuel => OutOfFuel
         end).
  Proof.
    intros R T S V T' S' E b ctx sa st NE good. unfold try_map_authorization.
    destruct (try_map_ctx _ ctx (b_actions b)) as [[acts|e] r1] eqn:M.
    - right. destruct (try_map_ctx_ok _ _ _ _ _ _ _ _ _ M) as [I1 I2]. exists acts, r1. split; [exact I1|]. split; [exact I2|].
      assert (NZ : negb (Nat.eqb (length acts) 0) = true).
      { rewrite (effects_same_length _ _ _ _ I2). destruct (b_actions b); [congruence|reflexivity]. }
      rewrite NZ. cbn [assert_ obind]. destruct (st r1 (b_auth b)) as [[[t|e] r2]|w|]; reflexivity.
    - left. destruct (try_map_ctx_err _ _ _ _ _ _ _ _ _ M) as (pre & s & post & oks & c1 & I1 & I2 & I3).
      exists pre, s, post, oks, c1, e, r1. split; [exact I1|]. split; [exact I2|]. split; [exact I3|reflexivity].
  Qed.

  Lemma try_map_succeeds : forall R T S V T' S' E (b : bundle T S V) (ctx : R)
    (spend_auth : R -> T -> S -> result E S' * R) (step : R -> T -> outcome (result E T' * R)) b' ctx',
    b_actions b <> [] ->
    (try_map_authorization b ctx spend_auth step = Ret (Ok b', ctx') <->
     effects b' = effects b /\
     exists c1,
       runs (fun r s s' r1 => spend_auth r (b_auth b) s = (Ok s', r1)) ctx
         (map a_auth (b_actions b)) (map a_auth (b_actions b')) c1 /\
       step c1 (b_auth b) = Ret (Ok (b_auth b'), ctx')).
  Proof.
    intros R T S V T' S' E b ctx sa st b' ctx' NE.
    destruct (try_map_cases _ _ _ _ _ _ _ b ctx sa st NE) as [(pre & s & post & oks & c1 & e & c2 & SP & G & F & ->)|(acts & c1 & G & EF & ->)].
    - split; [discriminate|]. intros (_ & c3 & K & _). rewrite SP in K. exfalso.
      exact (runs_not_failing _ _ _ _ _ _ _ _ _ _ _ _ _ _ _ K G F).
    - split.
      + destruct (st c1 (b_auth b)) as [[[t|e] c2]|w|] eqn:ST; try discriminate. intro H. injection H as <- <-. split.
        * unfold effects. cbn [b_actions b_flags b_value_balance b_anchor]. rewrite EF. reflexivity.
        * exists c1. split; [exact G|exact ST].
      + intros (EB & c3 & K & ST). destruct (runs_det _ _ _ _ _ _ _ _ _ _ _ G K) as [AU <-]. rewrite ST. f_equal. f_equal. f_equal.
        apply bundle_ext; [|exact AU|reflexivity]. rewrite EB. unfold effects. cbn [b_actions b_flags b_value_balance b_anchor].
        rewrite EF. reflexivity.
  Qed.

  Lemma try_map_fails : forall R T S V T' S' E (b : bundle T S V) (ctx : R)
    (spend_auth : R -> T -> S -> result E S' * R) (step : R -> T -> outcome (result E T' * R)) e ctx',
    b_actions b <> [] ->
    (try_map_authorization b ctx spend_auth step = Ret (Err e, ctx') <->
     (exists pre s post oks c1, map a_auth (b_actions b) = pre ++ s :: post /\
        runs (fun r s s' r1 => spend_auth r (b_auth b) s = (Ok s', r1)) ctx pre oks c1 /\
        spend_auth c1 (b_auth b) s = (Err e, ctx')) \/
     (exists oks c1,
        runs (fun r s s' r1 => spend_auth r (b_auth b) s = (Ok s', r1)) ctx (map a_auth (b_actions b)) oks c1 /\
        step c1 (b_auth b) = Ret (Err e, ctx'))).
  Proof.
    intros R T S V T' S' E b ctx sa st e ctx' NE.
    destruct (try_map_cases _ _ _ _ _ _ _ b ctx sa st NE) as [(pre & s & post & oks & c1 & e1 & c2 & SP & G & F & ->)|(acts & c1 & G & EF & ->)].
    - split.
      + intro H. injection H as <- <-. left. exists pre, s, post, oks, c1. split; [exact SP|]. split; [exact G|exact F].
      + intros [(pre' & s' & post' & oks' & c1' & SP' & G' & F')|(oks' & c1' & G' & _)].
        * rewrite SP in SP'. destruct (runs_first_failure _ _ _ _ _ _ _ _ _ _ _ _ _ _ _ _ _ _ _ _ SP' G F G' F') as [-> ->]. reflexivity.
        * rewrite SP in G'. exfalso. exact (runs_not_failing _ _ _ _ _ _ _ _ _ _ _ _ _ _ _ G' G F).
    - split.
      + destruct (st c1 (b_auth b)) as [[[t|e1] c2]|w|] eqn:ST; try discriminate. intro H. injection H as <- <-.
        right. exists (map a_auth acts), c1. split; [exact G|exact ST].
      + intros [(pre' & s' & post' & oks' & c1' & SP' & G' & F')|(oks' & c1' & G' & ST)].
        * rewrite SP' in G. exfalso. exact (runs_not_failing _ _ _ _ _ _ _ _ _ _ _ _ _ _ _ G G' F').
        * destruct (runs_det _ _ _ _ _ _ _ _ _ _ _ G G') as [_ <-]. rewrite ST. reflexivity.
  Qed.

  Lemma try_map_panics : forall R T S V T' S' E (b : bundle T S V) (ctx : R)
    (spend_auth : R -> T -> S -> result E S' * R) (step : R -> T -> outcome (result E T' * R)) why,
    b_actions b <> [] ->
    try_map_authorization b ctx spend_auth step = Panic why ->
    exists oks c1,
      runs (fun r s s' r1 => spend_auth r (b_auth b) s = (Ok s', r1)) ctx (map a_auth (b_actions b)) oks c1 /\
      step c1 (b_auth b) = Panic why.
  Proof.
    intros R T S V T' S' E b ctx sa st why NE.
    destruct (try_map_cases _ _ _ _ _ _ _ b ctx sa st NE) as [(pre & s & post & oks & c1 & e1 & c2 & SP & G & F & ->)|(acts & c1 & G & EF & ->)];
      [discriminate|].
    destruct (st c1 (b_auth b)) as [[[t|e1] c2]|w|] eqn:ST; try discriminate. intro H. injection H as <-.
    exists (map a_auth acts), c1. split; [exact G|exact ST].
  Qed.

  Lemma try_map_balance : forall T S V W E (f : V -> result E W) (b : bundle T S V),
    (forall e, try_map_value_balance f b = Err e <-> f (b_value_balance b) = Err e) /\
    (forall b', try_map_value_balance f b = Ok b' <->
       f (b_value_balance b) = Ok (b_value_balance b') /\ b_actions b' = b_actions b /\ b_flags b' = b_flags b /\
       b_anchor b' = b_anchor b /\ b_auth b' = b_auth b).
  Proof.
    intros T S V W E f b. unfold try_map_value_balance. destruct (f (b_value_balance b)) as [w|e] eqn:F; split.
    - intro e. split; discriminate.
    - intro b'. split.
      + intro H. injection H as <-. cbn. repeat split.
      + intros (H & HA & HF & HN & HU). injection H as ->. destruct b' as [a' f' v' n' u']. cbn in *. congruence.
    - intro e'. split; intro H; injection H as ->; reflexivity.
    - intro b'. split; [discriminate|]. intros (H & _). discriminate.
  Qed.

  Lemma try_map_balance_commitment : forall T S V W E (f : V -> result E W) (b : bundle T S V) b' (into : V -> Z) (into' : W -> Z),
    try_map_value_balance f b = Ok b' -> into' (b_value_balance b') = into (b_value_balance b) ->
    bundle_commitment into' b' = bundle_commitment into b /\ to_instances b' = to_instances b /\
    binding_validating_key into' b' = binding_validating_key into b.
  Proof.
    intros T S V W E f b b' into into' H I. apply try_map_balance in H. destruct H as (_ & HA & HF & HN & _).
    unfold bundle_commitment, txid_data, to_instances, binding_validating_key. rewrite I, HA, HF, HN.
    split; [reflexivity|]. split; reflexivity.
  Qed.

  Lemma instances_of_effects : forall T S T' S' V (b : bundle T S V) (b' : bundle T' S' V),
    effects b = effects b' -> to_instances b = to_instances b'.
  Proof.
    intros T S T' S' V b b' H. unfold effects in H. injection H as HA HF HV HN. unfold to_instances. rewrite HF, HN.
    assert (G : forall A (l : list (action A)), map (fun a => to_instance a (b_flags b') (b_anchor b')) l =
      map (fun a => to_instance a (b_flags b') (b_anchor b')) (map action_effects l)).
    { intros A l. rewrite map_map. apply map_ext. intro a. reflexivity. }
    rewrite (G S), (G S'), HA. reflexivity.
  Qed.
  Lemma key_of_effects : forall T S T' S' V (into : V -> Z) (b : bundle T S V) (b' : bundle T' S' V),
    effects b = effects b' -> binding_validating_key into b = binding_validating_key into b'.
  Proof.
    intros T S T' S' V into b b' H. unfold effects in H. injection H as HA HF HV HN. unfold binding_validating_key. rewrite HV.
    apply (f_equal (map a_cv)) in HA. rewrite !map_map in HA. cbn [action_effects a_cv] in HA.
    change (map a_cv (b_actions b) = map a_cv (b_actions b')) in HA. rewrite HA. reflexivity.
  Qed.

  Lemma map_authorization_same : forall R T S V T' S' (b : bundle T S V) (ctx : R)
    (spend_auth : R -> T -> S -> S' * R) (step : R -> T -> T' * R) (into : V -> Z),
    let b' := fst (map_authorization b ctx spend_auth step) in
    bundle_commitment into b' = bundle_commitment into b /\ to_instances b' = to_instances b /\
    binding_validating_key into b' = binding_validating_key into b.
  Proof.
    intros R T S V T' S' b ctx sa st into b'. destruct (map_authorization b ctx sa st) as [b1 c1] eqn:M.
    subst b'. cbn [fst]. destruct (map_authorization_maps _ _ _ _ _ _ _ _ _ _ _ _ M) as [H _].
    split; [exact (commitment_of_effects _ _ _ _ _ into _ _ H)|]. split; [exact (instances_of_effects _ _ _ _ _ _ _ H)|].
    exact (key_of_effects _ _ _ _ _ into _ _ H).
  Qed.
End MapFacts.

(** A callback that numbers the two signatures of the toy bundle, and one that fails on the second. *)
Definition number_it (n : nat) (_ : authorized) (s : signature) : (nat * signature) * nat := ((n, s), S n).
Definition number_one (n : nat) (_ : authorized) (s : signature) : result nat (nat * signature) * nat :=
  (if Nat.eqb n 7 then Ok (n, s) else Err n, S n).
Definition count_all (n : nat) (u : authorized) : (nat * authorized) * nat := ((n, u), n).
Definition keep_auth (n : nat) (u : authorized) : outcome (result nat authorized * nat) := Ret (Ok u, n).

Lemma toy_numbers : exists b' s0 s1,
  map a_auth (b_actions toy_bundle) = [s0; s1] /\
  map_authorization toy_bundle 7%nat number_it count_all = (b', 9%nat) /\
  map a_auth (b_actions b') = [(7%nat, s0); (8%nat, s1)] /\ fst (b_auth b') = 9%nat.
Proof. do 3 eexists. split; [reflexivity|]. split; [reflexivity|]. split; reflexivity. Qed.
Lemma toy_fails : try_map_authorization toy_bundle 7%nat number_one keep_auth = Ret (Err 8%nat, 9%nat).
Proof. reflexivity. Qed.
Lemma toy_fits : exists b', try_map_value_balance (fun v => if v <? 100 then Ok (Z.to_nat v) else Err v) toy_bundle = Ok b' /\
  Z.of_nat (b_value_balance b') = b_value_balance toy_bundle.
Proof. eexists. split; reflexivity. Qed.
