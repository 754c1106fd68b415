(** Proofs for C95. *)
From Coq Require Import String ZArith List Bool Lia Permutation.
From Coq Require Import Init.Byte.
From Verif Require Import Prelude PreludeFacts Fields Curve Oracles Spec Value Keys Note Tree TreeSpec Action NoteEnc Bundle Batch BundleSpec LedgerSpec WalletSpec
  BalanceSpec BalanceFacts MempoolSpec.
Import ListNotations.
Open Scope Z_scope.

Lemma zsum_permutation : forall l l', Permutation l l' -> zsum l = zsum l'.
Proof. intros l l' H. induction H; cbn [zsum]; lia. Qed.
Lemma nodup_app_iff : forall A (l l' : list A), NoDup (l ++ l') <-> NoDup l /\ NoDup l' /\ forall x, In x l -> ~ In x l'.
Proof.
  intros A l l'. induction l as [|x l IH]; cbn [app].
  - split; [intro H; split; [constructor|split; [exact H|intros x []]]|intros (_ & H & _); exact H].
  - split.
    + intro H. inversion H as [|? ? N D]; subst. apply IH in D as (D1 & D2 & D3). split; [|split; [exact D2|]].
      * constructor; [intro I; apply N, in_or_app; left; exact I|exact D1].
      * intros y [<-|I] J; [apply N, in_or_app; right; exact J|exact (D3 y I J)].
    + intros (D1 & D2 & D3). inversion D1 as [|? ? N D]; subst. constructor.
      * intro I. apply in_app_or in I as [I|I]; [exact (N I)|exact (D3 x (or_introl eq_refl) I)].
      * apply IH. split; [exact D|]. split; [exact D2|]. intros y I. exact (D3 y (or_intror I)).
Qed.
Lemma existsb_perm : forall (g : Z -> bool) l l', Permutation l l' -> existsb g l = existsb g l'.
Proof.
  intros g l l' H. apply eq_true_iff_eq. rewrite !existsb_exists. split; intros (x & I & E); exists x; (split; [|exact E]).
  - exact (Permutation_in x H I).
  - exact (Permutation_in x (Permutation_sym H) I).
Qed.

Section Mempool.
  Context {C : Curve} {OR : @Oracles C} {V : Type}.
  Variables (halo2_verify : bytes -> list (list Z) -> bool) (into : V -> Z).

  Lemma applied_reached : forall lg ts lg', applied halo2_verify into lg ts lg' -> forall h, reached halo2_verify into h lg ->
    reached halo2_verify into (h ++ ts) lg'.
  Proof.
    intros lg ts lg' H. induction H as [lg|lg t ts lg' A H IH]; intros h R; [rewrite app_nil_r; exact R|].
    assert (E : h ++ t :: ts = (h ++ [t]) ++ ts) by (rewrite <- app_assoc; reflexivity). rewrite E. apply IH. apply R_apply; assumption.
  Qed.
  Lemma applied_lists : forall lg ts lg', applied halo2_verify into lg ts lg' ->
    lg_nfs lg' = lg_nfs lg ++ flat_map tx_nfs ts /\
    lg_cmxs lg' = lg_cmxs lg ++ flat_map (fun t => map a_cmx (b_actions (fst t))) ts /\
    lg_pool lg' = lg_pool lg - zsum (map (fun t => into (b_value_balance (fst t))) ts).
  Proof.
    intros lg ts lg' H. induction H as [lg|lg t ts lg' A H IH]; cbn [flat_map map zsum].
    - rewrite !app_nil_r. split; [reflexivity|]. split; [reflexivity|lia].
    - destruct IH as (I1 & I2 & I3). cbn [apply lg_nfs lg_cmxs lg_pool] in I1, I2, I3. rewrite <- app_assoc in I1, I2.
      split; [exact I1|]. split; [exact I2|]. lia.
  Qed.
  Lemma size_cmxs : forall ts : list (@tx C V), length (flat_map (fun t => map a_cmx (b_actions (fst t))) ts) = list_sum (map tx_size ts).
  Proof.
    induction ts as [|t ts IH]; [reflexivity|]. cbn [flat_map map]. rewrite app_length, map_length, IH. reflexivity.
  Qed.

  (** Acceptance depends on the state only through the known roots, the revealed nullifiers and the space. *)
  Lemma accepts_later : forall lg lg' t x, accepts halo2_verify into lg t -> lg_cmxs lg' = lg_cmxs lg ++ x ->
    NoDup (lg_nfs lg' ++ tx_nfs t) -> Z.of_nat (length (lg_cmxs lg') + tx_size t) <= 2 ^ 32 -> accepts halo2_verify into lg' t.
  Proof.
    intros lg lg' t x [H1 H2 (n & N1 & N2) _ _] E ND SP. constructor; [exact H1|exact H2| |exact ND|exact SP].
    exists n. rewrite E. split; [rewrite app_length; lia|]. rewrite N2, firstn_app.
    replace (n - length (lg_cmxs lg))%nat with 0%nat by lia. cbn [firstn]. rewrite app_nil_r. reflexivity.
  Qed.

  Lemma reached_nodup : forall h lg, reached halo2_verify into h lg -> NoDup (lg_nfs lg).
  Proof. intros h lg H. destruct H as [|h lg t R A]; [constructor|]. exact (ac_nfs _ _ _ _ A). Qed.
  Lemma applied_nodup : forall lg ts lg', applied halo2_verify into lg ts lg' -> NoDup (lg_nfs lg) -> NoDup (lg_nfs lg').
  Proof. intros lg ts lg' H. induction H as [lg|lg t ts lg' A H IH]; intro N; [exact N|]. apply IH. exact (ac_nfs _ _ _ _ A). Qed.

  Lemma stays_valid : forall lg t ts lg', accepts halo2_verify into lg t -> applied halo2_verify into lg ts lg' ->
    (accepts halo2_verify into lg' t <->
     disjoint (tx_nfs t) (flat_map tx_nfs ts) /\ Z.of_nat (length (lg_cmxs lg') + tx_size t) <= 2 ^ 32).
  Proof.
    intros lg t ts lg' A P. destruct (applied_lists _ _ _ P) as (E1 & E2 & _).
    assert (N0 : NoDup (lg_nfs lg ++ tx_nfs t)) by exact (ac_nfs _ _ _ _ A).
    apply nodup_app_iff in N0 as (M1 & M2 & M3).
    split.
    - intros [_ _ _ ND SP]. split; [|exact SP]. rewrite E1 in ND. apply nodup_app_iff in ND as (_ & _ & D).
      intros x I J. apply (D x); [apply in_or_app; right; exact J|exact I].
    - intros [D SP]. apply (accepts_later lg lg' t _ A E2); [|exact SP].
      apply nodup_app_iff. split; [exact (applied_nodup _ _ _ P M1)|]. split; [exact M2|].
      intros x I J. rewrite E1 in I. apply in_app_or in I as [I|I]; [exact (M3 x I J)|exact (D x J I)].
  Qed.

  (** Transactions acceptable at one state are acceptable in a row exactly when they reveal different nullifiers and fit. *)
  Lemma applied_exactly : forall ts lg0 lg, (exists x, lg_cmxs lg = lg_cmxs lg0 ++ x) -> Forall (accepts halo2_verify into lg0) ts -> NoDup (lg_nfs lg) ->
    ((exists lg', applied halo2_verify into lg ts lg') <->
     NoDup (lg_nfs lg ++ flat_map tx_nfs ts) /\ (ts = [] \/ Z.of_nat (length (lg_cmxs lg) + list_sum (map tx_size ts)) <= 2 ^ 32)).
  Proof.
    induction ts as [|t ts IH]; intros lg0 lg (x & EX) FA N.
    - split; [intros _|intros _; exists lg; constructor]. cbn [flat_map]. rewrite app_nil_r. split; [exact N|left; reflexivity].
    - inversion FA as [|? ? A FB]; subst.
      assert (EY : exists y, lg_cmxs (apply into lg t) = lg_cmxs lg0 ++ y).
      { exists (x ++ map a_cmx (b_actions (fst t))). cbn [apply lg_cmxs]. rewrite EX, <- app_assoc. reflexivity. }
      cbn [flat_map map list_sum fold_right]. split.
      + intros (lg' & P). inversion P as [|? ? ? ? B P']; subst.
        pose proof (proj1 (IH lg0 (apply into lg t) EY FB (ac_nfs _ _ _ _ B)) (ex_intro _ lg' P')) as (D & S).
        cbn [apply lg_nfs lg_cmxs] in D, S. rewrite <- app_assoc in D. split; [exact D|right].
        pose proof (ac_space _ _ _ _ B) as SB. destruct S as [->|S]; [cbn [map list_sum fold_right]; unfold tx_size in *; lia|].
        rewrite app_length, map_length in S. unfold tx_size at 1. unfold list_sum in *. lia.
      + intros (D & [X|S]); [discriminate X|].
        assert (B : accepts halo2_verify into lg t).
        { apply (accepts_later lg0 lg t x A EX); [|unfold list_sum in *; lia]. rewrite app_assoc in D. apply nodup_app_iff in D. exact (proj1 D). }
        assert (W : exists lg', applied halo2_verify into (apply into lg t) ts lg').
        { apply (IH lg0 (apply into lg t) EY FB (ac_nfs _ _ _ _ B)). cbn [apply lg_nfs lg_cmxs]. rewrite <- app_assoc. split; [exact D|right].
          rewrite app_length, map_length. unfold tx_size in S at 1. unfold list_sum in *. lia. }
        destruct W as (lg' & P). exists lg'. constructor; assumption.
  Qed.

  Lemma chain_permutation : forall h h' : list (@tx C V), Permutation h h' -> Permutation (chain_actions h) (chain_actions h').
  Proof.
    intros h h' H. unfold chain_actions. induction H as [|t h h' H IH|t t' h|h h' h'' H1 IH1 H2 IH2]; cbn [flat_map].
    - constructor.
    - apply Permutation_app_head. exact IH.
    - rewrite !app_assoc. apply Permutation_app_tail. apply Permutation_app_comm.
    - exact (Permutation_trans IH1 IH2).
  Qed.
  Lemma flat_permutation : forall A (g : @tx C V -> list A) h h', Permutation h h' -> Permutation (flat_map g h) (flat_map g h').
  Proof.
    intros A g h h' H. induction H as [|t h h' H IH|t t' h|h h' h'' H1 IH1 H2 IH2]; cbn [flat_map].
    - constructor.
    - apply Permutation_app_head. exact IH.
    - rewrite !app_assoc. apply Permutation_app_tail. apply Permutation_app_comm.
    - exact (Permutation_trans IH1 IH2).
  Qed.
  Lemma worth_permutation : forall A f nfs nfs' (a : action A), Permutation nfs nfs' -> worth f nfs a = worth f nfs' a.
  Proof.
    intros A f nfs nfs' a H. unfold worth. destruct (opens f a) as [n|]; [|reflexivity].
    assert (E : spent_in f nfs n = spent_in f nfs' n).
    { unfold spent_in. destruct (note_nullifier n f); try reflexivity. apply existsb_perm. exact H. }
    rewrite E. reflexivity.
  Qed.
  Lemma balance_permutation : forall f (h h' : list (@tx C V)), Permutation h h' -> balance f h = balance f h'.
  Proof.
    intros f h h' H. apply chain_permutation in H. unfold balance.
    pose proof (Permutation_map a_nf H) as HN.
    rewrite (map_ext _ _ (fun a => worth_permutation _ f _ _ a HN)). apply zsum_permutation. apply Permutation_map. exact H.
  Qed.

  Lemma any_order : forall h lg ts ts' lg1, reached halo2_verify into h lg -> Forall (accepts halo2_verify into lg) ts ->
    applied halo2_verify into lg ts lg1 -> Permutation ts ts' ->
    exists lg2, applied halo2_verify into lg ts' lg2 /\ reached halo2_verify into (h ++ ts') lg2 /\
      lg_pool lg2 = lg_pool lg1 /\ Permutation (lg_nfs lg1) (lg_nfs lg2) /\ Permutation (lg_cmxs lg1) (lg_cmxs lg2) /\
      forall f, balance f (h ++ ts') = balance f (h ++ ts).
  Proof.
    intros h lg ts ts' lg1 R FA P PM. pose proof (reached_nodup _ _ R) as N.
    assert (X0 : exists x, lg_cmxs lg = lg_cmxs lg ++ x) by (exists []; rewrite app_nil_r; reflexivity).
    pose proof (proj1 (applied_exactly ts lg lg X0 FA N) (ex_intro _ lg1 P)) as (D & S).
    assert (FA' : Forall (accepts halo2_verify into lg) ts').
    { apply Forall_forall. intros t I. apply (proj1 (Forall_forall _ _) FA). exact (Permutation_in t (Permutation_sym PM) I). }
    assert (W : exists lg2, applied halo2_verify into lg ts' lg2).
    { apply (applied_exactly ts' lg lg X0 FA' N). split.
      - apply (Permutation_NoDup (l := lg_nfs lg ++ flat_map tx_nfs ts)); [|exact D]. apply Permutation_app_head. apply flat_permutation. exact PM.
      - destruct S as [->|S]; [left; apply Permutation_nil; exact PM|right].
        assert (E : list_sum (map tx_size ts') = list_sum (map tx_size ts)).
        { clear -PM. induction PM; cbn [map list_sum fold_right] in *; unfold list_sum in *; lia. }
        rewrite E. exact S. }
    destruct W as (lg2 & P2). exists lg2. split; [exact P2|]. split; [exact (applied_reached _ _ _ P2 h R)|].
    destruct (applied_lists _ _ _ P) as (E1 & E2 & E3). destruct (applied_lists _ _ _ P2) as (F1 & F2 & F3).
    split; [|split; [|split]].
    - rewrite E3, F3. f_equal. apply zsum_permutation. apply Permutation_map. apply Permutation_sym. exact PM.
    - rewrite E1, F1. apply Permutation_app_head. apply flat_permutation. exact PM.
    - rewrite E2, F2. apply Permutation_app_head. apply flat_permutation. exact PM.
    - intro f. apply balance_permutation. apply Permutation_app_head. apply Permutation_sym. exact PM.
  Qed.

  Lemma conflict : forall h1 t h2 t' h3 lg, reached halo2_verify into (h1 ++ t :: h2 ++ t' :: h3) lg -> disjoint (tx_nfs t) (tx_nfs t').
  Proof.
    intros h1 t h2 t' h3 lg R.
    assert (E : lg_nfs lg = flat_map tx_nfs (h1 ++ t :: h2 ++ t' :: h3)).
    { remember (h1 ++ t :: h2 ++ t' :: h3) as h eqn:X. clear X. induction R as [|h lg t0 R IH A]; [reflexivity|].
      rewrite flat_map_app. cbn [flat_map apply lg_nfs]. rewrite app_nil_r, IH. reflexivity. }
    pose proof (reached_nodup _ _ R) as N. rewrite E, flat_map_app in N. cbn [flat_map] in N. rewrite flat_map_app in N. cbn [flat_map] in N.
    apply nodup_app_iff in N as (_ & N & _). apply nodup_app_iff in N as (_ & _ & N). intros x I J. apply (N x I).
    apply in_or_app. right. apply in_or_app. left. exact J.
  Qed.

  Lemma together : forall h lg ts, reached halo2_verify into h lg -> Forall (accepts halo2_verify into lg) ts ->
    ((exists lg', applied halo2_verify into lg ts lg') <->
     NoDup (lg_nfs lg ++ flat_map tx_nfs ts) /\ (ts = [] \/ Z.of_nat (length (lg_cmxs lg) + list_sum (map tx_size ts)) <= 2 ^ 32)).
  Proof.
    intros h lg ts R FA. apply (applied_exactly ts lg lg); [|exact FA|exact (reached_nodup _ _ R)].
    exists []. rewrite app_nil_r. reflexivity.
  Qed.
End Mempool.
