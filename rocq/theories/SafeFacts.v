(** Proofs for C99. *)
From Coq Require Import String ZArith List Bool Lia.
From Coq Require Import Init.Byte.
From Verif Require Import Prelude PreludeFacts Fields Curve CurveFacts Oracles Spec Sinsemilla SinsSpec RedPallas Value Keys KeysSpec Note NoteSpec Tree TreeSpec Action
  NoteEnc NoteEncSpec Bundle BundleSpec Batch Builder Signing BuilderSpec SigningSpec Circuit CircuitSpec PipelineSpec LedgerSpec LedgerFacts
  WalletSpec WalletFacts BackedSpec LifeSpec BalanceSpec BalanceFacts PurseSpec PurseFacts MempoolSpec MempoolFacts SafeSpec.
Import ListNotations.
Open Scope Z_scope.

Lemma filter_none : forall A (p : A -> bool) l, (forall x, In x l -> p x = false) -> filter p l = [].
Proof.
  intros A p. induction l as [|x l IH]; intro H; cbn [filter]; [reflexivity|]. rewrite (H x (or_introl eq_refl)). apply IH.
  intros y Hy. apply H. right. exact Hy.
Qed.
Lemma indexed_app : forall A (l l' : list A) k,
  List.combine (seq k (length (l ++ l'))) (l ++ l') = List.combine (seq k (length l)) l ++ List.combine (seq (k + length l) (length l')) l'.
Proof.
  intros A l l'. induction l as [|x l IH]; intro k; cbn [app length seq List.combine].
  - rewrite Nat.add_0_r. reflexivity.
  - rewrite IH. replace (k + S (length l))%nat with (S k + length l)%nat by lia. reflexivity.
Qed.

#[local] Opaque opens note_nullifier try_note_decryption spends_own signed_by_owner nullifier_relation foreign_opening tree_root leaves_of node commitment diversify_hash cells_witness.
Section Safe.
  Context {C : Curve} {OR : @Oracles C} {V : Type}.
  Notation tx := (@tx C V).

  Lemma chain_nfs : forall h : list tx, flat_map tx_nfs h = map a_nf (chain_actions h).
  Proof. induction h as [|t h IH]; [reflexivity|]. unfold chain_actions in *. cbn [flat_map]. rewrite map_app, <- IH. reflexivity. Qed.
  Lemma spent_app : forall f l l' n, spent_in f (l ++ l') n = spent_in f l n || spent_in f l' n.
  Proof. intros f l l' n. unfold spent_in. destruct (note_nullifier n f); [apply existsb_app|reflexivity|reflexivity]. Qed.
  Lemma coin_where : forall f N (l : list (nat * action signature)) c, In c (flat_map (coin f N) l) -> exists a, In (fst c, a) l.
  Proof.
    intros f N l c H. apply in_flat_map in H as ([p a] & H1 & H2). unfold coin in H2. cbn [fst snd] in H2.
    destruct (opens f a) as [n|]; [|destruct H2]. destruct (spent_in f N n); [destruct H2|]. destruct H2 as [<-|[]]. exists a. exact H1.
  Qed.
  Lemma coin_later : forall f N N' (l : list (nat * action signature)),
    flat_map (coin f (N ++ N')) l = filter (fun c => negb (spent_in f N' (snd c))) (flat_map (coin f N) l).
  Proof.
    intros f N N' l. induction l as [|[p a] l IH]; [reflexivity|]. cbn [flat_map]. rewrite filter_app, <- IH. f_equal.
    unfold coin. cbn [fst snd]. destruct (opens f a) as [n|]; [|reflexivity]. rewrite spent_app.
    destruct (spent_in f N n); [reflexivity|]. cbn [orb filter snd]. destruct (spent_in f N' n); reflexivity.
  Qed.

  Lemma coins_app : forall f (h0 h1 : list tx),
    coins f (h0 ++ h1) = filter (fun c => negb (spent_in f (flat_map tx_nfs h1) (snd c))) (coins f h0) ++ arrived f h0 h1.
  Proof.
    intros f h0 h1. unfold arrived.
    assert (E : exists l, coins f (h0 ++ h1) = filter (fun c => negb (spent_in f (flat_map tx_nfs h1) (snd c))) (coins f h0) ++ l /\
      forall c, In c l -> (length (chain_actions h0) <= fst c)%nat).
    { unfold coins. assert (EA : chain_actions (h0 ++ h1) = chain_actions h0 ++ chain_actions h1) by apply flat_map_app.
      rewrite EA, indexed_app, flat_map_app, map_app, coin_later, <- chain_nfs. eexists. split; [reflexivity|].
      intros c H. apply coin_where in H as (a & H). apply in_indexed in H as [H _]. exact H. }
    destruct E as (l & E & B). rewrite E at 2. rewrite filter_app, (filter_none _ _ (filter _ (coins f h0))).
    - cbn [app]. rewrite (filter_all _ _ l); [exact E|]. intros c H. apply Nat.leb_le. exact (B c H).
    - intros c H. apply filter_In in H as [H _]. apply coin_in in H as (a & H & _).
      apply Nat.leb_gt. apply nth_error_Some. congruence.
  Qed.

  Lemma value_split : forall (p : nat * note -> bool) l, value_of l = value_of (filter p l) + value_of (filter (fun c => negb (p c)) l).
  Proof.
    intros p l. unfold value_of. induction l as [|c l IH]; [reflexivity|]. cbn [filter map zsum]. destruct (p c); cbn [negb map zsum]; lia.
  Qed.
  Lemma value_app : forall l l', value_of (l ++ l') = value_of l + value_of l'.
  Proof. intros l l'. unfold value_of. rewrite map_app. apply zsum_app. Qed.

  Lemma exact_change : forall f (h0 h1 : list tx),
    coins f (h0 ++ h1) = filter (fun c => negb (spent_in f (flat_map tx_nfs h1) (snd c))) (coins f h0) ++ arrived f h0 h1 /\
    balance f (h0 ++ h1) = balance f h0 - value_of (taken f h0 h1) + value_of (arrived f h0 h1).
  Proof.
    intros f h0 h1. pose proof (coins_app f h0 h1) as E. split; [exact E|].
    rewrite <- !coins_value, E, value_app. rewrite (value_split (fun c => spent_in f (flat_map tx_nfs h1) (snd c)) (coins f h0)).
    unfold taken. lia.
  Qed.

  Variable L : CurveLaws C.
  Variables (halo2_verify : bytes -> list (list Z) -> bool) (into : V -> Z)
    (extract : bytes -> list (list Z) -> list action_cells) (sx bx : point -> bytes -> signature -> Z).
  Hypotheses (XC : finds_cells halo2_verify extract) (XS : finds_keys SpendAuth sx) (XB : finds_keys Binding bx).

  Lemma revealed_later : forall f s n nf (h0 h1 : list tx) t a w, note_nullifier n f = Ret nf -> ~ In nf (map a_nf (chain_actions h0)) ->
    In t (h0 ++ h1) -> In a (b_actions (fst t)) -> a_nf a = nf -> In w (map cells_witness (cells_of extract t)) ->
    ((spends_own f n w /\ signed_by_owner f (sx (a_rk a) (snd t) (a_auth a) - w_alpha w)) \/
     nullifier_relation (spent_secret w) (own_secret f n) \/ foreign_opening f s w) ->
    exists t a w, In t h1 /\ reveals extract f n t a w /\ (by_owner sx f n t a w \/ by_relation f n w).
  Proof using.
    intros f s n nf h0 h1 t a w EN NI HT HA NF HW X. exists t, a, w. split.
    - apply in_app_or in HT as [HT|HT]; [|exact HT]. exfalso. apply NI. rewrite <- NF. apply in_map. apply in_flat_map. exists t. split; assumption.
    - split; [split; [exact HA|]; split; [exact (eq_trans EN (f_equal (@Ret Z) (eq_sym NF)))|exact HW]|].
      destruct X as [X|[X|X]]; [left; exact X|right; left; exact X|right; right; exists s; exact X].
  Qed.

  Lemma coin_wallet : forall f (h : list tx) lg c, gd_fallback_ok -> fvk_ok f -> reached halo2_verify into h lg -> In c (coins f h) ->
    exists s, in_wallet f s (snd c).
  Proof using L.
    intros f h lg c GD KF RE HC. apply coin_in in HC as (a0 & NA & OP & _).
    destruct (chain_lists halo2_verify into h lg RE) as (_ & _ & AO & _).
    destruct (opens_sound L _ f a0 (snd c) GD KF (proj1 (Forall_forall _ _) AO a0 (nth_error_In _ _ NA)) OP) as (KN & _ & _ & (s & k & HK & OW)).
    exists s. split; [exact KN|]. exists k. split; assumption.
  Qed.
  Lemma spent_somewhere : forall f n l, spent_in f l n = true -> exists nf, note_nullifier n f = Ret nf /\ In nf l.
  Proof using.
    intros f n l H. unfold spent_in in H.
    destruct (note_nullifier n f) as [nf| |]; [|discriminate H|discriminate H]. apply existsb_exists in H as (x & IX & EX). apply Z.eqb_eq in EX.
    subst x. exists nf. split; [reflexivity|exact IX].
  Qed.
  Lemma spent_nowhere : forall f n l nf, spent_in f l n = false -> note_nullifier n f = Ret nf -> ~ In nf l.
  Proof using.
    intros f n l nf H E I. unfold spent_in in H. rewrite E in H.
    assert (T : existsb (Z.eqb nf) l = true) by (apply existsb_exists; exists nf; split; [exact I|apply Z.eqb_refl]).
    rewrite T in H. discriminate H.
  Qed.

  #[local] Opaque spent_in.
  Lemma taken_by_owner : forall f (h0 : list tx) lg0 h1 lg c, gd_fallback_ok -> fvk_ok f -> reached halo2_verify into h0 lg0 ->
    applied halo2_verify into lg0 h1 lg -> In c (taken f h0 h1) ->
    (exists t a w, In t h1 /\ reveals extract f (snd c) t a w /\ (by_owner sx f (snd c) t a w \/ by_relation f (snd c) w)) \/
    break into extract bx (h0 ++ h1).
  Proof using L XC XS XB.
    intros f h0 lg0 h1 lg c GD KF R0 AP HC. unfold taken in HC. apply filter_In in HC as [HC HT].
    pose proof (applied_reached _ _ _ _ _ AP h0 R0) as RE.
    destruct (coin_wallet f h0 lg0 c GD KF R0 HC) as (s & IW).
    apply coin_in in HC as (a0 & _ & _ & NS). destruct (spent_somewhere f (snd c) _ HT) as (nf & EN & IX).
    pose proof (spent_nowhere f (snd c) _ nf NS EN) as NI.
    destruct (applied_lists _ _ _ _ _ AP) as (E1 & _).
    assert (IN : In nf (lg_nfs lg)) by (rewrite E1; apply in_or_app; right; exact IX).
    destruct (only_owner_nullifies L halo2_verify into extract sx bx XC XS XB f s (snd c) nf (h0 ++ h1) lg KF IW EN RE IN)
      as [(t & a & w & HT' & HA & NF & HW & X)|B]; [|right; exact B].
    left. exact (revealed_later f s (snd c) nf h0 h1 t a w EN NI HT' HA NF HW X).
  Qed.

  Lemma arrived_nonneg : forall f (h0 : list tx) h1 lg, gd_fallback_ok -> fvk_ok f -> reached halo2_verify into (h0 ++ h1) lg -> 0 <= value_of (arrived f h0 h1).
  Proof using L.
    intros f h0 h1 lg GD KF RE. destruct (chain_lists halo2_verify into (h0 ++ h1) lg RE) as (_ & _ & AO & _).
    assert (G : forall l, incl l (coins f (h0 ++ h1)) -> 0 <= value_of l).
    { intro l. induction l as [|c l IH]; intro H; [apply Z.le_refl|]. unfold value_of in *. cbn [map zsum].
      assert (0 <= n_value (snd c)).
      { assert (I : In c (coins f (h0 ++ h1))) by (apply H; left; reflexivity). apply coin_in in I as (a & NA & OP & _).
        destruct (opens_sound L _ f a (snd c) GD KF (proj1 (Forall_forall _ _) AO a (nth_error_In _ _ NA)) OP) as (KN & _).
        exact (proj1 (no_value _ KN)). }
      specialize (IH (fun x I => H x (or_intror I))). lia. }
    apply G. intros c H. apply filter_In in H as [H _]. exact H.
  Qed.

  Lemma no_loss : forall f (h0 : list tx) lg0 h1 lg, gd_fallback_ok -> fvk_ok f -> reached halo2_verify into h0 lg0 ->
    applied halo2_verify into lg0 h1 lg ->
    balance f h0 <= balance f (h0 ++ h1) \/
    (exists c t a w, In c (coins f h0) /\ In t h1 /\ reveals extract f (snd c) t a w /\ (by_owner sx f (snd c) t a w \/ by_relation f (snd c) w)) \/
    break into extract bx (h0 ++ h1).
  Proof using L XC XS XB.
    intros f h0 lg0 h1 lg GD KF R0 AP. destruct (taken f h0 h1) as [|c l] eqn:ET.
    - left. rewrite (proj2 (exact_change f h0 h1)), ET.
      pose proof (arrived_nonneg f h0 h1 lg GD KF (applied_reached _ _ _ _ _ AP h0 R0)) as P. change (value_of []) with 0. clear -P. lia.
    - right. assert (IC : In c (taken f h0 h1)) by (rewrite ET; left; reflexivity).
      destruct (taken_by_owner f h0 lg0 h1 lg c GD KF R0 AP IC) as [(t & a & w & X)|B]; [left|right; exact B].
      exists c, t, a, w. split; [|exact X]. unfold taken in IC. apply filter_In in IC as [IC _]. exact IC.
  Qed.
End Safe.
