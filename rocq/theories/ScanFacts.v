(** Proofs for C100. *)
From Coq Require Import String ZArith List Bool Lia.
From Coq Require Import Init.Byte.
From Verif Require Import Prelude PreludeFacts Fields Curve CurveFacts Oracles Spec Sinsemilla SinsSpec RedPallas Value Keys KeysSpec Note NoteSpec Tree TreeSpec Action
  NoteEnc NoteEncSpec Bundle BundleSpec Batch Builder Signing BuilderSpec SigningSpec Circuit CircuitSpec PipelineSpec LedgerSpec LedgerFacts
  WalletSpec WalletFacts BackedSpec LifeSpec BalanceSpec BalanceFacts PurseSpec PurseFacts MempoolSpec MempoolFacts SafeSpec SafeFacts ScanSpec.
Import ListNotations.
Open Scope Z_scope.

Lemma filter_filter_comm : forall A (p q : A -> bool) l, filter p (filter q l) = filter q (filter p l).
Proof.
  intros A p q. induction l as [|x l IH]; [reflexivity|]. cbn [filter]. destruct (p x) eqn:P, (q x) eqn:Q; cbn [filter]; rewrite ?P, ?Q, ?IH; reflexivity.
Qed.
Lemma firstn_short : forall A n (l l' : list A), (n <= length l)%nat -> firstn n (l ++ l') = firstn n l.
Proof. intros A n l l' H. rewrite firstn_app. replace (n - length l)%nat with 0%nat by lia. cbn [firstn]. apply app_nil_r. Qed.

#[local] Opaque opens note_nullifier try_note_decryption tree_root leaves_of node commitment diversify_hash.
Section Scan.
  Context {C : Curve} {OR : @Oracles C} {V : Type}.
  Notation tx := (@tx C V).

  (** The coins of a list of actions. *)
  Definition coins_in (f : fvk) (l : list (action signature)) : list (nat * note) :=
    flat_map (coin f (map a_nf l)) (List.combine (seq 0 (length l)) l).
  Lemma coins_is : forall f (h : list tx), coins f h = coins_in f (chain_actions h). Proof. reflexivity. Qed.
  Lemma coins_snoc : forall f l a,
    coins_in f (l ++ [a]) = filter (fun c => negb (spent_in f [a_nf a] (snd c))) (coins_in f l) ++ coin f (map a_nf l ++ [a_nf a]) (length l, a).
  Proof.
    intros f l a. unfold coins_in. rewrite indexed_app, flat_map_app, map_app. cbn [map]. rewrite coin_later. f_equal.
    cbn [length seq List.combine flat_map Nat.add]. apply app_nil_r.
  Qed.

  Lemma scan_chain : forall f (h : list tx) w, scan f w h = fold_left (scan_action f) (chain_actions h) w.
  Proof.
    intros f h. unfold scan. induction h as [|t h IH]; intro w; [reflexivity|]. cbn [fold_left]. rewrite IH.
    change (chain_actions (t :: h)) with (b_actions (fst t) ++ chain_actions h). rewrite fold_left_app. reflexivity.
  Qed.
  Lemma scan_next : forall f l w, wl_next (fold_left (scan_action f) l w) = (wl_next w + length l)%nat.
  Proof. intros f l. induction l as [|a l IH]; intro w; cbn [fold_left length]; [lia|]. rewrite IH. cbn [scan_action wl_next]. lia. Qed.

  Lemma scan_keeps : forall f (keep : note -> bool) l,
    (forall i a n, nth_error l i = Some a -> opens f a = Some n -> keep n = true -> spent_in f (map a_nf (firstn (S i) l)) n = false) ->
    filter (fun c => keep (snd c)) (wl_notes (fold_left (scan_action f) l wallet_new)) = filter (fun c => keep (snd c)) (coins_in f l).
  Proof.
    intros f keep l. induction l as [|a l IH] using rev_ind; intro H; [reflexivity|].
    rewrite fold_left_app, coins_snoc. cbn [fold_left]. unfold scan_action at 1. cbn [wl_notes]. rewrite !filter_app, filter_filter_comm, IH.
    - rewrite filter_filter_comm. f_equal. rewrite scan_next. cbn [wallet_new wl_next Nat.add].
      unfold coin. cbn [fst snd]. destruct (opens f a) as [n|] eqn:E; [|reflexivity].
      cbn [filter snd]. destruct (keep n) eqn:K.
      + assert (NE : nth_error (l ++ [a]) (length l) = Some a) by (rewrite nth_error_app2, Nat.sub_diag by apply Nat.le_refl; reflexivity).
        pose proof (H (length l) a n NE E K) as X.
        rewrite firstn_all2 in X by (rewrite app_length; cbn [length]; lia). rewrite map_app in X. cbn [map] in X. rewrite X. cbn [filter snd]. rewrite K. reflexivity.
      + destruct (spent_in f (map a_nf l ++ [a_nf a]) n); cbn [filter snd]; [reflexivity|rewrite K; reflexivity].
    - intros i b n NB O K. assert (LI : (i < length l)%nat) by (apply nth_error_Some; congruence).
      specialize (H i b n). rewrite nth_error_app1 in H by exact LI. rewrite firstn_short in H by lia. exact (H NB O K).
  Qed.

  (** Whether some note is found too late. *)
  Lemma late_or_not : forall f (keep : note -> bool) (l : list (action signature)),
    (forall i a n, nth_error l i = Some a -> opens f a = Some n -> keep n = true -> spent_in f (map a_nf (firstn (S i) l)) n = false) \/
    (exists i a n, nth_error l i = Some a /\ opens f a = Some n /\ keep n = true /\ spent_in f (map a_nf (firstn (S i) l)) n = true).
  Proof.
    intros f keep l. induction l as [|a l IH] using rev_ind; [left; intros [|i] a n H; discriminate H|].
    destruct IH as [IH|(i & b & n & NB & X)].
    - assert (D : (exists n, opens f a = Some n /\ keep n = true /\ spent_in f (map a_nf (l ++ [a])) n = true) \/
                  (forall n, opens f a = Some n -> keep n = true -> spent_in f (map a_nf (l ++ [a])) n = false)).
      { destruct (opens f a) as [n|]; [|right; intros n H; discriminate H]. destruct (keep n) eqn:K.
        - destruct (spent_in f (map a_nf (l ++ [a])) n) eqn:E; [left; exists n; split; [reflexivity|split; assumption]|].
          right. intros m H _. assert (m = n) by congruence. subst m. exact E.
        - right. intros m H KM. assert (m = n) by congruence. subst m. congruence. }
      assert (FA : firstn (S (length l)) (l ++ [a]) = l ++ [a]) by (apply firstn_all2; rewrite app_length; cbn [length]; lia).
      destruct D as [(n & O & K & S)|D].
      + right. exists (length l), a, n. split; [rewrite nth_error_app2, Nat.sub_diag by apply Nat.le_refl; reflexivity|]. rewrite FA. split; [exact O|split; assumption].
      + left. intros i b n NB O K. destruct (Nat.lt_ge_cases i (length l)) as [LI|GI].
        * rewrite nth_error_app1 in NB by exact LI. rewrite firstn_short by lia. exact (IH i b n NB O K).
        * assert (i = length l).
          { assert (i < length (l ++ [a]))%nat by (apply nth_error_Some; congruence). rewrite app_length in *. cbn [length] in *. lia. }
          subst i. rewrite nth_error_app2, Nat.sub_diag in NB by apply Nat.le_refl. cbn [nth_error] in NB. assert (b = a) by congruence. subst b.
          rewrite FA. exact (D n O K).
    - right. exists i, b, n. assert (LI : (i < length l)%nat) by (apply nth_error_Some; congruence).
      rewrite nth_error_app1 by exact LI. rewrite firstn_short by lia. split; [exact NB|exact X].
  Qed.

  Lemma scan_resumes : forall f w (h0 h1 : list tx), scan f w (h0 ++ h1) = scan f (scan f w h0) h1.
  Proof. intros f w h0 h1. unfold scan. apply fold_left_app. Qed.

  Lemma filter_true : forall A (l : list A), filter (fun _ => true) l = l.
  Proof. intros A l. apply filter_all. reflexivity. Qed.
  Lemma scan_finds : forall f (h : list tx), scan f wallet_new h = mk_wallet (length (chain_actions h)) (coins f h) \/ found_too_late f h.
  Proof.
    intros f h. destruct (late_or_not f (fun _ => true) (chain_actions h)) as [H|(i & a & n & NB & O & _ & S)].
    - left. rewrite scan_chain. pose proof (scan_keeps f (fun _ => true) _ H) as E. cbv beta in E. rewrite !filter_true in E.
      pose proof (scan_next f (chain_actions h) wallet_new) as N. rewrite coins_is. cbn [wallet_new wl_next Nat.add] in N.
      destruct (fold_left (scan_action f) (chain_actions h) wallet_new) as [k l]. cbn [wl_next wl_notes] in *. congruence.
    - right. destruct (spent_somewhere f n _ S) as (nf & EN & I). exists i, a, n, nf. split; [exact NB|]. split; [exact O|]. split; [exact EN|exact I].
  Qed.

  Lemma value_filter : forall l, value_of l = value_of (filter (fun c => negb (n_value (snd c) =? 0)) l).
  Proof.
    intro l. unfold value_of. induction l as [|c l IH]; [reflexivity|]. cbn [map zsum filter]. rewrite IH.
    destruct (Z.eqb_spec (n_value (snd c)) 0) as [->|]; cbn [negb map zsum]; reflexivity.
  Qed.
  Lemma scan_value : forall f (h : list tx),
    value_of (wl_notes (scan f wallet_new h)) = balance f h \/
    (exists i a n nf, nth_error (chain_actions h) i = Some a /\ opens f a = Some n /\ n_value n <> 0 /\ note_nullifier n f = Ret nf /\
       In nf (map a_nf (firstn (S i) (chain_actions h)))).
  Proof.
    intros f h. destruct (late_or_not f (fun n => negb (n_value n =? 0)) (chain_actions h)) as [H|(i & a & n & NB & O & K & S)].
    - left. rewrite scan_chain, <- coins_value, coins_is, value_filter. pose proof (scan_keeps f _ _ H) as E. cbv beta in E. rewrite E.
      symmetry. apply value_filter.
    - right. destruct (spent_somewhere f n _ S) as (nf & EN & I). exists i, a, n, nf. split; [exact NB|]. split; [exact O|].
      split; [apply Z.eqb_neq; apply negb_true_iff; exact K|]. split; [exact EN|exact I].
  Qed.

  (** The transaction of a position. *)
  Lemma chain_position : forall (h : list tx) i a, nth_error (chain_actions h) i = Some a ->
    exists h1 t h2, h = h1 ++ t :: h2 /\ In a (b_actions (fst t)) /\ incl (firstn (S i) (chain_actions h)) (chain_actions (h1 ++ [t])).
  Proof.
    intros h. induction h as [|t h IH] using rev_ind; intros i a H; [destruct i; discriminate H|].
    rewrite chain_app, chain_one in H. destruct (Nat.lt_ge_cases i (length (chain_actions h))) as [LI|GI].
    - rewrite nth_error_app1 in H by exact LI. destruct (IH i a H) as (h1 & t1 & h2 & -> & I & J). exists h1, t1, (h2 ++ [t]).
      split; [rewrite <- app_assoc; reflexivity|]. split; [exact I|]. rewrite chain_app, firstn_short by lia. exact J.
    - rewrite nth_error_app2 in H by exact GI. exists h, t, []. split; [reflexivity|]. split; [exact (nth_error_In _ _ H)|].
      intros x X. rewrite <- (firstn_skipn (S i) (chain_actions (h ++ [t]))). apply in_or_app. left. exact X.
  Qed.

  Variable L : CurveLaws C.
  Variables (halo2_verify : bytes -> list (list Z) -> bool) (into : V -> Z)
    (extract : bytes -> list (list Z) -> list action_cells) (sx bx : point -> bytes -> signature -> Z).
  Hypotheses (XC : finds_cells halo2_verify extract) (XS : finds_keys SpendAuth sx) (XB : finds_keys Binding bx).

  Lemma reached_prefix : forall h1 (t : tx) h2 lg, reached halo2_verify into (h1 ++ t :: h2) lg ->
    exists lg1, reached halo2_verify into h1 lg1 /\ accepts halo2_verify into lg1 t.
  Proof using.
    intros h1 t h2. induction h2 as [|x h2 IH] using rev_ind; intros lg H.
    - remember (h1 ++ [t]) as l eqn:E. destruct H as [|h' lg0 t' H A]; [destruct h1; discriminate E|].
      apply app_inj_tail in E as [-> ->]. exists lg0. split; assumption.
    - replace (h1 ++ t :: h2 ++ [x]) with ((h1 ++ t :: h2) ++ [x]) in H by (rewrite <- app_assoc; reflexivity).
      remember ((h1 ++ t :: h2) ++ [x]) as l eqn:E. destruct H as [|h' lg0 t' H A]; [destruct h1; discriminate E|].
      apply app_inj_tail in E as [-> ->]. exact (IH lg0 H).
  Qed.

  Lemma scan_balance : forall f (h : list tx) lg, gd_fallback_ok -> fvk_ok f -> reached halo2_verify into h lg ->
    value_of (wl_notes (scan f wallet_new h)) = balance f h \/
    (exists h1 t h2 a n, h = h1 ++ t :: h2 /\ In a (b_actions (fst t)) /\ opens f a = Some n /\
       ((exists x, In x (acts extract (h1 ++ [t])) /\
           (nullifier_relation (spent_secret (snd x)) (own_secret f n) \/ exists s, foreign_opening f s (snd x))) \/
        break into extract bx (h1 ++ [t]))).
  Proof using L XC XS XB.
    intros f h lg GD KF RE. destruct (scan_value f h) as [E|(i & a & n & nf & NB & O & NZ & EN & I)]; [left; exact E|right].
    destruct (chain_position h i a NB) as (h1 & t & h2 & EH & IA & IC). exists h1, t, h2, a, n. split; [exact EH|]. split; [exact IA|]. split; [exact O|].
    rewrite EH in RE. destruct (reached_prefix h1 t h2 lg RE) as (lg1 & R1 & A1).
    destruct (not_born_spent L halo2_verify into extract sx bx XC XS XB f h1 lg1 t a n nf GD KF R1 A1 IA O NZ EN) as [X|X]; [|exact X].
    exfalso. apply X. apply in_map_iff in I as (b & NFB & IB). rewrite <- NFB. apply in_map. exact (IC b IB).
  Qed.
End Scan.
