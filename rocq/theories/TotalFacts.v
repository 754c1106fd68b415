(** Proofs for C96. *)
From Coq Require Import String ZArith List Bool Lia Arith.
From Coq Require Import Init.Byte.
From Verif Require Import Prelude PreludeFacts Fields Curve CurveFacts Oracles Spec Sinsemilla SinsSpec RedPallas Value Keys KeysSpec KeysFacts Note NoteSpec
  Tree TreeSpec Action NoteEnc NoteEncSpec Bundle BundleSpec Batch Builder Signing Circuit CircuitSpec PipelineSpec LedgerSpec LedgerFacts WalletSpec WalletFacts
  BackedSpec BackedFacts ReadersSpec ReadersFacts OwnerFacts LifeSpec BalanceSpec BalanceFacts PurseSpec PurseFacts TotalSpec.
Import ListNotations.
Open Scope Z_scope.

Section Total.
  Context {C : Curve} {OR : @Oracles C} {V : Type} (L : CurveLaws C).
  #[local] Opaque try_note_decryption fvk_to_ivk note_nullifier diversify_hash sins_hash_words sins_Q msg_words.

  Lemma opens_reads : forall A f (a : action A) n, fvk_ok f -> opens f a = Some n -> exists to memo, reads a (n, to, memo).
  Proof using L.
    intros A f a n K H. unfold opens in H.
    destruct (fvk_ok_to_ivk L f External K) as (e & HE & KE). destruct (fvk_ok_to_ivk L f Internal K) as (i & HI & KI).
    rewrite HE, HI in H.
    assert (X : (exists to m, try_note_decryption e a = Ret (Some (n, to, m))) \/ (exists to m, try_note_decryption i a = Ret (Some (n, to, m)))).
    { destruct (try_note_decryption e a) as [[[[n' to] m]|]| |]; [left; exists to, m; congruence|..];
        (destruct (try_note_decryption i a) as [[[[n' to] m]|]| |]; [right; exists to, m; congruence|..]; discriminate H). }
    destruct X as [(to & m & X)|(to & m & X)]; exists to, m; [exact (reads_incoming _ _ _ KE X)|exact (reads_incoming _ _ _ KI X)].
  Qed.

  Lemma common_place : forall f g (h : list (@tx C V)) p n n', gd_fallback_ok -> fvk_ok f -> fvk_ok g -> Forall action_ok (chain_actions h) -> differ f g ->
    In (p, n) (coins f h) -> In (p, n') (coins g h) -> shared f g h.
  Proof using L.
    intros f g h p n n' GD KF KG AO D I J. exists p, n, n'. split; [exact I|]. split; [exact J|].
    apply coin_in in I as (a & A1 & A2 & _). apply coin_in in J as (a' & A1' & A2' & _). cbn [fst snd] in *.
    assert (a' = a) by congruence. subst a'.
    pose proof (proj1 (Forall_forall _ _) AO a (nth_error_In _ _ A1)) as KA.
    destruct (opens_reads _ _ _ _ KF A2) as (to & m & R). destruct (opens_reads _ _ _ _ KG A2') as (to' & m' & R').
    destruct (readers_agree L _ _ _ _ _ _ _ _ GD KA R R') as [E|E]; [right|left; exact E].
    assert (n' = n) by congruence. subst n'.
    destruct (opens_sound L _ _ _ _ GD KF KA A2) as (KN & _ & _ & s & k & HK & O).
    destruct (opens_sound L _ _ _ _ GD KG KA A2') as (_ & _ & _ & s' & k' & HK' & O').
    pose proof (owned_derives L _ _ _ _ KN HK O) as D1. pose proof (owned_derives L _ _ _ _ KN HK' O') as D2.
    destruct (one_owner L _ _ _ _ _ GD KF KG D1 D2) as (r & r' & E1 & E2 & [(X & Y & _)|X]).
    - exfalso. destruct D as [D|D]; [exact (D X)|exact (D Y)].
    - exists s, s', r, r'. split; [exact E1|]. split; [exact E2|exact X].
  Qed.

  Lemma common_or : forall (l l' : list nat), (forall x, In x l -> ~ In x l') \/ exists x, In x l /\ In x l'.
  Proof using.
    intros l l'. induction l as [|x l IH]; [left; intros x []|].
    destruct (in_dec Nat.eq_dec x l') as [I|N]; [right; exists x; split; [left; reflexivity|exact I]|].
    destruct IH as [IH|(y & I & J)]; [left; intros y [<-|I]; [exact N|exact (IH y I)]|right; exists y; split; [right; exact I|exact J]].
  Qed.
  Lemma nodup_join : forall (l l' : list nat), NoDup l -> NoDup l' -> (forall x, In x l -> ~ In x l') -> NoDup (l ++ l').
  Proof using.
    intros l l' N N' D. induction N as [|x l NI N IH]; [exact N'|]. cbn [app]. constructor.
    - intro I. apply in_app_or in I as [I|I]; [exact (NI I)|exact (D x (or_introl eq_refl) I)].
    - apply IH. intros y I. apply D. right. exact I.
  Qed.

  Lemma places_differ : forall (h : list (@tx C V)) fs, gd_fallback_ok -> Forall action_ok (chain_actions h) -> Forall fvk_ok fs -> all_differ fs ->
    NoDup (flat_map (fun f => map fst (coins f h)) fs) \/ exists f g, In f fs /\ In g fs /\ differ f g /\ shared f g h.
  Proof using L.
    intros h fs GD AO KS D. unfold all_differ in D. induction D as [|f fs D DS IH]; [left; constructor|].
    inversion KS as [|? ? KF KT]; subst. destruct (IH KT) as [N|(g & g' & I & J & S)]; [|right; exists g, g'; split; [right; exact I|]; split; [right; exact J|exact S]].
    cbn [flat_map]. destruct (common_or (map fst (coins f h)) (flat_map (fun f => map fst (coins f h)) fs)) as [X|(p & I & J)].
    - left. apply nodup_join; [apply coins_distinct|exact N|exact X].
    - right. apply in_flat_map in J as (g & G & J). apply in_map_iff in I as ([p1 n] & E1 & I). apply in_map_iff in J as ([p2 n'] & E2 & J).
      cbn [fst] in E1, E2. subst p1 p2. exists f, g. split; [left; reflexivity|]. split; [right; exact G|]. split; [exact (proj1 (Forall_forall _ _) D g G)|].
      exact (common_place f g h p n n' GD KF (proj1 (Forall_forall _ _) KT g G) AO (proj1 (Forall_forall _ _) D g G) I J).
  Qed.

  (** The coins as holdings. *)
  Lemma coin_holding : forall f (h : list (@tx C V)) lg c, fvk_ok f -> lg_nfs lg = map a_nf (chain_actions h) -> In c (coins f h) ->
    exists x, found h x /\ seems_unspent lg x /\ hd_fvk x = f /\ hd_pos x = fst c /\ hd_note x = snd c.
  Proof using.
    intros f h lg c K E I. apply coin_in in I as (a & A1 & A2 & A3).
    destruct (opens_receives _ _ _ _ _ A1 A2) as (s & R). exists (mk_holding f s (fst c) (snd c)).
    split; [split; [exact K|exact R]|]. split; [|split; [reflexivity|split; reflexivity]].
    intros nf H J. cbn [hd_note hd_fvk] in H. unfold spent_in in A3. rewrite H in A3. rewrite E in J.
    assert (X : existsb (Z.eqb nf) (map a_nf (chain_actions h)) = true) by (apply existsb_exists; exists nf; split; [exact J|apply Z.eqb_refl]).
    congruence.
  Qed.
  Lemma coins_holdings : forall f (h : list (@tx C V)) lg cs, fvk_ok f -> lg_nfs lg = map a_nf (chain_actions h) -> incl cs (coins f h) ->
    exists l, Forall (found h) l /\ Forall (seems_unspent lg) l /\ Forall (fun x => hd_fvk x = f /\ In (hd_pos x, hd_note x) cs) l /\
      map hd_pos l = map fst cs /\ total l = value_of cs.
  Proof using.
    intros f h lg cs K E. induction cs as [|c cs IH]; intro I.
    - exists []. split; [constructor|]. split; [constructor|]. split; [constructor|]. split; reflexivity.
    - destruct IH as (l & L1 & L2 & L3 & L4 & L5); [intros x J; apply I; right; exact J|].
      destruct (coin_holding f h lg c K E (I c (or_introl eq_refl))) as (x & X1 & X2 & X3 & X4 & X5).
      exists (x :: l). split; [constructor; assumption|]. split; [constructor; assumption|].
      split.
      { constructor; [split; [exact X3|left; rewrite X4, X5; destruct c; reflexivity]|].
        apply Forall_forall. intros y J. destruct (proj1 (Forall_forall _ _) L3 y J) as [Y1 Y2]. split; [exact Y1|right; exact Y2]. }
      cbn [map]. split; [rewrite X4, L4; reflexivity|]. unfold total, value_of in *. cbn [map zsum]. rewrite X5, L5. reflexivity.
  Qed.
  Lemma all_holdings : forall (h : list (@tx C V)) lg fs, Forall fvk_ok fs -> lg_nfs lg = map a_nf (chain_actions h) ->
    exists l, Forall (found h) l /\ Forall (seems_unspent lg) l /\ Forall (fun x => In (hd_fvk x) fs /\ In (hd_pos x, hd_note x) (coins (hd_fvk x) h)) l /\
      map hd_pos l = flat_map (fun f => map fst (coins f h)) fs /\ total l = all_balances fs h.
  Proof using.
    intros h lg fs KS E. induction KS as [|f fs K KS IH].
    - exists []. split; [constructor|]. split; [constructor|]. split; [constructor|]. split; reflexivity.
    - destruct IH as (l & L1 & L2 & L3 & L4 & L5).
      destruct (coins_holdings f h lg (coins f h) K E (incl_refl _)) as (l' & M1 & M2 & M3 & M4 & M5).
      exists (l' ++ l). split; [apply Forall_app; split; assumption|]. split; [apply Forall_app; split; assumption|].
      split.
      { apply Forall_app. split; apply Forall_forall; intros x J.
        - destruct (proj1 (Forall_forall _ _) M3 x J) as [Y1 Y2]. rewrite Y1. split; [left; reflexivity|exact Y2].
        - destruct (proj1 (Forall_forall _ _) L3 x J) as [Y1 Y2]. split; [right; exact Y1|exact Y2]. }
      cbn [flat_map]. rewrite map_app, M4, L4. split; [reflexivity|].
      unfold all_balances in *. cbn [map zsum]. rewrite <- coins_value, <- M5, <- L5. unfold total. rewrite map_app, zsum_app. reflexivity.
  Qed.

  Lemma balances_backed : forall (halo2_verify : bytes -> list (list Z) -> bool) (into : V -> Z)
    (extract : bytes -> list (list Z) -> list action_cells) (sx bx : point -> bytes -> signature -> Z),
    finds_cells halo2_verify extract -> finds_keys SpendAuth sx -> finds_keys Binding bx ->
    forall (h : list (@tx C V)) (lg : ledger) (fs : list fvk),
    gd_fallback_ok -> reached halo2_verify into h lg -> Forall fvk_ok fs -> all_differ fs ->
    0 <= all_balances fs h <= lg_pool lg \/
    (exists f g, In f fs /\ In g fs /\ differ f g /\ shared f g h) \/
    (exists x a, In (hd_fvk x) fs /\ In (hd_pos x, hd_note x) (coins (hd_fvk x) h) /\ In a (acts extract h) /\ other_opening x a) \/
    break into extract bx h.
  Proof using L.
    intros ver into ext sx bx X1 X2 X3 h lg fs GD R KS D.
    destruct (chain_lists ver into h lg R) as (_ & EN & AO & _).
    destruct (places_differ h fs GD AO KS D) as [ND|S]; [|right; left; exact S].
    destruct (all_holdings h lg fs KS EN) as (l & L1 & L2 & L3 & L4 & L5).
    rewrite <- L4 in ND. rewrite <- L5.
    destruct (holdings_backed L ver into ext sx bx X1 X2 X3 h lg l GD R L1 L2 ND) as [B|[(x & a & I & J & O)|B]].
    - left. exact B.
    - right. right. left. exists x, a. destruct (proj1 (Forall_forall _ _) L3 x I) as [Y1 Y2].
      split; [exact Y1|]. split; [exact Y2|]. split; [exact J|exact O].
    - right. right. right. exact B.
  Qed.
End Total.
