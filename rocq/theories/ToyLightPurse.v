(** A light client that found the note of 1000 in the toy chain and spends it. *)
From Coq Require Import String ZArith List Bool Lia.
From Coq Require Import Init.Byte.
From Verif Require Import Prelude PreludeFacts Spec Fields Curve CurveFacts Oracles RedPallas Keys KeysSpec KeysFacts Note NoteSpec Tree TreeSpec
  Action NoteEnc NoteEncSpec Bundle BundleSpec Batch Builder BuilderSpec Signing SigningSpec Circuit CircuitSpec PipelineSpec LedgerSpec LedgerFacts WalletSpec WalletFacts
  BackedSpec LifeSpec BalanceSpec BalanceFacts PurseSpec PurseFacts NoteEncFacts LightSpec LightFacts LightPurseSpec LightPurseFacts
  Toy ToyFacts ToyKeys ToyNote ToyNoteEnc ToyBuilder ToySigning ToyPipeline ToyLedger ToyLife ToyBalance ToyPurse.
Import ListNotations.
Open Scope Z_scope.

Definition at_first (c : nat * note (C := toy_curve)) : bool := (fst c =? 0)%nat.

Section Generic.
  Context {C : Curve} {OR : @Oracles C}.
  #[local] Opaque try_note_decryption try_compact_note_decryption fvk_to_ivk compact_of_action.

  Lemma external_compact : forall A f e (a : action A) n x, fvk_to_ivk f External = Ret e -> try_note_decryption e a = Ret (Some x) ->
    opens f a = Some n -> ct_ok (a_ct a) -> opens_compact f (compact_of_action a) = Some n.
  Proof.
    intros A f e a n [[n' to] m] HE TD H K. pose proof (proj1 (compact_agrees A e a K) n' to m TD) as X. clear K.
    unfold opens in H. unfold opens_compact. rewrite HE in H |- *.
    destruct (fvk_to_ivk f Internal) as [i| |]; [|discriminate H|discriminate H].
    revert TD H X. generalize (try_note_decryption e a), (try_note_decryption i a), (try_compact_note_decryption e (compact_of_action a)),
      (try_compact_note_decryption i (compact_of_action a)). intros x y z w -> H ->. exact H.
  Qed.
  Lemma far_filtered : forall f nfs (l : list compact_action) k, filter (fun c : nat * note => (fst c =? 0)%nat) (flat_map (light_coin f nfs) (List.combine (seq (S k) (length l)) l)) = [].
  Proof.
    intros f nfs l. induction l as [|c l IH]; intro k; [reflexivity|]. cbn [length seq List.combine flat_map]. rewrite filter_app, (IH (S k)), app_nil_r.
    unfold light_coin. cbn [fst snd]. destruct (opens_compact f c) as [n|]; [|reflexivity]. destruct (spent_in f nfs n); reflexivity.
  Qed.
  (** The light coins at position 0. *)
  Lemma first_light : forall V f (t : @tx C V) a l n, b_actions (fst t) = a :: l -> opens_compact f (compact_of_action a) = Some n ->
    spent_in f (map a_nf (chain_actions [t])) n = false ->
    filter (fun c : nat * note => (fst c =? 0)%nat) (light_coins f (compact_chain [t])) = [(0%nat, n)].
  Proof.
    intros V f t a l n E H1 H3. unfold light_coins. rewrite (compact_nfs [t]). unfold compact_chain.
    assert (EC : chain_actions [t] = a :: l) by (rewrite chain_one; exact E).
    set (nfs := map a_nf (chain_actions [t])) in *. rewrite EC. cbn [map length seq List.combine flat_map].
    rewrite filter_app, (far_filtered f nfs (map compact_of_action l) 0), app_nil_r.
    unfold light_coin. cbn [fst snd]. rewrite H1, H3. reflexivity.
  Qed.
  Lemma coins_head : forall V f (t : @tx C V) n, coins f [t] = [(0%nat, n)] -> exists a l, b_actions (fst t) = a :: l /\ opens f a = Some n /\
    spent_in f (map a_nf (chain_actions [t])) n = false.
  Proof.
    intros V f t n H. assert (HI : In (0%nat, n) (coins f [t])) by (rewrite H; left; reflexivity).
    apply coin_in in HI as (a & N & O & S). cbn [fst snd] in N, O, S. rewrite chain_one in N. destruct (b_actions (fst t)) as [|b l] eqn:E; [discriminate N|].
    cbn [nth_error] in N. injection N as <-. exists b, l. split; [reflexivity|]. split; [exact O|exact S].
  Qed.
End Generic.

#[local] Opaque toy_fvk commitment note_nullifier try_note_decryption try_compact_note_decryption build create_proof pay_builder opens opens_compact
  tree_root leaves_of auth_path coins light_coins rng1 rng2 fvk_to_ivk compact_chain.

Lemma outside_some : forall b0 a, outside (Some b0) = true -> hd_error (b_actions b0) = Some a ->
  exists e x, fvk_to_ivk toy_fvk External = Ret e /\ try_note_decryption e a = Ret (Some x).
Proof.
  intros b0 a H E. unfold outside in H. destruct (b_actions b0) as [|b l]; [discriminate E|]. cbn [hd_error] in E. assert (b = a) by congruence. subst b.
  destruct (fvk_to_ivk toy_fvk External) as [e| |]; try discriminate H. exists e.
  destruct (try_note_decryption e a) as [[x|]| |]; try discriminate H. exists x. split; reflexivity.
Qed.

Lemma toy_light_purse : exists (t : @tx toy_curve Z) lg n ask b b0 meta r',
  reached toy_verifier (fun i => i) [t] lg /\ filter at_first (light_coins toy_fvk (compact_chain [t])) = [(0%nat, n)] /\ n_value n = 1000 /\
  purse_built toy_fvk lg toy_type (filter at_first (light_coins toy_fvk (compact_chain [t]))) payout b /\
  build (fun i : Z => Some i) 5 b rng2 = Ret (Ok (Some (b0, meta)), r') /\ (forall a, In a (b_actions b0) -> a_rk a <> pt_id) /\
  Z.of_nat (length (lg_cmxs lg) + length (b_actions b0)) <= 2 ^ 32 /\ ak_of_ask ask = fvk_ak toy_fvk.
Proof.
  pose proof outside_checked as OC.
  destruct toy_purse_full as (t & lg & n & ask & b & b0 & meta & r' & b00 & a & E0 & EF & EH & EO & _ & _ & _ & RE & EC & NV & PB & B1 & RK & LL & AK).
  rewrite E0 in OC. destruct (outside_some b00 a OC EH) as (e & x & HE & TD).
  destruct (coins_head Z toy_fvk t n EC) as (d & l & ED & OD & SD).
  assert (XD : action_effects d = action_effects a).
  { pose proof (f_equal b_actions EF) as X. unfold effects in X. cbn [b_actions] in X. rewrite ED in X.
    destruct (b_actions b00) as [|a0 l0]; [discriminate EH|]. cbn [hd_error] in EH. assert (a0 = a) by congruence. subst a0.
    cbn [map] in X. remember (action_effects d) as e1. remember (action_effects a) as e2. congruence. }
  destruct (chain_lists toy_verifier (fun i => i) [t] lg RE) as (_ & _ & AO & _).
  assert (KD : ct_ok (a_ct d)).
  { apply (ao_ct d). apply (proj1 (Forall_forall _ _) AO). rewrite chain_one, ED. left. reflexivity. }
  assert (KA : ct_ok (a_ct a)).
  { assert (EQ : a_ct d = a_ct a) by exact (f_equal a_ct XD). rewrite <- EQ. exact KD. }
  assert (OL : opens_compact toy_fvk (compact_of_action d) = Some n).
  { rewrite (compact_effects _ _ d a XD). exact (external_compact _ toy_fvk e a n x HE TD EO KA). }
  pose proof (first_light Z toy_fvk t d l n ED OL SD) as FL.
  exists t, lg, n, ask, b, b0, meta, r'.
  split; [exact RE|]. split; [exact FL|]. split; [exact NV|]. split.
  { unfold at_first. rewrite FL. rewrite EC in PB. exact PB. }
  split; [exact B1|]. split; [exact RK|]. split; [exact LL|exact AK].
Qed.
