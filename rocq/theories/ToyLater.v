(** A wallet that prepares its payment at the root of an earlier block. *)
From Coq Require Import String ZArith List Bool Lia.
From Coq Require Import Init.Byte.
From Verif Require Import Prelude PreludeFacts Spec NumTheory Fields FieldFacts Curve CurveFacts Oracles Sinsemilla SinsSpec SinsFacts RedPallas
  Value ValueFacts Keys KeysSpec KeysFacts Note NoteSpec NoteFacts Tree TreeSpec TreeFacts Action NoteEnc NoteEncSpec Bundle BundleSpec BundleFacts
  Batch Builder BuilderSpec BuilderFacts BuildFacts Signing SigningSpec SigningFacts Halo2 Halo2Facts Circuit CircuitSpec CircuitFacts CircuitBuildFacts
  PipelineSpec PipelineFacts LedgerSpec LedgerFacts WalletSpec WalletFacts BackedSpec LifeSpec LifeFacts BalanceSpec BalanceFacts PurseSpec PurseFacts MempoolSpec MempoolFacts
  NoteEncFacts Toy ToyFacts ToyKeys ToyNote ToyNoteEnc ToyBundle ToyBuilder ToySigning ToyCircuit ToyPipeline ToyLedger ToyLife ToyBalance ToyPurse ToyMempool LaterFacts.
Import ListNotations.
Open Scope Z_scope.

#[local] Opaque toy_fvk my_addr commitment max_value diversify_hash synthesize empty_roots mp_root pmod qmod first_path
  tree_root leaves_of note_nullifier try_note_decryption sign to_instances omap to_halo2_instance build create_proof pay_builder
  sins_hash_words sins_Q msg_words root_inputs toy_memo opens spend_builder mine_of purse_builder two_path auth_path fund_builder spent_in.

Lemma still_spec : forall b0 b1 a n, still b0 b1 = true -> hd_error (b_actions b0) = Some a -> opens toy_fvk a = Some n ->
  spent_in toy_fvk (map a_nf (b_actions b0) ++ map a_nf (b_actions b1)) n = false.
Proof.
  intros b0 b1 a n H E O. unfold still in H. destruct (b_actions b0) as [|x l]; [discriminate H|].
  cbn [hd_error] in E. assert (x = a) by congruence. subst x. rewrite O in H. apply negb_true_iff in H. exact H.
Qed.

(** A second transaction, which touches none of the first one's nullifiers. *)
Lemma toy_fund : exists (t' : @tx toy_curve Z) b0 b1, built_with rng1 pay_builder = Some b0 /\ effects (fst t') = effects b1 /\
  accepts toy_verifier (fun i => i) genesis t' /\ length (b_actions b0) = 2%nat /\ length (b_actions b1) = 2%nat /\
  NoDup (map a_nf (b_actions b0) ++ map a_nf (b_actions b1)) /\ still b0 b1 = true.
Proof.
  pose proof fund_checked as CK. pose proof first_checked as K1. unfold fund_check in CK. apply andb_true_iff in CK as [CK K2]. apply Nat.eqb_eq in K2.
  destruct (built_with rng2 fund_builder) as [b1|] eqn:E1.
  2:{ exfalso. destruct (built_with rng1 pay_builder); discriminate CK. }
  destruct (built_with rng1 pay_builder) as [b0|] eqn:E0; [|discriminate CK].
  destruct (apart_spec _ _ CK) as [K3 D]. specialize (D b0 eq_refl).
  assert (ST : still b0 b1 = true) by (unfold apart in CK; apply andb_true_iff in CK as [CK _]; exact CK).
  destruct (built_some _ _ _ E1) as (meta1 & r1' & B1).
  destruct (fvk_from_sk_ak _ _ toy_fvk_ret) as (ask & ASK & HAK).
  assert (AB : is_base root0) by (rewrite root0_tree; apply (root_base toy_laws); apply leaves_base; constructor).
  assert (KA : known_anchor genesis root0) by (exists 0%nat; split; [apply Nat.le_refl|exact root0_tree]).
  assert (L0 : length (b_actions b0) = 2%nat).
  { cbn [pay_check] in K1. apply andb_true_iff in K1 as [_ X]. apply Nat.eqb_eq in X. exact X. }
  assert (L1 : length (b_actions b1) = 2%nat).
  { cbn [pay_check] in K3. apply andb_true_iff in K3 as [_ X]. apply Nat.eqb_eq in X. exact X. }
  destruct (toy_step [] genesis root0 fund_builder rng2 b1 meta1 r1' ask (R_genesis _ _) KA AB fund_reachable B1 K3) as (bd' & ws' & _ & AC' & EF').
  - intros s HI. destruct (bl_spends fund_builder); [destruct HI|discriminate K2].
  - intros s nf _ _ [].
  - rewrite K2. lia.
  - cbn [genesis lg_nfs app]. exact (nodup_r _ _ _ D).
  - cbn. lia.
  - exists (bd', toy_sighash), b0, b1. split; [reflexivity|]. split; [exact EF'|]. split; [exact AC'|]. split; [exact L0|].
    split; [exact L1|]. split; [exact D|exact ST].
Qed.

Section Generic.
  Context {C : Curve} {OR : @Oracles C} {V : Type}.
  Lemma coin_kept : forall f (t t' : @tx C V) n, In (0%nat, n) (coins f [t]) ->
    spent_in f (map a_nf (b_actions (fst t)) ++ map a_nf (b_actions (fst t'))) n = false -> In (0%nat, n) (coins f [t; t']).
  Proof.
    intros f t t' n H S. apply coin_in in H as (a & E & O & _). cbn [fst snd] in *. apply coin_in. exists a. cbn [fst snd].
    change (chain_actions [t]) with (b_actions (fst t) ++ []) in E.
    change (chain_actions [t; t']) with (b_actions (fst t) ++ b_actions (fst t') ++ []). rewrite app_nil_r in *.
    split; [|split; [exact O|rewrite map_app; exact S]].
    rewrite nth_error_app1; [exact E|]. apply nth_error_Some. congruence.
  Qed.
End Generic.

Lemma toy_later : exists (t t' : @tx toy_curve Z) lg0 lg n ask b b0 meta r',
  reached toy_verifier (fun i => i) [t] lg0 /\ applied toy_verifier (fun i => i) lg0 [t'] lg /\ lg_cmxs lg0 <> lg_cmxs lg /\
  coins toy_fvk [t] = [(0%nat, n)] /\ n_value n = 1000 /\ incl (filter (fun _ => true) (coins toy_fvk [t])) (coins toy_fvk ([t] ++ [t'])) /\
  purse_built toy_fvk lg0 toy_type (filter (fun _ => true) (coins toy_fvk [t])) payout b /\
  build (fun i : Z => Some i) 5 b rng2 = Ret (Ok (Some (b0, meta)), r') /\ (forall a, In a (b_actions b0) -> a_rk a <> pt_id) /\
  Z.of_nat (length (lg_cmxs lg) + length (b_actions b0)) <= 2 ^ 32 /\ ak_of_ask ask = fvk_ak toy_fvk.
Proof.
  destruct toy_purse_full as (t & lg0 & n & ask & b & b0 & meta & r' & b00 & a & E0 & EF & HD & EO & AC & EL & LB & RE & EC & VN & PB & B & RK & SP & AK).
  destruct toy_fund as (t' & b01 & b1 & E1 & EF' & AC' & L0 & L1 & D & ST).
  assert (X : b01 = b00) by congruence. rewrite X in L0, D, ST. clear X E1.
  pose proof (effects_nfs _ _ _ _ _ _ _ EF) as N1. pose proof (effects_nfs _ _ _ _ _ _ _ EF') as N2.
  assert (S1 : length (b_actions (fst t)) = 2%nat) by (apply (f_equal (@length _)) in N1; rewrite !map_length in N1; congruence).
  assert (S2 : length (b_actions (fst t')) = 2%nat) by (apply (f_equal (@length _)) in N2; rewrite !map_length in N2; congruence).
  assert (A2 : accepts toy_verifier (fun i => i) lg0 t').
  { apply (accepts_later toy_verifier (fun i => i) genesis lg0 t' (map a_cmx (b_actions (fst t))) AC').
    - rewrite EL. reflexivity.
    - rewrite EL. cbn [apply lg_nfs genesis app]. unfold tx_nfs. rewrite N1, N2. exact D.
    - rewrite EL. cbn [apply lg_cmxs genesis app]. unfold tx_size. rewrite map_length, S1, S2. cbn. lia. }
  set (lg := apply (fun i => i) lg0 t').
  assert (C0 : length (lg_cmxs lg0) = 2%nat) by (rewrite EL; cbn [apply lg_cmxs genesis app]; rewrite map_length; exact S1).
  assert (C1 : length (lg_cmxs lg) = 4%nat) by (unfold lg; cbn [apply lg_cmxs]; rewrite app_length, map_length, C0, S2; reflexivity).
  exists t, t', lg0, lg, n, ask, b, b0, meta, r'.
  split; [exact RE|]. split; [apply P_next; [exact A2|apply P_done]|].
  split; [intro X; rewrite <- X, C0 in C1; discriminate C1|]. split; [exact EC|]. split; [exact VN|]. split.
  { rewrite EC. intros c HI. change (filter (fun _ => true) [(0%nat, n)]) with [(0%nat, n)] in HI. destruct HI as [<-|[]].
    apply coin_kept; [rewrite EC; left; reflexivity|]. rewrite N1, N2. exact (still_spec b00 b1 a n ST HD EO). }
  split; [exact PB|]. split; [exact B|]. split; [exact RK|]. split; [|exact AK].
  rewrite C1, LB. clear. cbn. lia.
Qed.

Lemma toy_fork : exists (t t' : @tx toy_curve Z) lg,
  accepts toy_verifier (fun i => i) genesis t' /\ known_anchor genesis (b_anchor (fst t')) /\
  applied toy_verifier (fun i => i) genesis [t] lg /\ accepts toy_verifier (fun i => i) lg t'.
Proof.
  destruct toy_mempool as (t & t' & lg & A & A' & P & _). inversion P as [|? ? ? ? A1 P1]; subst. inversion P1 as [|? ? ? ? A2 P2]; subst.
  exists t, t', (apply (fun i => i) genesis t). split; [exact A'|]. split; [exact (ac_anchor _ _ _ _ A')|].
  split; [apply P_next; [exact A1|apply P_done]|exact A2].
Qed.
