(** Two transactions of one wallet, made with the builder, on the computable curve: it receives 1000,
    then spends that note, keeps 600 and pays 150 to a second wallet. *)
From Coq Require Import String ZArith List Bool Lia.
From Coq Require Import Init.Byte.
From Verif Require Import Prelude PreludeFacts Spec NumTheory Fields FieldFacts Curve CurveFacts Oracles Sinsemilla SinsSpec SinsFacts RedPallas
  Value ValueFacts Keys KeysSpec KeysFacts Note NoteSpec NoteFacts Tree TreeSpec TreeFacts Action NoteEnc NoteEncSpec Bundle BundleSpec BundleFacts
  Batch Builder BuilderSpec BuilderFacts BuildFacts Signing SigningSpec SigningFacts Halo2 Halo2Facts Circuit CircuitSpec CircuitFacts CircuitBuildFacts
  PipelineSpec PipelineFacts LedgerSpec LedgerFacts WalletSpec WalletFacts BackedSpec LifeSpec LifeFacts BalanceSpec BalanceFacts
  NoteEncFacts Toy ToyFacts ToyKeys ToyNote ToyNoteEnc ToyBundle ToyBuilder ToyTwo ToySigning ToyCircuit ToyPipeline ToyLedger ToyLife.
Import ListNotations.
Open Scope Z_scope.

(** The addresses of a viewing key are recognised by the crate. *)
Section Mine.
  Context {C : Curve} {OR : @Oracles C}.
  Variable L : CurveLaws C.
  Definition mine_of (f : fvk) (ad : address) : bool :=
    match fvk_scope_for_address f ad with Ret (Some _) => true | _ => false end.
  Lemma mine_decides : forall f, fvk_ok f -> decides (mine_of f) f.
  Proof.
    intros f K ad. destruct (scope_spec L f ad K) as (o & E & H). unfold mine_of. rewrite E. destruct o as [[]|].
    - split; [intros _; exists External; exact H|reflexivity].
    - split; [intros _; exists Internal; exact (proj1 H)|reflexivity].
    - split; [discriminate|]. intros ([] & D); [destruct (proj1 H D)|destruct (proj2 H D)].
  Qed.
End Mine.

Definition rng1 : @rng toy_curve toy_oracles := 2%Z.
Definition rng2 : @rng toy_curve toy_oracles := 40%Z.
Definition built_with (r : @rng toy_curve toy_oracles) (b : builder) : option (@unauthorized_bundle toy_curve Z) :=
  match build (fun i : Z => Some i) 5 b r with Ret (Ok (Some (b0, _)), _) => Some b0 | _ => None end.
Definition spend_calls (n : note) : list call :=
  [ AddSpend toy_fvk n first_path; AddOutput (Some toy_ovk) my_addr 600 (Some toy_memo);
    AddOutput (Some toy_ovk) my_addr2 150 (Some toy_memo) ].
Definition spend_builder (n : note) (leaf : Z) : builder :=
  match run (builder_new toy_type (mp_root first_path leaf)) (spend_calls n) with
  | Ret (_, b) => b
  | _ => builder_new toy_type 0
  end.
Definition sums_to (fs ps : Z) (b : builder) : bool :=
  (length (bl_spends b) =? 1)%nat && (receipts (mine_of toy_fvk) b =? fs) && (payments (mine_of toy_fvk) b =? ps).
(** What the second wallet gets; it spends nothing. *)
Definition pays_two (gs : Z) (b : builder) : bool := (receipts (mine_of toy_fvk2) b =? gs) && (payments (mine_of toy_fvk2) b =? 0).
(** The first transaction puts 1000 at position 0 of the tree; the second spends it. *)
Definition second (o : option (@unauthorized_bundle toy_curve Z)) : bool :=
  match o with
  | Some b0 =>
      match b_actions b0 with
      | a :: a' :: _ =>
          match opens toy_fvk a with
          | Some n =>
              let b := spend_builder n (a_cmx a) in
              match built_with rng2 b with
              | Some b1 =>
                  let acts := map action_effects (b_actions b0) ++ map action_effects (b_actions b1) in
                  let nfs := map a_nf acts in
                  pay_check o && pay_check (Some b1) && nodupb nfs && sums_to 600 1000 b &&
                  ((n_value n =? 1000) && (address_eqb (n_recipient n) my_addr && pays_two 150 b)) &&
                  negb (spent_in toy_fvk (map a_nf (b_actions b0)) n) &&
                  (zsum (map (worth toy_fvk nfs) acts) =? 600)
              | None => false
              end
          | None => false
          end
      | _ => false
      end
  | None => false
  end.
(** For C94: after the first transaction the wallet spends its note from the tree of both leaves. *)
Definition two_path {C : Curve} {OR : @Oracles C} (y : Z) : merkle_path := mk_path 0 (y :: tl (firstn 32 empty_roots)).
Definition payout : list call := [AddOutput (Some toy_ovk) my_addr 600 (Some toy_memo)].
Definition purse_builder (n : note) (x y : Z) : builder :=
  match run (builder_new toy_type (mp_root (two_path y) x)) (AddSpend toy_fvk n (two_path y) :: payout) with
  | Ret (_, b) => b
  | _ => builder_new toy_type 0
  end.
Definition purse_check (o : option (@unauthorized_bundle toy_curve Z)) : bool :=
  match o with
  | Some b0 =>
      match b_actions b0 with
      | [a; a'] =>
          match opens toy_fvk a, opens toy_fvk a' with
          | Some n, None =>
              rks_ok (built_with rng2 (purse_builder n (a_cmx a) (a_cmx a'))) && (n_value n =? 1000) &&
              negb (spent_in toy_fvk (map a_nf [a; a']) n) && nodupb (map a_nf [a; a']) && (length (a_cmx a' :: tl (firstn 32 (@empty_roots toy_curve toy_oracles))) =? 32)%nat
          | _, _ => false
          end
      | _ => false
      end
  | None => false
  end.
(** For C95: another transaction for the empty tree, which only pays, with other nullifiers. *)
Definition fund_calls : list call := [AddOutput None my_addr 700 (Some toy_memo)].
Definition fund_builder : builder :=
  match run (builder_new toy_type root0) fund_calls with
  | Ret (_, b) => b
  | _ => builder_new toy_type 0
  end.
(** For C98: the note of the first transaction is not spent by the second. *)
Definition still (b0 b1 : @unauthorized_bundle toy_curve Z) : bool :=
  match b_actions b0 with
  | [] => false
  | a :: _ =>
      match opens toy_fvk a with
      | Some n => negb (spent_in toy_fvk (map a_nf (b_actions b0) ++ map a_nf (b_actions b1)) n)
      | None => false
      end
  end.
Definition apart (o o' : option (@unauthorized_bundle toy_curve Z)) : bool :=
  match o, o' with
  | Some b0, Some b1 => still b0 b1 && (pay_check (Some b1) && nodupb (map a_nf (b_actions b0) ++ map a_nf (b_actions b1)))
  | _, _ => false
  end.
Definition fund_check (o : option (@unauthorized_bundle toy_curve Z)) : bool :=
  apart o (built_with rng2 fund_builder) && (length (bl_spends fund_builder) =? 0)%nat.
(** For C101: the external key reads the first output. *)
Definition outside (o : option (@unauthorized_bundle toy_curve Z)) : bool :=
  match o with
  | Some b0 =>
      match b_actions b0, fvk_to_ivk toy_fvk External with
      | a :: _, Ret e => match try_note_decryption e a with Ret (Some _) => true | _ => false end
      | _, _ => false
      end
  | None => false
  end.
Definition both (o : option (@unauthorized_bundle toy_curve Z)) : bool := second o && (purse_check o && (fund_check o && outside o)).
Lemma both_checked : both (built_with rng1 pay_builder) = true. Proof. vm_compute. reflexivity. Qed.
Lemma both_parts : forall o, both o = true -> second o = true /\ purse_check o = true /\ fund_check o = true /\ outside o = true.
Proof.
  intros o H. apply andb_true_iff in H as [H1 H2]. apply andb_true_iff in H2 as [H2 H3]. apply andb_true_iff in H3.
  split; [exact H1|]. split; [exact H2|exact H3].
Qed.
Lemma second_checked : second (built_with rng1 pay_builder) = true. Proof. exact (proj1 (both_parts _ both_checked)). Qed.
Lemma purse_checked : purse_check (built_with rng1 pay_builder) = true. Proof. exact (proj1 (proj2 (both_parts _ both_checked))). Qed.
Lemma fund_checked : fund_check (built_with rng1 pay_builder) = true. Proof. exact (proj1 (proj2 (proj2 (both_parts _ both_checked)))). Qed.
Lemma outside_checked : outside (built_with rng1 pay_builder) = true. Proof. exact (proj2 (proj2 (proj2 (both_parts _ both_checked)))). Qed.
Lemma second_first : forall o, second o = true -> pay_check o = true.
Proof.
  intros [b0|] H; [|discriminate H]. unfold second in H. destruct (b_actions b0) as [|a [|a' l]]; [discriminate H|discriminate H|].
  destruct (opens toy_fvk a) as [n|]; [|discriminate H]. cbv zeta in H. destruct (built_with rng2 (spend_builder n (a_cmx a))) as [b1|]; [|discriminate H].
  apply andb_true_iff in H as [H _]. apply andb_true_iff in H as [H _]. apply andb_true_iff in H as [H _].
  apply andb_true_iff in H as [H _]. apply andb_true_iff in H as [H _]. apply andb_true_iff in H as [H _]. exact H.
Qed.
Lemma first_checked : pay_check (built_with rng1 pay_builder) = true. Proof. exact (second_first _ second_checked). Qed.
Lemma first_sums : sums_to 1000 0 pay_builder = true. Proof. vm_compute. reflexivity. Qed.
Lemma first_two : pays_two 0 pay_builder = true. Proof. vm_compute. reflexivity. Qed.

#[local] Opaque toy_fvk my_addr commitment max_value diversify_hash synthesize empty_roots mp_root pmod qmod first_path
  tree_root leaves_of note_nullifier try_note_decryption sign to_instances omap to_halo2_instance build create_proof pay_builder
  sins_hash_words sins_Q msg_words root_inputs toy_memo opens spend_builder mine_of.

Lemma worth_effects : forall {C : Curve} {OR : @Oracles C} A f nfs (a : action A), worth f nfs (action_effects a) = worth f nfs a.
Proof. intros C OR A f nfs a. unfold worth. rewrite (opens_effects _ _ f (action_effects a) a eq_refl). reflexivity. Qed.

(** A builder whose bundle is as it should be leads to an accepted transaction. *)
Lemma toy_step : forall h lg anchor b r b0 meta r' ask,
  reached toy_verifier (fun i => i) h lg -> known_anchor lg anchor -> is_base anchor -> reachable toy_type anchor b ->
  build (fun i : Z => Some i) 5 b r = Ret (Ok (Some (b0, meta)), r') -> pay_check (Some b0) = true -> covers [ask] b ->
  unspent lg b -> (length (bl_spends b) <= 1)%nat -> NoDup (lg_nfs lg ++ map a_nf (b_actions b0)) ->
  Z.of_nat (length (lg_cmxs lg) + 2) <= 2 ^ 32 ->
  exists bd ws, made toy_prover (fun i : Z => Some i) anchor b (bd, toy_sighash) meta ws /\
    accepts toy_verifier (fun i => i) lg (bd, toy_sighash) /\ effects bd = effects b0.
Proof.
  intros h lg anchor b r b0 meta r' ask RE KA AB RB E CK CV UN ONE ND SP.
  cbn [pay_check rks_ok paths_ok] in CK.
  apply andb_true_iff in CK as [CK H4]. apply andb_true_iff in CK as [CK _]. apply andb_true_iff in CK as [H1 H2].
  rewrite forallb_forall in H1, H2. apply Nat.eqb_eq in H4.
  assert (RK : forall a, In a (b_actions b0) -> a_rk a <> pt_id).
  { intros a HI. apply (is_id_false toy_laws). specialize (H1 a HI). apply negb_true_iff in H1. exact H1. }
  assert (NU : ~ undefined_merkle_hash (up_circuits (ip_proof (b_auth b0)))).
  { intros (w & k & x & y & I1 & I2 & I3). apply (layers_defined_spec _ (H2 w I1)). exists k, x, y. split; assumption. }
  destruct (pipeline_completes toy_laws toy_prover toy_verifier (fun i : Z => Some i) (fun i => i) toy_type anchor b 5 r
    b0 meta r' toy_sighash [ask] toy_rng toy_rng) as [(b1 & r3 & bd & bt & P1 & P2 & P3 & P4 & P5 & P6)|U]; try assumption.
  - intros i v H. congruence.
  - exact toy_proofs_verify.
  - exact toy_prover_succeeds.
  - exact toy_gd.
  - exact toy_basepoint.
  - destruct (applied_history toy_prover b0 toy_sighash toy_rng b1 r3 toy_rng [ask] bd P1 P2) as (b2 & HH & FF).
    assert (MD : made toy_prover (fun i : Z => Some i) anchor b (bd, toy_sighash) meta (up_circuits (ip_proof (b_auth b0)))).
    { exists toy_type, 5%nat, r, b0, r', b2. split; [exact RB|]. split; [exact E|]. split; [exact HH|]. split; [exact FF|reflexivity]. }
    assert (NF : map a_nf (b_actions bd) = map a_nf (b_actions b0)).
    { pose proof (f_equal (fun b => map a_nf (b_actions b)) P3) as X. cbn [effects b_actions] in X. rewrite !map_map in X. exact X. }
    assert (LB : length (b_actions bd) = 2%nat) by (rewrite <- H4, <- (map_length a_nf (b_actions b0)), <- NF, map_length; reflexivity).
    rewrite <- NF in ND.
    exists bd, (up_circuits (ip_proof (b_auth b0))). split; [exact MD|]. split; [|exact P3].
    assert (OS : bl_spends b = [] \/ exists x, bl_spends b = [x]).
    { destruct (bl_spends b) as [|x [|? ?]]; [left; reflexivity|right; exists x; reflexivity|cbn [length] in ONE; lia]. }
    destruct (made_accepted toy_laws toy_prover toy_verifier (fun i : Z => Some i) (fun i => i) h lg anchor b
        (bd, toy_sighash) meta (up_circuits (ip_proof (b_auth b0)))) as [A|[U|[(k & a & Q1 & Q2 & Q3)|(i & j & s & s' & C1 & C2 & C3 & _)]]]; try assumption.
    + intros i v H. congruence.
    + exact toy_proofs_verify.
    + exact toy_gd.
    + exact toy_basepoint.
    + unfold different_notes. destruct OS as [EX|[x EX]]; rewrite EX; cbn [map]; [constructor|constructor; [intros []|constructor]].
    + cbn [fst]. rewrite LB. exact SP.
    + destruct (NU U).
    + exfalso. cbn [fst] in Q2, Q3. destruct Q3 as [I|(j & a' & J1 & J2 & J3)].
      * apply (nodup_apart _ _ _ _ ND I). apply in_map. apply (nth_error_In _ _ Q2).
      * apply J1. apply (proj1 (NoDup_nth_error _) (nodup_r _ _ _ ND)).
        -- rewrite map_length. apply nth_error_Some. congruence.
        -- rewrite !nth_error_map, Q2, J2. cbn [option_map]. congruence.
    + exfalso. destruct OS as [EX|[x EX]]; rewrite EX in C2, C3; apply C1; destruct i as [|[|i]], j as [|[|j]]; cbn [nth_error] in C2, C3; congruence.
  - destruct (NU U).
Qed.

Lemma built_some : forall r b b0, built_with r b = Some b0 -> exists meta r', build (fun i : Z => Some i) 5 b r = Ret (Ok (Some (b0, meta)), r').
Proof.
  intros r b b0 H. unfold built_with in H. destruct (build (fun i : Z => Some i) 5 b r) as [[[[[b1 meta]|]|?] r']|w|]; try discriminate H.
  exists meta, r'. congruence.
Qed.

Lemma spend_calls_ok : forall n, note_ok n -> (exists cm, commitment n = Ret cm) -> Forall call_ok (spend_calls n).
Proof.
  intros n KN HC. assert (U1 : is_u64 600) by (split; [discriminate|reflexivity]). assert (U2 : is_u64 150) by (split; [discriminate|reflexivity]).
  apply Forall_cons; [|apply Forall_cons; [|apply Forall_cons; [|apply Forall_nil]]].
  - split; [exact toy_fvk_ok|]. split; [exact KN|]. split; [exact HC|exact first_path_ok].
  - split; [intros k E; assert (k = toy_ovk) by congruence; subst k; reflexivity|]. split; [exact my_addr_ok|]. split; [exact U1|].
    intros m E. assert (m = toy_memo) by congruence. subst m. exact memo_512.
  - split; [intros k E; assert (k = toy_ovk) by congruence; subst k; reflexivity|]. split; [exact my_addr2_ok|]. split; [exact U2|].
    intros m E. assert (m = toy_memo) by congruence. subst m. exact memo_512.
Qed.
Lemma spend_run : forall n leaf, note_ok n -> (exists cm, commitment n = Ret cm) ->
  exists rs, run (builder_new toy_type (mp_root first_path leaf)) (spend_calls n) = Ret (rs, spend_builder n leaf).
Proof.
  intros n leaf KN HC.
  destruct (run_total toy_laws (spend_calls n) (builder_new toy_type (mp_root first_path leaf)) (spend_calls_ok n KN HC)) as (rs & b & H).
  exists rs. Transparent spend_builder. unfold spend_builder. rewrite H. reflexivity.
Qed.
#[local] Opaque spend_builder.
Lemma spend_only : forall n leaf s, note_ok n -> (exists cm, commitment n = Ret cm) -> In s (bl_spends (spend_builder n leaf)) ->
  s_fvk s = toy_fvk /\ s_note s = n.
Proof.
  intros n leaf s KN HC HI. destruct (spend_run n leaf KN HC) as [rs HR].
  destruct (run_from_new toy_laws _ _ _ _ _ (spend_calls_ok n KN HC) HR) as (_ & _ & _ & _ & SP & _).
  apply (in_map (fun s => (s_fvk s, s_note s, s_path s))) in HI. rewrite SP in HI. apply accepted_in in HI.
  unfold spend_calls in HI. cbn [In] in HI. destruct HI as [HI|[HI|[HI|[]]]]; [|discriminate HI|discriminate HI]. split; congruence.
Qed.
Lemma outputs_called : forall l rs o, In o (accepted_outputs l rs) -> exists k v m, In (AddOutput k (o_recipient o) v m) l.
Proof.
  intro l. induction l as [|c l IH]; intros rs o HI; [contradiction HI|].
  destruct rs as [|r rs]; [destruct c; contradiction HI|].
  assert (T : In o (accepted_outputs l rs) -> exists k v m, In (AddOutput k (o_recipient o) v m) (c :: l)).
  { intro X. destruct (IH rs o X) as (k & v & m & Y). exists k, v, m. right. exact Y. }
  destruct c as [f n p|k a v m]; cbn [accepted_outputs] in HI; [exact (T HI)|].
  destruct r as [r|[u|e]]; try exact (T HI). destruct HI as [HI|HI]; [|exact (T HI)].
  subst o. exists k, v, m. left. reflexivity.
Qed.
Lemma spend_sent : forall n leaf o, note_ok n -> (exists cm, commitment n = Ret cm) -> In o (bl_outputs (spend_builder n leaf)) ->
  o_recipient o = my_addr \/ o_recipient o = my_addr2.
Proof.
  intros n leaf o KN HC HI. destruct (spend_run n leaf KN HC) as [rs HR].
  destruct (run_from_new toy_laws _ _ _ _ _ (spend_calls_ok n KN HC) HR) as (_ & _ & _ & _ & _ & SO).
  rewrite SO in HI. destruct (outputs_called _ _ _ HI) as (k & v & m & H). unfold spend_calls in H. cbn [In] in H.
  destruct H as [H|[H|[H|[]]]]; [discriminate H|left; congruence|right; congruence].
Qed.
Lemma pay_only : forall s, In s (bl_spends pay_builder) -> s_note s = my_note 0.
Proof.
  intros s HI. destruct pay_run as [rs HR]. destruct (run_from_new toy_laws _ _ _ _ _ pay_calls_ok HR) as (_ & _ & _ & _ & SP & _).
  apply (in_map (fun s => (s_fvk s, s_note s, s_path s))) in HI. rewrite SP in HI. apply accepted_in in HI.
  unfold pay_calls in HI. cbn [In] in HI. destruct HI as [HI|[HI|[]]]; [|discriminate HI]. congruence.
Qed.

Lemma toy_account_sent : exists (es : list (entry toy_curve Z)) lg,
  account toy_prover toy_verifier (fun i : Z => Some i) (fun i => i) toy_fvk es lg /\ length es = 2%nat /\
  decides (mine_of toy_fvk) toy_fvk /\
  map (fun e => receipts (mine_of toy_fvk) (en_builder e)) es = [1000; 600] /\
  map (fun e => payments (mine_of toy_fvk) (en_builder e)) es = [0; 1000] /\
  balance toy_fvk (map en_tx es) = 600 /\
  map (fun e => receipts (mine_of toy_fvk2) (en_builder e)) es = [0; 150] /\
  map (fun e => payments (mine_of toy_fvk2) (en_builder e)) es = [0; 0] /\
  Forall (fun e => (forall s, In s (bl_spends (en_builder e)) -> n_value (s_note s) = 0 \/ n_recipient (s_note s) = my_addr) /\
                   (forall o, In o (bl_outputs (en_builder e)) -> o_recipient o = my_addr \/ o_recipient o = my_addr2)) es.
Proof.
  pose proof second_checked as CK. destruct (built_with rng1 pay_builder) as [b0|] eqn:E0; [|discriminate CK].
  unfold second in CK. destruct (b_actions b0) as [|a [|a' rest]] eqn:EA; [discriminate CK|discriminate CK|].
  destruct (opens toy_fvk a) as [n|] eqn:EO; [|discriminate CK]. cbv zeta in CK.
  destruct (built_with rng2 (spend_builder n (a_cmx a))) as [b1|] eqn:E1; [|discriminate CK].
  apply andb_true_iff in CK as [CK K7]. apply andb_true_iff in CK as [CK K6]. apply andb_true_iff in CK as [CK K5].
  apply andb_true_iff in CK as [CK K4]. apply andb_true_iff in CK as [CK K3]. apply andb_true_iff in CK as [K1 K2].
  rewrite <- EA in K3, K6, K7. apply nodupb_spec in K3. rewrite map_app, !map_map in K3.
  change (NoDup (map a_nf (b_actions b0) ++ map a_nf (b_actions b1))) in K3.
  apply andb_true_iff in K5 as [K5 K8]. apply andb_true_iff in K8 as [K8 K9]. apply address_eqb_eq in K8; [|exact toy_laws].
  pose proof first_two as T. unfold pays_two in T, K9. apply andb_true_iff in T as [T1 T2]. apply andb_true_iff in K9 as [T3 T4].
  apply Z.eqb_eq in T1. apply Z.eqb_eq in T2. apply Z.eqb_eq in T3. apply Z.eqb_eq in T4.
  apply Z.eqb_eq in K5. apply Z.eqb_eq in K7.
  pose proof first_sums as F. unfold sums_to in F, K4. apply andb_true_iff in F as [F F3]. apply andb_true_iff in F as [F1 F2].
  apply andb_true_iff in K4 as [K4 S3]. apply andb_true_iff in K4 as [S1 S2].
  apply Nat.eqb_eq in F1. apply Nat.eqb_eq in S1. apply Z.eqb_eq in F2. apply Z.eqb_eq in F3. apply Z.eqb_eq in S2. apply Z.eqb_eq in S3.
  destruct (built_some _ _ _ E0) as (meta & r' & B0). destruct (built_some _ _ _ E1) as (meta1 & r1' & B1).
  destruct (fvk_from_sk_ak _ _ toy_fvk_ret) as (ask & ASK & HAK).
  assert (AB : is_base root0) by (rewrite root0_tree; apply (root_base toy_laws); apply leaves_base; constructor).
  assert (L0 : length (b_actions b0) = 2%nat).
  { cbn [pay_check] in K1. apply andb_true_iff in K1 as [_ X]. apply Nat.eqb_eq in X. exact X. }
  (* the first transaction *)
  destruct (toy_step [] genesis root0 pay_builder rng1 b0 meta r' ask) as (bd & ws & MD & AC & EF).
  - constructor.
  - exists 0%nat. split; [apply Nat.le_refl|exact root0_tree].
  - exact AB.
  - exact pay_reachable.
  - exact B0.
  - exact K1.
  - intros s HI. exists ask. split; [left; reflexivity|]. destruct pay_run as [rs HR].
    destruct (run_from_new toy_laws _ _ _ _ _ pay_calls_ok HR) as (_ & _ & _ & _ & SP & _).
    apply (in_map (fun s => (s_fvk s, s_note s, s_path s))) in HI. rewrite SP in HI. apply accepted_in in HI.
    assert (X : s_fvk s = toy_fvk) by (unfold pay_calls in HI; cbn [In] in HI; destruct HI as [HI|[HI|[]]]; [congruence|discriminate HI]).
    rewrite X. symmetry. exact HAK.
  - intros s nf _ _ [].
  - rewrite F1. apply Nat.le_refl.
  - cbn [genesis lg_nfs app]. apply (nodup_l _ _ _ K3).
  - cbn. lia.
  - set (t1 := (bd, toy_sighash) : @tx toy_curve Z) in *.
    pose proof (R_apply toy_verifier (fun i => i) [] genesis t1 (R_genesis _ _) AC) as RE. cbn [app] in RE.
    set (lg1 := apply (fun i => i) genesis t1) in *.
    assert (LB : length (b_actions bd) = 2%nat).
    { pose proof (f_equal (fun b => length (b_actions b)) EF) as X. cbn [effects b_actions] in X. rewrite !map_length in X. congruence. }
    assert (EAct : map action_effects (b_actions bd) = map action_effects (b_actions b0)) by exact (f_equal b_actions EF).
    assert (NF : map a_nf (b_actions bd) = map a_nf (b_actions b0)).
    { pose proof (f_equal (map a_nf) EAct) as X. rewrite !map_map in X. exact X. }
    assert (FA : exists d ds, b_actions bd = d :: ds /\ action_effects d = action_effects a).
    { destruct (b_actions bd) as [|d ds]; [discriminate LB|]. exists d, ds. split; [reflexivity|]. rewrite EA in EAct.
      apply (f_equal (@hd_error _)) in EAct. cbn [map hd_error] in EAct. injection EAct as X. unfold action_effects. congruence. }
    destruct FA as (d & ds & ED & XD).
    assert (OD : opens toy_fvk d = Some n) by (rewrite (opens_effects _ _ toy_fvk d a XD); exact EO).
    assert (CD : a_cmx d = a_cmx a) by (apply (f_equal a_cmx) in XD; exact XD).
    assert (INC : In d (chain_actions [t1])).
    { rewrite chain_one. change (b_actions (fst t1)) with (b_actions bd). rewrite ED. left. reflexivity. }
    destruct (chain_lists toy_verifier (fun i => i) [t1] lg1 RE) as (_ & _ & AO & _ & _).
    destruct (opens_sound toy_laws _ toy_fvk d n toy_gd toy_fvk_ok (proj1 (Forall_forall _ _) AO d INC) OD) as (KN & _ & (cm & HC & _) & _).
    assert (HCE : exists cm, commitment n = Ret cm) by (exists cm; exact HC).
    assert (KA : known_anchor lg1 (mp_root first_path (a_cmx a))).
    { exists 1%nat. unfold lg1. cbn [apply lg_cmxs genesis app]. change (b_actions (fst t1)) with (b_actions bd). rewrite ED. cbn [map length firstn].
      split; [lia|]. rewrite one_leaf_root, CD. apply root_ext. intro p. apply one_leaf_of. }
    assert (RB : reachable toy_type (mp_root first_path (a_cmx a)) (spend_builder n (a_cmx a))).
    { destruct (spend_run n (a_cmx a) KN HCE) as [rs H]. exists (spend_calls n), rs. split; [exact (spend_calls_ok n KN HCE)|exact H]. }
    destruct (toy_step [t1] lg1 (mp_root first_path (a_cmx a)) (spend_builder n (a_cmx a)) rng2 b1 meta1 r1' ask RE KA) as (bd2 & ws2 & MD2 & AC2 & EF2).
    + exact (known_base toy_laws toy_verifier (fun i => i) [t1] lg1 _ RE KA).
    + exact RB.
    + exact B1.
    + exact K2.
    + intros s HI. exists ask. split; [left; reflexivity|]. rewrite (proj1 (spend_only n _ s KN HCE HI)). symmetry. exact HAK.
    + intros s nf HI HN. destruct (spend_only n _ s KN HCE HI) as [X1 X2]. rewrite X1, X2 in HN.
      unfold lg1. cbn [apply lg_nfs genesis app]. change (b_actions (fst t1)) with (b_actions bd). rewrite NF. intro X.
      apply negb_true_iff in K6. unfold spent_in in K6. rewrite HN in K6.
      assert (Y : existsb (Z.eqb nf) (map a_nf (b_actions b0)) = true) by (apply existsb_exists; exists nf; split; [exact X|apply Z.eqb_refl]).
      congruence.
    + rewrite S1. apply Nat.le_refl.
    + unfold lg1. cbn [apply lg_nfs genesis app]. change (b_actions (fst t1)) with (b_actions bd). rewrite NF. exact K3.
    + unfold lg1. cbn [apply lg_cmxs genesis app]. change (b_actions (fst t1)) with (b_actions bd). rewrite map_length, LB. cbn. lia.
    + set (t2 := (bd2, toy_sighash) : @tx toy_curve Z) in *.
      exists [mk_entry pay_builder meta ws t1; mk_entry (spend_builder n (a_cmx a)) meta1 ws2 t2], (apply (fun i => i) lg1 t2).
      assert (A1 : account toy_prover toy_verifier (fun i : Z => Some i) (fun i => i) toy_fvk [mk_entry pay_builder meta ws t1] lg1).
      { apply (A_step _ _ _ _ toy_fvk [] genesis (mk_entry pay_builder meta ws t1) root0); [constructor|exact MD|exact AC|].
        intros s HI _ NZ. elim NZ. cbn [en_builder] in HI. rewrite (pay_only s HI). reflexivity. }
      split.
      { apply (A_step _ _ _ _ toy_fvk [mk_entry pay_builder meta ws t1] lg1 (mk_entry (spend_builder n (a_cmx a)) meta1 ws2 t2) _ A1 MD2 AC2).
        intros s HI _ _. cbn [en_builder] in HI. rewrite (proj2 (spend_only n _ s KN HCE HI)). exists d. split; [exact INC|exact OD]. }
      split; [reflexivity|]. split; [exact (mine_decides toy_laws toy_fvk toy_fvk_ok)|].
      cbn [map en_builder en_tx]. split; [rewrite F2, S2; reflexivity|]. split; [rewrite F3, S3; reflexivity|].
      rewrite T1, T2, T3, T4. split; [|split; [reflexivity|split; [reflexivity|apply Forall_cons; [|apply Forall_cons; [|apply Forall_nil]]]]].
      2: { cbn [en_builder]. split; [intros s HI; left; rewrite (pay_only s HI); reflexivity|].
           intros o HI. left. destruct pay_outputs as (o1 & PO & PR & _). rewrite PO in HI. destruct HI as [HI|[]]. subst o1. exact PR. }
      2: { cbn [en_builder]. split; [intros s HI; right; rewrite (proj2 (spend_only n _ s KN HCE HI)); exact K8|].
           intros o HI. exact (spend_sent n _ o KN HCE HI). }
      unfold balance. rewrite <- K7.
      assert (EC : map action_effects (chain_actions [t1; t2]) = map action_effects (b_actions b0) ++ map action_effects (b_actions b1)).
      { change (chain_actions [t1; t2]) with (b_actions bd ++ b_actions bd2 ++ []). rewrite app_nil_r, map_app, EAct. f_equal. exact (f_equal b_actions EF2). }
      rewrite <- EC. rewrite !map_map.
      change (map (fun x : action signature => a_nf (action_effects x)) (chain_actions [t1; t2])) with (map a_nf (chain_actions [t1; t2])).
      apply (f_equal zsum). apply map_ext. intro x. symmetry. apply worth_effects.
Qed.

Lemma toy_account : exists (es : list (entry toy_curve Z)) lg,
  account toy_prover toy_verifier (fun i : Z => Some i) (fun i => i) toy_fvk es lg /\ length es = 2%nat /\
  decides (mine_of toy_fvk) toy_fvk /\
  map (fun e => receipts (mine_of toy_fvk) (en_builder e)) es = [1000; 600] /\
  map (fun e => payments (mine_of toy_fvk) (en_builder e)) es = [0; 1000] /\
  balance toy_fvk (map en_tx es) = 600.
Proof.
  destruct toy_account_sent as (es & lg & A & LE & D & R1 & P1 & B & _). exists es, lg. split; [exact A|]. split; [exact LE|]. split; [exact D|].
  split; [exact R1|]. split; [exact P1|exact B].
Qed.

(** The transaction of an action. *)
Lemma reached_in : forall {C : Curve} {OR : @Oracles C} {V : Type} (ver : bytes -> list (list Z) -> bool) (into : V -> Z) h lg a,
  reached ver into h lg -> In a (chain_actions h) ->
  exists h1 lg1 t, reached ver into h1 lg1 /\ accepts ver into lg1 t /\ In a (b_actions (fst t)).
Proof.
  intros C OR V ver into h lg a H. induction H as [|h lg t H IH A]; intro HI; [contradiction|].
  rewrite chain_app, chain_one in HI. apply in_app_iff in HI as [HI|HI]; [exact (IH HI)|].
  exists h, lg, t. split; [exact H|]. split; [exact A|exact HI].
Qed.
Lemma receives_opens : forall {C : Curve} {OR : @Oracles C} (L : CurveLaws C) {V : Type} f (h : list (@tx C V)) p n, fvk_ok f ->
  receives f External h p n -> exists a, In a (chain_actions h) /\ opens f a = Some n.
Proof.
  intros C OR L V f h p n K (a & k & to & memo & HA & HK & TD). exists a. split; [apply (nth_error_In _ _ HA)|].
  destruct (fvk_ok_to_ivk L f Internal K) as (i & HI & _). Transparent opens. unfold opens. Opaque opens. rewrite HK, HI, TD. reflexivity.
Qed.
Lemma toy_not_born : exists halo2_verify extract h lg t a n nf,
  finds_cells halo2_verify extract /\ finds_keys SpendAuth (toy_log SpendAuth) /\ finds_keys Binding (toy_log Binding) /\
  reached halo2_verify (fun v : Z => v) h lg /\ accepts halo2_verify (fun v : Z => v) lg t /\ In a (b_actions (fst t)) /\
  opens toy_fvk a = Some n /\ n_value n = 990 /\ note_nullifier n toy_fvk = Ret nf.
Proof.
  destruct toy_wallet as (ver & ex & h & lg & W1 & W2 & W3 & W4 & _ & _ & _ & _ & W5 & _ & _ & (nf & W6 & _) & _).
  destruct (receives_opens toy_laws toy_fvk h 1 note3 toy_fvk_ok W5) as (a & HA & HO).
  destruct (reached_in _ _ _ _ a W4 HA) as (h1 & lg1 & t & R1 & R2 & R3).
  exists ver, ex, h1, lg1, t, a, note3, nf. split; [exact W1|]. split; [exact W2|]. split; [exact W3|]. split; [exact R1|]. split; [exact R2|].
  split; [exact R3|]. split; [exact HO|]. split; [reflexivity|exact W6].
Qed.
