(** Proofs for C94. *)
From Coq Require Import String ZArith List Bool Lia Permutation.
From Coq Require Import Init.Byte.
From Verif Require Import Prelude Fields Curve Oracles Spec Sinsemilla SinsSpec RedPallas Value Keys KeysSpec Note NoteSpec Tree TreeSpec
  Action NoteEnc NoteEncSpec Bundle Batch Builder Signing BundleSpec BuilderSpec SigningSpec RngSpec Halo2 Circuit CircuitSpec PipelineSpec LedgerSpec
  WalletSpec BackedSpec LifeSpec BalanceSpec PurseSpec PreludeFacts NumTheory CurveFacts CodecFacts NoteFacts KeysFacts NoteEncFacts TreeFacts BuilderFacts
  BuildFacts SigningFacts PipelineFacts LedgerFacts WalletFacts BackedFacts OwnerFacts LifeFacts BalanceFacts FuelSpec FuelFacts.
Import ListNotations.
Open Scope Z_scope.

Lemma in_indexed : forall A (l : list A) k p a, In (p, a) (List.combine (seq k (length l)) l) <-> (k <= p)%nat /\ nth_error l (p - k) = Some a.
Proof.
  intros A l. induction l as [|x l IH]; intros k p a; cbn [length seq List.combine In].
  - split; [intros []|]. intros [_ H]. destruct (p - k)%nat; discriminate H.
  - rewrite IH. split.
    + intros [H|[H1 H2]].
      * injection H as <- <-. rewrite Nat.sub_diag. split; [lia|reflexivity].
      * split; [lia|]. replace (p - k)%nat with (S (p - S k)) by lia. exact H2.
    + intros [H1 H2]. destruct (Nat.eq_dec p k) as [->|N].
      * rewrite Nat.sub_diag in H2. cbn [nth_error] in H2. left. congruence.
      * right. split; [lia|]. replace (p - k)%nat with (S (p - S k)) in H2 by lia. exact H2.
Qed.
Lemma map_snd_indexed : forall A (l : list A) k, map snd (List.combine (seq k (length l)) l) = l.
Proof. intros A l. induction l as [|x l IH]; intro k; cbn [length seq List.combine map snd]; [reflexivity|]. rewrite IH. reflexivity. Qed.
Lemma nodup_indexed : forall A (l : list A) k, NoDup (map fst (List.combine (seq k (length l)) l)).
Proof.
  intros A l k. replace (map fst (List.combine (seq k (length l)) l)) with (seq k (length l)); [apply seq_NoDup|].
  revert k. induction l as [|x l IH]; intro k; cbn [length seq List.combine map fst]; [reflexivity|]. f_equal. apply IH.
Qed.
Lemma filter_all : forall A (p : A -> bool) l, (forall x, In x l -> p x = true) -> filter p l = l.
Proof.
  intros A p. induction l as [|x l IH]; intro H; cbn [filter]; [reflexivity|]. rewrite (H x (or_introl eq_refl)), IH; [reflexivity|].
  intros y Hy. apply H. right. exact Hy.
Qed.
Lemma nodup_filter : forall A B (g : A -> B) (p : A -> bool) l, NoDup (map g l) -> NoDup (map g (filter p l)).
Proof.
  intros A B g p. induction l as [|x l IH]; intro H; cbn [filter map]; [constructor|]. cbn [map] in H. inversion H as [|? ? NI ND]; subst.
  destruct (p x); [|exact (IH ND)]. cbn [map]. constructor; [|exact (IH ND)].
  intro X. apply NI. apply in_map_iff in X as (y & <- & Y). apply filter_In in Y as [Y _]. apply in_map. exact Y.
Qed.

#[local] Opaque sins_commit prf_expand to_scalar to_base le_bits bytes_bits msg_words sins_Q commit_R lin.
#[local] Opaque node tree_root auth_path root_loop root_inputs commitment build try_note_decryption diversify_hash note_nullifier.

Section Purse.
  Context {C : Curve} {OR : @Oracles C} {V : Type}.
  Variable L : CurveLaws C.
  Notation tx := (@tx C V).

  Lemma opens_receives : forall f (h : list tx) pos a n, nth_error (chain_actions h) pos = Some a -> opens f a = Some n -> exists s, receives f s h pos n.
  Proof.
    intros f h pos a n NA H. unfold opens in H.
    destruct (fvk_to_ivk f External) as [e| |] eqn:HE; try discriminate H. destruct (fvk_to_ivk f Internal) as [i| |] eqn:HI; try discriminate H.
    assert (X : (exists to m, try_note_decryption e a = Ret (Some (n, to, m))) \/ (exists to m, try_note_decryption i a = Ret (Some (n, to, m)))).
    { destruct (try_note_decryption e a) as [[[[n' to] m]|]| |]; [left; exists to, m; congruence|..];
        (destruct (try_note_decryption i a) as [[[[n' to] m]|]| |]; [right; exists to, m; congruence|..]; discriminate H). }
    destruct X as [(to & m & X)|(to & m & X)]; [exists External, a, e, to, m|exists Internal, a, i, to, m]; (split; [exact NA|split; assumption]).
  Qed.

  Lemma coin_in : forall f (h : list tx) c, In c (coins f h) <->
    exists a, nth_error (chain_actions h) (fst c) = Some a /\ opens f a = Some (snd c) /\ spent_in f (map a_nf (chain_actions h)) (snd c) = false.
  Proof.
    intros f h [p n]. unfold coins. rewrite in_flat_map. cbn [fst snd]. split.
    - intros ([q a] & H1 & H2). apply in_indexed in H1 as [_ H1]. rewrite Nat.sub_0_r in H1. unfold coin in H2. cbn [fst snd] in H2.
      destruct (opens f a) as [n'|] eqn:EO; [|destruct H2]. destruct (spent_in f (map a_nf (chain_actions h)) n') eqn:ES; [destruct H2|].
      destruct H2 as [H2|[]]. injection H2 as <- <-. exists a. split; [exact H1|]. split; [exact EO|exact ES].
    - intros (a & H1 & H2 & H3). exists (p, a). split; [apply in_indexed; split; [lia|rewrite Nat.sub_0_r; exact H1]|].
      unfold coin. cbn [fst snd]. rewrite H2, H3. left. reflexivity.
  Qed.

  Lemma coins_value : forall f (h : list tx), value_of (coins f h) = balance f h.
  Proof.
    intros f h. unfold balance. set (N := map a_nf (chain_actions h)). rewrite <- (map_snd_indexed _ (chain_actions h) 0) at 1.
    unfold coins. fold N. generalize (List.combine (seq 0 (length (chain_actions h))) (chain_actions h)). intro l.
    induction l as [|[p a] l IH]; [reflexivity|]. cbn [flat_map map snd]. unfold value_of in *. rewrite map_app, zsum_app, IH. cbn [zsum]. f_equal.
    unfold coin, worth. cbn [fst snd]. destruct (opens f a) as [n|]; [|reflexivity]. destruct (spent_in f N n); [reflexivity|]. cbn [map zsum snd]. lia.
  Qed.

  Lemma coins_distinct : forall f (h : list tx), NoDup (map fst (coins f h)).
  Proof.
    intros f h. unfold coins. set (N := map a_nf (chain_actions h)). pose proof (nodup_indexed _ (chain_actions h) 0) as H. revert H.
    generalize (List.combine (seq 0 (length (chain_actions h))) (chain_actions h)). intro l.
    induction l as [|[p a] l IH]; intro H; [constructor|]. cbn [map fst] in H. inversion H as [|? ? NI ND]; subst. cbn [flat_map].
    rewrite map_app. unfold coin at 1. cbn [fst snd]. destruct (opens f a) as [n|]; [|exact (IH ND)].
    destruct (spent_in f N n); [exact (IH ND)|]. cbn [map fst app]. constructor; [|exact (IH ND)].
    intro X. apply NI. apply in_map_iff in X as ([q m] & E & X). cbn [fst] in E. subst q. apply in_flat_map in X as ([q b] & X1 & X2).
    unfold coin in X2. cbn [fst snd] in X2. destruct (opens f b) as [k|]; [|destruct X2]. destruct (spent_in f N k); [destruct X2|].
    destruct X2 as [X2|[]]. injection X2 as -> _. apply in_map_iff. exists (p, b). split; [reflexivity|exact X1].
  Qed.

  Lemma run_app : forall l l' b rs b1 rs' b2, run b l = Ret (rs, b1) -> run b1 l' = Ret (rs', b2) -> run b (l ++ l') = Ret (rs ++ rs', b2).
  Proof.
    induction l as [|c l IH]; intros l' b rs b1 rs' b2 H1 H2; cbn [run app] in *; [injection H1 as <- <-; exact H2|].
    destruct (step b c) as [[r b']| |]; cbn [obind] in *; try discriminate H1.
    destruct (run b' l) as [[rs0 b'']| |] eqn:E; cbn [obind] in H1; try discriminate H1. injection H1 as <- <-.
    rewrite (IH l' b' rs0 b'' rs' b2 E H2). reflexivity.
  Qed.

  Variables (halo2_prove : list witness -> list (list Z) -> rng -> option bytes * rng) (halo2_verify : bytes -> list (list Z) -> bool)
    (try_from : Z -> option V) (into : V -> Z).

  Lemma run_spends : forall f h lg cs, gd_fallback_ok -> fvk_ok f -> reached halo2_verify into h lg ->
    (forall c, In c cs -> exists s, receives f s h (fst c) (snd c)) ->
    forall b, spends_enabled (bt_flags (bl_type b)) = true -> bl_anchor b = tree_root (leaves_of (lg_cmxs lg)) 32 ->
    exists rs ss, run b (flat_map (spend_of f (lg_cmxs lg)) cs) = Ret (rs, mk_builder (bl_spends b ++ ss) (bl_outputs b) (bl_type b) (bl_anchor b)) /\
      Forall agrees rs /\ Forall call_ok (flat_map (spend_of f (lg_cmxs lg)) cs) /\ map s_note ss = map snd cs /\ Forall (fun s => s_fvk s = f) ss.
  Proof.
    intros f h lg cs GD KF RE. induction cs as [|c cs IH]; intros HC b B1 B2.
    - exists [], []. cbn [flat_map run map]. rewrite app_nil_r. split; [destruct b; reflexivity|]. split; [constructor|]. split; [constructor|]. split; [reflexivity|constructor].
    - destruct (HC c (or_introl eq_refl)) as [s RC].
      destruct (received_can_be_spent L halo2_verify into f s h lg (fst c) (snd c) b GD KF RE RC B1 B2) as (path & s' & P1 & P2 & P3 & P4).
      set (b1 := with_spend b (mk_spend None f s' (snd c) path)) in *.
      destruct (IH (fun x Hx => HC x (or_intror Hx)) b1 B1 B2) as (rs & ss & I1 & I2 & I3 & I4 & I5).
      exists (RSpend (Ok tt) :: rs), (mk_spend None f s' (snd c) path :: ss). cbn [flat_map].
      assert (ES : spend_of f (lg_cmxs lg) c = [AddSpend f (snd c) path]) by (unfold spend_of; rewrite P1; reflexivity). rewrite ES. cbn [app].
      split.
      { cbn [run step]. rewrite P4. cbn [obind]. fold b1. rewrite I1. cbn [obind]. unfold b1, with_spend. cbn [bl_spends bl_outputs bl_type bl_anchor].
        rewrite <- app_assoc. reflexivity. }
      split; [constructor; [left; reflexivity|exact I2]|]. split; [constructor; assumption|]. cbn [map s_note]. rewrite I4. split; [reflexivity|].
      constructor; [reflexivity|exact I5].
  Qed.

  Lemma run_payments : forall outs, Forall is_payment outs -> forall b, outputs_enabled (bt_flags (bl_type b)) = true ->
    exists rs os, run b outs = Ret (rs, mk_builder (bl_spends b) (bl_outputs b ++ os) (bl_type b) (bl_anchor b)) /\ Forall agrees rs /\
      os = flat_map output_of outs.
  Proof.
    intros outs H. induction H as [|c outs HC H IH]; intros b B1.
    - exists [], []. cbn [run map]. rewrite app_nil_r. split; [destruct b; reflexivity|]. split; [constructor|reflexivity].
    - destruct c as [f n p|k a v m]; [destruct HC|].
      destruct (IH (mk_builder (bl_spends b) (bl_outputs b ++ [output_info_new k a v m]) (bl_type b) (bl_anchor b)) B1) as (rs & os & I1 & I2 & I3).
      exists (ROutput (Ok tt) :: rs), (output_info_new k a v m :: os). split.
      { cbn [run step]. unfold add_output. rewrite B1. cbn [negb obind]. rewrite I1. cbn [obind bl_spends bl_outputs bl_type bl_anchor].
        rewrite <- app_assoc. reflexivity. }
      split; [constructor; [right; reflexivity|exact I2]|]. cbn [flat_map output_of app]. rewrite I3. reflexivity.
  Qed.

  Lemma purse_run : forall f h lg ty pick outs, gd_fallback_ok -> fvk_ok f -> reached halo2_verify into h lg ->
    spends_enabled (bt_flags ty) = true -> outputs_enabled (bt_flags ty) = true -> Forall is_payment outs -> Forall call_ok outs ->
    exists b, purse_built f lg ty (filter pick (coins f h)) outs b.
  Proof.
    intros f h lg ty pick outs GD KF RE T1 T2 HP HO. set (cs := filter pick (coins f h)).
    assert (HC : forall c, In c cs -> exists s, receives f s h (fst c) (snd c)).
    { intros c Hc. apply filter_In in Hc as [Hc _]. apply coin_in in Hc as (a & A1 & A2 & _). exact (opens_receives f h (fst c) a (snd c) A1 A2). }
    destruct (run_spends f h lg cs GD KF RE HC (builder_new ty (tree_root (leaves_of (lg_cmxs lg)) 32)) T1 eq_refl) as (rs & ss & R1 & R2 & R3 & R4 & R5).
    match type of R1 with _ = Ret (_, ?b) => set (b1 := b) in * end.
    destruct (run_payments outs HP b1 T2) as (rs' & os & P1 & P2 & P3).
    pose proof (run_app _ _ _ _ _ _ _ R1 P1) as RA.
    exists (mk_builder (bl_spends b1) (bl_outputs b1 ++ os) (bl_type b1) (bl_anchor b1)). split.
    { exists (rs ++ rs'). split; [exact RA|]. apply Forall_app. split; assumption. }
    split. { exists (flat_map (spend_of f (lg_cmxs lg)) cs ++ outs), (rs ++ rs'). split; [apply Forall_app; split; assumption|exact RA]. }
    split; [exact R4|]. split; [exact R5|exact P3].
  Qed.

  Lemma map_in : forall A B D (g : A -> D) (k : B -> D) l m x, map g l = map k m -> In x l -> exists y, In y m /\ g x = k y.
  Proof.
    intros A B D g k l m x E H. assert (X : In (g x) (map k m)) by (rewrite <- E; apply in_map; exact H).
    apply in_map_iff in X as (y & Y1 & Y2). exists y. split; [exact Y2|symmetry; exact Y1].
  Qed.

  Lemma purse_legal : forall f h lg ty pick outs b, gd_fallback_ok -> fvk_ok f -> reached halo2_verify into h lg ->
    purse_built f lg ty (filter pick (coins f h)) outs b ->
    known_anchor lg (tree_root (leaves_of (lg_cmxs lg)) 32) /\ unspent lg b /\ different_notes b /\ spends_found f h b /\
    spent b = value_of (filter pick (coins f h)) /\ sent b = zsum (map payment_value outs) /\
    forall mine, decides mine f -> payments mine b = value_of (filter pick (coins f h)).
  Proof.
    intros f h lg ty pick outs b GD KF RE (_ & _ & B3 & B4 & B5). destruct (chain_lists halo2_verify into h lg RE) as (E1 & E2 & AO & ND & _).
    assert (X : forall s, In s (bl_spends b) -> s_fvk s = f /\ exists c a, In c (coins f h) /\ s_note s = snd c /\
      nth_error (chain_actions h) (fst c) = Some a /\ opens f a = Some (s_note s) /\ spent_in f (map a_nf (chain_actions h)) (s_note s) = false).
    { intros s Hs. split; [exact (proj1 (Forall_forall _ _) B4 s Hs)|]. destruct (map_in _ _ _ _ _ _ _ s B3 Hs) as (c & C1 & C2).
      apply filter_In in C1 as [C1 _]. destruct (proj1 (coin_in f h c) C1) as (a & A1 & A2 & A3). exists c, a. rewrite C2. repeat split; assumption. }
    split; [|split; [|split; [|split; [|split; [|split]]]]].
    - exists (length (lg_cmxs lg)). split; [lia|]. rewrite firstn_all. reflexivity.
    - intros s nf Hs HN HI. destruct (X s Hs) as (F & c & a & _ & _ & _ & _ & SP). rewrite F in HN. unfold spent_in in SP. rewrite HN in SP.
      rewrite E2 in HI. assert (T : existsb (Z.eqb nf) (map a_nf (chain_actions h)) = true) by (apply existsb_exists; exists nf; split; [exact HI|apply Z.eqb_refl]).
      congruence.
    - unfold different_notes. rewrite <- (map_map s_note n_rho), B3, map_map.
      assert (G : NoDup (map fst (filter pick (coins f h)))) by (apply nodup_filter; apply coins_distinct).
      assert (R : forall c, In c (filter pick (coins f h)) -> nth_error (lg_nfs lg) (fst c) = Some (n_rho (snd c))).
      { intros c Hc. apply filter_In in Hc as [Hc _]. apply coin_in in Hc as (a & A1 & A2 & _). rewrite E2.
        rewrite (map_nth_error a_nf _ _ A1). f_equal. symmetry.
        apply (proj1 (proj2 (opens_sound L _ f a (snd c) GD KF (proj1 (Forall_forall _ _) AO a (nth_error_In _ _ A1)) A2))). }
      clear -G R ND. induction (filter pick (coins f h)) as [|c l IH]; [constructor|]. cbn [map] in *. inversion G as [|? ? NI G']; subst.
      constructor; [|apply IH; [exact G'|intros d Hd; apply R; right; exact Hd]].
      intro Y. apply in_map_iff in Y as (d & D1 & D2). pose proof (R c (or_introl eq_refl)) as Rc. pose proof (R d (or_intror D2)) as Rd.
      rewrite D1 in Rd. apply NI. apply in_map_iff. exists d. split; [|exact D2].
      apply (proj1 (NoDup_nth_error (lg_nfs lg)) ND); [apply nth_error_Some; congruence|congruence].
    - intros s Hs _ _. destruct (X s Hs) as (_ & c & a & _ & _ & NA & OP & _). exists a. split; [exact (nth_error_In _ _ NA)|exact OP].
    - unfold spent, value_of. rewrite <- (map_map s_note n_value), B3, map_map. reflexivity.
    - unfold sent. rewrite B5. clear. induction outs as [|c outs IH]; [reflexivity|]. cbn [flat_map map zsum].
      destruct c as [f n p|k a v m]; cbn [output_of app map o_value zsum payment_value]; rewrite IH; lia.
    - intros mine D. unfold payments. rewrite (filter_all _ (fun s => mine (n_recipient (s_note s)))).
      + unfold value_of. rewrite <- (map_map s_note n_value), B3, map_map. reflexivity.
      + intros s Hs. destruct (X s Hs) as (_ & c & a & _ & _ & NA & OP & _).
        destruct (opens_sound L _ f a (s_note s) GD KF (proj1 (Forall_forall _ _) AO a (nth_error_In _ _ NA)) OP) as (KN & _ & _ & sc & k & HK & OW).
        apply (proj2 (D _)). exists sc. exact (owned_derives L f sc (s_note s) k KN HK OW).
  Qed.

  Lemma purse_pays : forall f ask mine h lg ty pick outs b fuel r b0 meta r' sighash r1 r2,
    (forall i v, try_from i = Some v -> into v = i) -> proofs_verify halo2_prove halo2_verify -> prover_succeeds halo2_prove ->
    gd_fallback_ok -> basepoint SpendAuth <> pt_id -> fvk_ok f -> ak_of_ask ask = fvk_ak f -> decides mine f -> reached halo2_verify into h lg ->
    purse_built f lg ty (filter pick (coins f h)) outs b ->
    build try_from fuel b r = Ret (Ok (Some (b0, meta)), r') -> (forall a, In a (b_actions b0) -> a_rk a <> pt_id) ->
    Z.of_nat (length (lg_cmxs lg) + length (b_actions b0)) <= 2 ^ 32 ->
    let ws := up_circuits (ip_proof (b_auth b0)) in
    (exists b1 r3 bd, create_proof halo2_prove b0 r1 = Ret (Ok b1, r3) /\ apply_signatures b1 r2 sighash [ask] = Ret (Ok bd) /\
       made halo2_prove try_from (tree_root (leaves_of (lg_cmxs lg)) 32) b (bd, sighash) meta ws /\
       (padding_repeats lg (bd, sighash) meta \/
        (accepts halo2_verify into lg (bd, sighash) /\
         (balance f (h ++ [(bd, sighash)]) = balance f h - value_of (filter pick (coins f h)) + receipts mine b \/
          surprise f h b (bd, sighash) ws \/ born_spent f h (bd, sighash))))) \/
    undefined_merkle_hash ws \/ requests_collide b.
  Proof.
    intros f ask mine h lg ty pick outs b fuel r b0 meta r' sighash r1 r2 TI PV PS GD BP KF AK D RE PB E RK SP ws.
    destruct (purse_legal f h lg ty pick outs b GD KF RE PB) as (KA & US & DN & SF & _ & _ & PM). destruct PB as (_ & RB & _ & B4 & _).
    assert (IA : is_base (tree_root (leaves_of (lg_cmxs lg)) 32)).
    { exact (known_base L halo2_verify into h lg _ RE KA). }
    assert (CV : covers [ask] b).
    { intros s Hs. exists ask. split; [left; reflexivity|]. rewrite (proj1 (Forall_forall _ _) B4 s Hs). exact AK. }
    destruct (pipeline_completes L halo2_prove halo2_verify try_from into ty _ b fuel r b0 meta r' sighash [ask] r1 r2 TI PV PS GD BP IA RB E RK CV)
      as [(b1 & r3 & bd & bt & P1 & P2 & P3 & _)|U]; [|right; left; exact U].
    destruct (applied_history halo2_prove b0 sighash r1 b1 r3 r2 [ask] bd P1 P2) as (b2 & H1 & H2).
    assert (MD : made halo2_prove try_from (tree_root (leaves_of (lg_cmxs lg)) 32) b (bd, sighash) meta ws).
    { exists ty, fuel, r, b0, r', b2. split; [exact RB|]. split; [exact E|]. split; [exact H1|]. split; [exact H2|reflexivity]. }
    assert (LB : length (b_actions bd) = length (b_actions b0)).
    { pose proof (f_equal (fun e => length (b_actions e)) P3) as X. unfold effects in X. cbn [b_actions] in X. rewrite !map_length in X. exact X. }
    assert (SP' : Z.of_nat (length (lg_cmxs lg) + length (b_actions (fst (bd, sighash)))) <= 2 ^ 32) by (cbn [fst]; rewrite LB; exact SP).
    destruct (made_accepted L halo2_prove halo2_verify try_from into h lg _ b (bd, sighash) meta ws TI PV GD BP RE KA MD US DN SP')
      as [A|[U|[PR|RC]]].
    - left. exists b1, r3, bd. split; [exact P1|]. split; [exact P2|]. split; [exact MD|]. right. split; [exact A|].
      destruct (balance_step L halo2_prove halo2_verify try_from into f mine h lg _ b (bd, sighash) meta ws GD KF D RE MD A SF) as [X|X]; [left|right; exact X].
      rewrite (PM mine D) in X. refine (eq_trans X _). clear. lia.
    - right. left. exact U.
    - left. exists b1, r3, bd. split; [exact P1|]. split; [exact P2|]. split; [exact MD|]. left. exact PR.
    - right. right. exact RC.
  Qed.

  Lemma purse_delivers : forall f lg ty cs outs b v fuel r, gd_fallback_ok -> spends_enabled (bt_flags ty) = true ->
    purse_built f lg ty cs outs b -> cs <> [] \/ outs <> [] -> Forall is_payment outs ->
    value_of cs < 2 ^ 64 -> zsum (map payment_value outs) < 2 ^ 64 ->
    i64_ok (value_of cs - zsum (map payment_value outs)) -> try_from (value_of cs - zsum (map payment_value outs)) = Some v ->
    (exists b0 meta r', build try_from fuel b r = Ret (Ok (Some (b0, meta)), r') /\ b_value_balance b0 = v) \/
    (exists why, build try_from fuel b r = Panic why /\ rng_hits_zero_key r) \/
    (build try_from fuel b r = OutOfFuel /\ rejected_in_a_row fuel r).
  Proof using L try_from.
    clear halo2_prove halo2_verify into. intros f lg ty cs outs b v fuel r GD T1 (_ & RB & B3 & B4 & B5) NE HP V1 V2 V3 V4.
    assert (ES : spent b = value_of cs) by (unfold spent, value_of; rewrite <- (map_map s_note n_value), B3, map_map; reflexivity).
    assert (ET : sent b = zsum (map payment_value outs)).
    { unfold sent. rewrite B5. clear. induction outs as [|c outs IH]; [reflexivity|]. cbn [flat_map map zsum].
      destruct c as [g n p|k a w m]; cbn [output_of app map o_value zsum payment_value]; rewrite IH; lia. }
    rewrite <- ES, <- ET in *.
    destruct (build_balance L try_from ty _ b GD RB) as (G1 & _ & G3). destruct (G3 v V1 V2 V3 V4) as [_ G4].
    destruct (build try_from fuel b r) as [[res r']|why|] eqn:E.
    - left. destruct (G4 fuel r res r' E) as [o ->].
      destruct (build_shape L try_from ty _ b fuel r o r' GD RB E) as (n & N1 & N2 & _).
      destruct o as [[b0 meta]|].
      + exists b0, meta, r'. split; [reflexivity|]. pose proof (G1 fuel r b0 meta r' E) as X. rewrite V4 in X. congruence.
      + exfalso. assert (N0 : n = 0%nat) by (apply (proj1 N2); reflexivity). subst n.
        pose proof (num_actions_spec ty (length (bl_spends b)) (length (bl_outputs b))) as X. cbv zeta in X. rewrite N1 in X.
        destruct X as (_ & _ & X). destruct ty as [fl rq|]; [|discriminate T1].
        assert (LN : (0 < length (bl_spends b) + length (bl_outputs b))%nat).
        { destruct NE as [NE|NE].
          - apply (f_equal (@length _)) in B3. rewrite !map_length in B3. destruct cs; [contradiction|]. cbn [length] in B3. lia.
          - rewrite B5. destruct outs as [|c outs]; [contradiction|]. inversion HP as [|? ? PC _]; subst. destruct c; [destruct PC|].
            cbn [flat_map output_of app length]. lia. }
        destruct (length (bl_spends b)) as [|i], (length (bl_outputs b)) as [|j]; try (cbn in LN; lia);
          cbn [Nat.eqb andb negb] in X; rewrite orb_true_r in X; lia.
    - right. left. exists why. split; [reflexivity|]. exact (proj1 (build_outcome L try_from ty _ b fuel r GD RB) why E).
    - right. right. split; [reflexivity|]. exact (build_ends V try_from fuel b r E).
  Qed.
End Purse.
