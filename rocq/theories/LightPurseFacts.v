(** Proofs for C101. *)
From Coq Require Import String ZArith List Bool Lia.
From Coq Require Import Init.Byte.
From Verif Require Import Prelude Fields Curve Oracles Spec Sinsemilla SinsSpec RedPallas Value Keys KeysSpec Note NoteSpec Tree TreeSpec
  Action NoteEnc NoteEncSpec Bundle Batch Builder Signing BundleSpec BuilderSpec SigningSpec RngSpec Halo2 Circuit CircuitSpec PipelineSpec LedgerSpec
  WalletSpec BackedSpec LifeSpec BalanceSpec PurseSpec LightSpec PreludeFacts NumTheory CurveFacts CodecFacts NoteFacts KeysFacts NoteEncFacts TreeFacts BuilderFacts
  BuildFacts SigningFacts PipelineFacts LedgerFacts WalletFacts BackedFacts OwnerFacts LifeFacts BalanceFacts FuelSpec FuelFacts PurseFacts LightFacts CircuitBuildFacts LightPurseSpec.
Import ListNotations.
Open Scope Z_scope.

#[local] Opaque sins_commit prf_expand to_scalar to_base le_bits bytes_bits msg_words sins_Q commit_R lin.
#[local] Opaque node tree_root auth_path root_loop root_inputs commitment build try_note_decryption try_compact_note_decryption diversify_hash note_nullifier.

Section LightPurse.
  Context {C : Curve} {OR : @Oracles C} {V : Type}.
  Variable L : CurveLaws C.
  Notation tx := (@tx C V).

  Lemma light_coin_in : forall f cs c, In c (light_coins f cs) <->
    exists a, nth_error cs (fst c) = Some a /\ opens_compact f a = Some (snd c) /\ spent_in f (map c_nf cs) (snd c) = false.
  Proof using.
    clear L. intros f cs [p n]. unfold light_coins. rewrite in_flat_map. cbn [fst snd]. split.
    - intros ([q a] & H1 & H2). apply in_indexed in H1 as [_ H1]. rewrite Nat.sub_0_r in H1. unfold light_coin in H2. cbn [fst snd] in H2.
      destruct (opens_compact f a) as [n'|] eqn:EO; [|destruct H2]. destruct (spent_in f (map c_nf cs) n') eqn:ES; [destruct H2|].
      destruct H2 as [H2|[]]. injection H2 as <- <-. exists a. split; [exact H1|]. split; [exact EO|exact ES].
    - intros (a & H1 & H2 & H3). exists (p, a). split; [apply in_indexed; split; [lia|rewrite Nat.sub_0_r; exact H1]|].
      unfold light_coin. cbn [fst snd]. rewrite H2, H3. left. reflexivity.
  Qed.
  Lemma light_coins_value : forall f cs, value_of (light_coins f cs) = light_balance f cs.
  Proof using.
    clear L. intros f cs. unfold light_balance, light_coins. set (N := map c_nf cs).
    refine (eq_trans _ (f_equal (fun l => zsum (map (light_worth f N) l)) (map_snd_indexed _ cs 0))). generalize (List.combine (seq 0 (length cs)) cs). intro l.
    induction l as [|[p a] l IH]; [reflexivity|]. cbn [flat_map map snd]. unfold value_of in *. rewrite map_app, zsum_app, IH. cbn [zsum]. f_equal.
    unfold light_coin, light_worth. cbn [fst snd]. destruct (opens_compact f a) as [n|]; [|reflexivity]. destruct (spent_in f N n); [reflexivity|]. cbn [map zsum snd]. lia.
  Qed.
  Lemma light_coins_distinct : forall f cs, NoDup (map fst (light_coins f cs)).
  Proof using.
    clear L. intros f cs. unfold light_coins. set (N := map c_nf cs). pose proof (nodup_indexed _ cs 0) as H. revert H.
    generalize (List.combine (seq 0 (length cs)) cs). intro l.
    induction l as [|[p a] l IH]; intro H; [constructor|]. cbn [map fst] in H. inversion H as [|? ? NI ND]; subst. cbn [flat_map].
    rewrite map_app. unfold light_coin at 1. cbn [fst snd]. destruct (opens_compact f a) as [n|]; [|exact (IH ND)].
    destruct (spent_in f N n); [exact (IH ND)|]. cbn [map fst app]. constructor; [|exact (IH ND)].
    intro X. apply NI. apply in_map_iff in X as ([q m] & E & X). cbn [fst] in E. subst q. apply in_flat_map in X as ([q b] & X1 & X2).
    unfold light_coin in X2. cbn [fst snd] in X2. destruct (opens_compact f b) as [k|]; [|destruct X2]. destruct (spent_in f N k); [destruct X2|].
    destruct X2 as [X2|[]]. injection X2 as -> _. apply in_map_iff. exists (p, b). split; [reflexivity|exact X1].
  Qed.

  Lemma compact_nfs : forall h : list tx, map c_nf (compact_chain h) = map a_nf (chain_actions h).
  Proof using. clear L. intro h. unfold compact_chain. rewrite map_map. reflexivity. Qed.
  Lemma compact_cmxs : forall h : list tx, map c_cmx (compact_chain h) = map a_cmx (chain_actions h).
  Proof using. clear L. intro h. unfold compact_chain. rewrite map_map. reflexivity. Qed.

  Lemma opens_compact_sound : forall A f (a : action A) n, gd_fallback_ok -> fvk_ok f -> action_ok a -> opens_compact f (compact_of_action a) = Some n ->
    note_ok n /\ n_rho n = a_nf a /\ (exists cm, commitment n = Ret cm /\ pt_x cm = a_cmx a) /\
    exists s k, fvk_to_ivk f s = Ret k /\ owned_by k (n_recipient n).
  Proof using L.
    intros A f a n GD KF KA H. unfold opens_compact in H.
    destruct (fvk_ok_to_ivk L f External KF) as (e & HE & KE). destruct (fvk_ok_to_ivk L f Internal KF) as (i & HI & KI).
    rewrite HE, HI in H.
    assert (CL : length (c_enc (compact_of_action a)) = 52%nat).
    { unfold compact_of_action. cbn [c_enc]. unfold slice. rewrite firstn_length, skipn_length. rewrite (co_enc _ (ao_ct _ KA)). reflexivity. }
    assert (G : forall s k to, fvk_to_ivk f s = Ret k -> ivk_ok k -> try_compact_note_decryption k (compact_of_action a) = Ret (Some (n, to)) ->
      note_ok n /\ n_rho n = a_nf a /\ (exists cm, commitment n = Ret cm /\ pt_x cm = a_cmx a) /\
      exists s k, fvk_to_ivk f s = Ret k /\ owned_by k (n_recipient n)).
    { intros s k to HK KK TD. destruct (compact_sound L k (compact_of_action a) GD KK CL (ao_nf _ KA) (ao_cmx _ KA)) as (r & TR & F).
      assert (ER : r = Some (n, to)) by congruence. destruct (F _ _ ER) as (KN & (M1 & M2 & _) & -> & OW).
      split; [exact KN|]. split; [exact M1|]. split; [exact M2|]. exists s, k. split; assumption. }
    destruct (try_compact_note_decryption e (compact_of_action a)) as [[[n' to]|]| |] eqn:T1.
    1:{ assert (n' = n) by congruence. subst n'. exact (G External e to HE KE T1). }
    all: destruct (try_compact_note_decryption i (compact_of_action a)) as [[[n' to]|]| |] eqn:T2; try discriminate H;
      assert (n' = n) by congruence; subst n'; exact (G Internal i to HI KI T2).
  Qed.

  Variables (halo2_prove : list witness -> list (list Z) -> rng -> option bytes * rng) (halo2_verify : bytes -> list (list Z) -> bool)
    (try_from : Z -> option V) (into : V -> Z).

  Lemma light_note : forall f h lg c, gd_fallback_ok -> fvk_ok f -> reached halo2_verify into h lg -> In c (light_coins f (compact_chain h)) ->
    (exists s, in_wallet f s (snd c)) /\ (exists cm, commitment (snd c) = Ret cm /\ nth_error (lg_cmxs lg) (fst c) = Some (pt_x cm)) /\
    nth_error (lg_nfs lg) (fst c) = Some (n_rho (snd c)) /\ spent_in f (lg_nfs lg) (snd c) = false /\
    Z.of_nat (fst c) < 2 ^ 32 /\ Forall is_base (lg_cmxs lg).
  Proof using L.
    clear halo2_prove try_from. intros f h lg c GD KF RE HC. destruct (chain_lists halo2_verify into h lg RE) as (E1 & E2 & AO & _ & SP).
    apply light_coin_in in HC as (ca & NC & OC & US). unfold compact_chain in NC. rewrite nth_error_map in NC.
    destruct (nth_error (chain_actions h) (fst c)) as [a|] eqn:NA; cbn [option_map] in NC; [|discriminate NC]. injection NC as <-.
    assert (KA : action_ok a) by (apply (proj1 (Forall_forall _ _) AO); apply (nth_error_In _ _ NA)).
    destruct (opens_compact_sound _ f a (snd c) GD KF KA OC) as (KN & M1 & (cm & M2 & M3) & s & k & HK & OW).
    split; [exists s; split; [exact KN|exists k; split; assumption]|].
    split; [exists cm; split; [exact M2|]; rewrite E1, M3; apply map_nth_error; exact NA|].
    split; [rewrite E2, M1; apply map_nth_error; exact NA|].
    split; [rewrite E2, <- compact_nfs; exact US|].
    split.
    - assert (fst c < length (chain_actions h))%nat by (apply nth_error_Some; congruence). lia.
    - rewrite E1. apply Forall_forall. intros x Hx. apply in_map_iff in Hx as (b & <- & Hb).
      apply (ao_cmx _ (proj1 (Forall_forall _ _) AO b Hb)).
  Qed.

  (** A note of the wallet whose commitment is in the tree can be added to a builder at the root of the tree. *)
  Lemma wallet_note_spends : forall f s cmxs pos n cm b, fvk_ok f -> in_wallet f s n -> commitment n = Ret cm -> nth_error cmxs pos = Some (pt_x cm) ->
    Z.of_nat pos < 2 ^ 32 -> Forall is_base cmxs ->
    spends_enabled (bt_flags (bl_type b)) = true -> bl_anchor b = tree_root (leaves_of cmxs) 32 ->
    exists path s', mp_from_position (Z.of_nat pos) (auth_path (leaves_of cmxs) (Z.of_nat pos) 32) = Ret path /\
      call_ok (AddSpend f n path) /\
      add_spend b f n path = Ret (Ok tt, with_spend b (mk_spend None f s' n path)).
  Proof using L.
    clear halo2_prove halo2_verify try_from into. intros f s cmxs pos n cm b KF (KN & k & HK & OW) HC NC BP CB SE AN.
    destruct (path_gives_root_full (leaves_of cmxs) (Z.of_nat pos)) as [P1 P2]; [lia|].
    set (path := mk_path (Z.of_nat pos) (auth_path (leaves_of cmxs) (Z.of_nat pos) 32)) in *.
    assert (LV : leaves_of cmxs (Z.of_nat pos) = pt_x cm).
    { assert (pos < length cmxs)%nat by (apply nth_error_Some; congruence).
      unfold leaves_of. rewrite (proj2 (Z.leb_le 0 (Z.of_nat pos))) by lia. rewrite (proj2 (Z.ltb_lt (Z.of_nat pos) _)) by lia.
      cbn [andb]. rewrite Nat2Z.id. apply nth_error_nth. exact NC. }
    rewrite LV in P2.
    assert (CO : call_ok (AddSpend f n path)).
    { cbn [call_ok]. split; [exact KF|]. split; [exact KN|]. split; [exists cm; exact HC|].
      split; [cbn [path mp_position]; lia|apply auth_path_length|apply (auth_path_base L); apply leaves_base; exact CB]. }
    pose proof (owned_derives L f s n k KN HK OW) as DV.
    destruct (owner_of_scope L f (n_recipient n) KF) as (o & EO & HO).
    destruct o as [s'|].
    2:{ exfalso. destruct s; [exact (HO External DV)|]. apply (HO Internal). split; [exact DV|]. exact (HO External). }
    exists path, s'. split; [exact P1|]. split; [exact CO|].
    unfold add_spend. rewrite SE. cbn [negb]. unfold spend_info_new. rewrite EO. cbn [obind].
    destruct (anchor_spec (mk_spend None f s' n path) (bl_anchor b) cm HC) as (ok & -> & HW). cbn [obind].
    cbn [s_note s_path] in HW. destruct ok; [reflexivity|].
    assert (X : false = true); [|discriminate X]. apply HW. right. exists cm. split; [exact HC|]. rewrite AN. exact P2.
  Qed.

  Lemma light_run_spends : forall f h lg cs, gd_fallback_ok -> fvk_ok f -> reached halo2_verify into h lg ->
    (forall c, In c cs -> In c (light_coins f (compact_chain h))) ->
    forall b, spends_enabled (bt_flags (bl_type b)) = true -> bl_anchor b = tree_root (leaves_of (lg_cmxs lg)) 32 ->
    exists rs ss, run b (flat_map (spend_of f (lg_cmxs lg)) cs) = Ret (rs, mk_builder (bl_spends b ++ ss) (bl_outputs b) (bl_type b) (bl_anchor b)) /\
      Forall agrees rs /\ Forall call_ok (flat_map (spend_of f (lg_cmxs lg)) cs) /\ map s_note ss = map snd cs /\ Forall (fun s => s_fvk s = f) ss.
  Proof using L.
    clear halo2_prove try_from. intros f h lg cs GD KF RE. induction cs as [|c cs IH]; intros HC b B1 B2.
    - exists [], []. cbn [flat_map run map]. rewrite app_nil_r. split; [destruct b; reflexivity|]. split; [constructor|]. split; [constructor|]. split; [reflexivity|constructor].
    - destruct (light_note f h lg c GD KF RE (HC c (or_introl eq_refl))) as ((s & W) & (cm & CM & NC) & _ & _ & BP & CB).
      destruct (wallet_note_spends f s (lg_cmxs lg) (fst c) (snd c) cm b KF W CM NC BP CB B1 B2) as (path & s' & P1 & P2 & P4).
      set (b1 := with_spend b (mk_spend None f s' (snd c) path)) in *.
      destruct (IH (fun x Hx => HC x (or_intror Hx)) b1 B1 B2) as (rs & ss & I1 & I2 & I3 & I4 & I5).
      exists (RSpend (Ok tt) :: rs), (mk_spend None f s' (snd c) path :: ss). cbn [flat_map].
      assert (ES : spend_of f (lg_cmxs lg) c = [AddSpend f (snd c) path]) by (unfold spend_of; rewrite P1; reflexivity). rewrite ES. cbn [app].
      split.
      { cbn [run step]. rewrite P4. cbn [obind]. fold b1. rewrite I1. cbn [obind]. unfold b1, with_spend. cbn [bl_spends bl_outputs bl_type bl_anchor].
        rewrite <- app_assoc. reflexivity. }
      split; [constructor; [left; reflexivity|exact I2]|]. split; [constructor; assumption|]. cbn [map s_note]. rewrite I4. split; [reflexivity|].
      constructor; [reflexivity|exact I5].
  Qed.

  Lemma light_run : forall f h lg ty pick outs, gd_fallback_ok -> fvk_ok f -> reached halo2_verify into h lg ->
    spends_enabled (bt_flags ty) = true -> outputs_enabled (bt_flags ty) = true -> Forall is_payment outs -> Forall call_ok outs ->
    exists b, purse_built f lg ty (filter pick (light_coins f (compact_chain h))) outs b.
  Proof using L.
    clear halo2_prove try_from. intros f h lg ty pick outs GD KF RE T1 T2 HP HO. set (cs := filter pick (light_coins f (compact_chain h))).
    assert (HC : forall c, In c cs -> In c (light_coins f (compact_chain h))) by (intros c Hc; apply filter_In in Hc as [Hc _]; exact Hc).
    destruct (light_run_spends f h lg cs GD KF RE HC (builder_new ty (tree_root (leaves_of (lg_cmxs lg)) 32)) T1 eq_refl) as (rs & ss & R1 & R2 & R3 & R4 & R5).
    match type of R1 with _ = Ret (_, ?b) => set (b1 := b) in * end.
    destruct (run_payments outs HP b1 T2) as (rs' & os & P1 & P2 & P3).
    pose proof (run_app _ _ _ _ _ _ _ R1 P1) as RA.
    exists (mk_builder (bl_spends b1) (bl_outputs b1 ++ os) (bl_type b1) (bl_anchor b1)). split.
    { exists (rs ++ rs'). split; [exact RA|]. apply Forall_app. split; assumption. }
    split. { exists (flat_map (spend_of f (lg_cmxs lg)) cs ++ outs), (rs ++ rs'). split; [apply Forall_app; split; assumption|exact RA]. }
    split; [exact R4|]. split; [exact R5|exact P3].
  Qed.

  Lemma light_legal : forall f h lg ty pick outs b, gd_fallback_ok -> fvk_ok f -> reached halo2_verify into h lg ->
    purse_built f lg ty (filter pick (light_coins f (compact_chain h))) outs b ->
    known_anchor lg (tree_root (leaves_of (lg_cmxs lg)) 32) /\ unspent lg b /\ different_notes b /\
    spent b = value_of (filter pick (light_coins f (compact_chain h))) /\ sent b = zsum (map payment_value outs).
  Proof using L.
    clear halo2_prove try_from. intros f h lg ty pick outs b GD KF RE (_ & _ & B3 & B4 & B5). destruct (chain_lists halo2_verify into h lg RE) as (E1 & E2 & AO & ND & _).
    split; [|split; [|split; [|split]]].
    - exists (length (lg_cmxs lg)). split; [lia|]. rewrite firstn_all. reflexivity.
    - intros s nf Hs HN HI. destruct (map_in _ _ _ _ _ _ _ s B3 Hs) as (c & C1 & C2). apply filter_In in C1 as [C1 _].
      destruct (light_note f h lg c GD KF RE C1) as (_ & _ & _ & SP & _).
      rewrite (proj1 (Forall_forall _ _) B4 s Hs), C2 in HN. unfold spent_in in SP. rewrite HN in SP.
      assert (T : existsb (Z.eqb nf) (lg_nfs lg) = true) by (apply existsb_exists; exists nf; split; [exact HI|apply Z.eqb_refl]).
      congruence.
    - unfold different_notes. rewrite <- (map_map s_note n_rho), B3, map_map.
      assert (G : NoDup (map fst (filter pick (light_coins f (compact_chain h))))) by (apply nodup_filter; apply light_coins_distinct).
      assert (R : forall c, In c (filter pick (light_coins f (compact_chain h))) -> nth_error (lg_nfs lg) (fst c) = Some (n_rho (snd c))).
      { intros c Hc. apply filter_In in Hc as [Hc _]. apply (light_note f h lg c GD KF RE Hc). }
      clear -G R ND. induction (filter pick (light_coins f (compact_chain h))) as [|c l IH]; [constructor|]. cbn [map] in *. inversion G as [|? ? NI G']; subst.
      constructor; [|apply IH; [exact G'|intros d Hd; apply R; right; exact Hd]].
      intro Y. apply in_map_iff in Y as (d & D1 & D2). pose proof (R c (or_introl eq_refl)) as Rc. pose proof (R d (or_intror D2)) as Rd.
      rewrite D1 in Rd. apply NI. apply in_map_iff. exists d. split; [|exact D2].
      apply (proj1 (NoDup_nth_error (lg_nfs lg)) ND); [apply nth_error_Some; congruence|congruence].
    - unfold spent, value_of. rewrite <- (map_map s_note n_value), B3, map_map. reflexivity.
    - unfold sent. rewrite B5. clear. induction outs as [|c outs IH]; [reflexivity|]. cbn [flat_map map zsum].
      destruct c as [f n p|k a v m]; cbn [output_of app map o_value zsum payment_value]; rewrite IH; lia.
  Qed.

  Lemma light_pays : forall f ask h lg ty pick outs b fuel r b0 meta r' sighash r1 r2,
    (forall i v, try_from i = Some v -> into v = i) -> proofs_verify halo2_prove halo2_verify -> prover_succeeds halo2_prove ->
    gd_fallback_ok -> basepoint SpendAuth <> pt_id -> fvk_ok f -> ak_of_ask ask = fvk_ak f -> reached halo2_verify into h lg ->
    purse_built f lg ty (filter pick (light_coins f (compact_chain h))) outs b ->
    build try_from fuel b r = Ret (Ok (Some (b0, meta)), r') -> (forall a, In a (b_actions b0) -> a_rk a <> pt_id) ->
    Z.of_nat (length (lg_cmxs lg) + length (b_actions b0)) <= 2 ^ 32 ->
    let ws := up_circuits (ip_proof (b_auth b0)) in
    (exists b1 r3 bd, create_proof halo2_prove b0 r1 = Ret (Ok b1, r3) /\ apply_signatures b1 r2 sighash [ask] = Ret (Ok bd) /\
       (padding_repeats lg (bd, sighash) meta \/ accepts halo2_verify into lg (bd, sighash))) \/
    undefined_merkle_hash ws \/ requests_collide b.
  Proof.
    intros f ask h lg ty pick outs b fuel r b0 meta r' sighash r1 r2 TI PV PS GD BP KF AK RE PB E RK SP ws.
    destruct (light_legal f h lg ty pick outs b GD KF RE PB) as (KA & US & DN & _). destruct PB as (_ & RB & _ & B4 & _).
    assert (IA : is_base (tree_root (leaves_of (lg_cmxs lg)) 32)).
    { exact (known_base L halo2_verify into h lg _ RE KA). }
    assert (CV : covers [ask] b).
    { intros s Hs. exists ask. split; [left; reflexivity|]. rewrite (proj1 (Forall_forall _ _) B4 s Hs). exact AK. }
    destruct (pipeline_completes L halo2_prove halo2_verify try_from into ty _ b fuel r b0 meta r' sighash [ask] r1 r2 TI PV PS GD BP IA RB E RK CV)
      as [(b1 & r3 & bd & bt & P1 & P2 & P3 & _)|U]; [|right; left; exact U].
    destruct (applied_history halo2_prove b0 sighash r1 b1 r3 r2 [ask] bd P1 P2) as (b2 & H1 & H2).
    assert (MD : made halo2_prove try_from (tree_root (leaves_of (lg_cmxs lg)) 32) b (bd, sighash) meta ws).
    { exists ty, fuel, r, b0, r', b2. split; [exact RB|]. split; [exact E|]. split; [exact H1|]. split; [exact H2|reflexivity]. }
    assert (LB : length (b_actions bd) = length (b_actions b0)).
    { pose proof (f_equal (fun e => length (b_actions e)) P3) as X. unfold effects in X. cbn [b_actions] in X. rewrite !map_length in X. exact X. }
    assert (SP' : Z.of_nat (length (lg_cmxs lg) + length (b_actions (fst (bd, sighash)))) <= 2 ^ 32) by (cbn [fst]; rewrite LB; exact SP).
    destruct (made_accepted L halo2_prove halo2_verify try_from into h lg _ b (bd, sighash) meta ws TI PV GD BP RE KA MD US DN SP')
      as [A|[U|[PR|RC]]].
    - left. exists b1, r3, bd. split; [exact P1|]. split; [exact P2|]. right. exact A.
    - right. left. exact U.
    - left. exists b1, r3, bd. split; [exact P1|]. split; [exact P2|]. left. exact PR.
    - right. right. exact RC.
  Qed.

  (** The tree and the nullifier set are those of the download. *)
  Lemma light_ledger : forall h lg, reached halo2_verify into h lg ->
    map c_cmx (compact_chain h) = lg_cmxs lg /\ map c_nf (compact_chain h) = lg_nfs lg.
  Proof using.
    clear L halo2_prove try_from. intros h lg RE. destruct (chain_lists halo2_verify into h lg RE) as (E1 & E2 & _).
    rewrite compact_cmxs, compact_nfs. split; symmetry; assumption.
  Qed.
  (** What a full wallet finds, a light client finds too. *)
  Lemma light_misses_nothing : forall A f (a : action A) n, opens f a = Some n -> ct_ok (a_ct a) ->
    exists n', opens_compact f (compact_of_action a) = Some n'.
  Proof using.
    clear L halo2_prove halo2_verify try_from into. intros A f a n H KA. unfold opens in H. unfold opens_compact.
    destruct (fvk_to_ivk f External) as [e| |]; try discriminate H. destruct (fvk_to_ivk f Internal) as [i| |]; try discriminate H.
    destruct (try_note_decryption e a) as [[[[n' to] m]|]| |] eqn:T1.
    1:{ rewrite (proj1 (compact_agrees A e a KA) n' to m T1). eexists. reflexivity. }
    all: destruct (try_compact_note_decryption e (compact_of_action a)) as [[[n1 to1]|]| |]; try (eexists; reflexivity).
    all: destruct (try_note_decryption i a) as [[[[n' to] m]|]| |] eqn:T2; try discriminate H;
      rewrite (proj1 (compact_agrees A i a KA) n' to m T2); eexists; reflexivity.
  Qed.
End LightPurse.
