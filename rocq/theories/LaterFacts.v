(** Proofs for C98. *)
From Coq Require Import String ZArith List Bool Lia.
From Coq Require Import Init.Byte.
From Verif Require Import Prelude PreludeFacts Fields Curve CurveFacts Oracles Spec Sinsemilla SinsSpec RedPallas Value Keys KeysSpec Note NoteSpec Tree TreeSpec Action
  NoteEnc NoteEncSpec Bundle BundleSpec Batch Builder Signing BuilderSpec SigningSpec SigningFacts Circuit CircuitSpec PipelineSpec PipelineFacts LedgerSpec LedgerFacts
  WalletSpec WalletFacts BackedSpec LifeSpec LifeFacts BalanceSpec BalanceFacts PurseSpec PurseFacts MempoolSpec MempoolFacts.
Import ListNotations.
Open Scope Z_scope.

Section Later.
  Context {C : Curve} {OR : @Oracles C} {V : Type} (L : CurveLaws C).
  Variables (halo2_prove : list witness -> list (list Z) -> rng -> option bytes * rng) (halo2_verify : bytes -> list (list Z) -> bool)
    (try_from : Z -> option V) (into : V -> Z).
  #[local] Opaque tree_root leaves_of auth_path node note_nullifier try_note_decryption build commitment diversify_hash balance.

  Lemma fork_survival : forall lg0 tsA lgA tsB lgB t, applied halo2_verify into lg0 tsA lgA -> applied halo2_verify into lg0 tsB lgB ->
    NoDup (lg_nfs lg0) -> known_anchor lg0 (b_anchor (fst t)) -> accepts halo2_verify into lgA t ->
    (accepts halo2_verify into lgB t <->
     disjoint (tx_nfs t) (flat_map tx_nfs tsB) /\ Z.of_nat (length (lg_cmxs lgB) + tx_size t) <= 2 ^ 32).
  Proof using.
    clear L halo2_prove try_from. intros lg0 tsA lgA tsB lgB t PA PB N0 (n & N1 & N2) A.
    destruct (applied_lists _ _ _ _ _ PA) as (A1 & A2 & _). destruct (applied_lists _ _ _ _ _ PB) as (B1 & B2 & _).
    pose proof (ac_nfs _ _ _ _ A) as NA. fold (tx_nfs t) in NA. rewrite A1 in NA. apply nodup_app_iff in NA as (_ & M2 & M3).
    split.
    - intros [_ _ _ ND SP]. split; [|exact SP]. fold (tx_nfs t) in ND. rewrite B1 in ND. apply nodup_app_iff in ND as (_ & _ & D).
      intros x I J. apply (D x); [apply in_or_app; right; exact J|exact I].
    - intros [D SP]. constructor; [exact (ac_types _ _ _ _ A)|exact (ac_valid _ _ _ _ A)| | |exact SP].
      + exists n. rewrite B2. split; [rewrite app_length; lia|]. rewrite N2, firstn_app.
        replace (n - length (lg_cmxs lg0))%nat with 0%nat by lia. cbn [firstn]. rewrite app_nil_r. reflexivity.
      + fold (tx_nfs t). apply nodup_app_iff. split; [exact (applied_nodup _ _ _ _ _ PB N0)|]. split; [exact M2|].
        intros x I J. rewrite B1 in I. apply in_app_or in I as [I|I]; [|exact (D x J I)].
        apply (M3 x); [apply in_or_app; left; exact I|exact J].
  Qed.
  Lemma fork : forall h0 lg0 tsA lgA tsB lgB t, reached halo2_verify into h0 lg0 -> applied halo2_verify into lg0 tsA lgA -> applied halo2_verify into lg0 tsB lgB ->
    known_anchor lg0 (b_anchor (fst t)) -> accepts halo2_verify into lgA t ->
    (accepts halo2_verify into lgB t <->
     disjoint (tx_nfs t) (flat_map tx_nfs tsB) /\ Z.of_nat (length (lg_cmxs lgB) + tx_size t) <= 2 ^ 32).
  Proof using.
    intros h0 lg0 tsA lgA tsB lgB t R PA PB KA A. exact (fork_survival lg0 tsA lgA tsB lgB t PA PB (reached_nodup _ _ _ _ R) KA A).
  Qed.

  Lemma older_root : forall f ask mine h0 lg0 h1 lg ty pick outs b fuel r b0 meta r' sighash r1 r2,
    (forall i v, try_from i = Some v -> into v = i) -> proofs_verify halo2_prove halo2_verify -> prover_succeeds halo2_prove ->
    gd_fallback_ok -> basepoint SpendAuth <> pt_id -> fvk_ok f -> ak_of_ask ask = fvk_ak f -> decides mine f ->
    reached halo2_verify into h0 lg0 -> applied halo2_verify into lg0 h1 lg ->
    purse_built f lg0 ty (filter pick (coins f h0)) outs b -> incl (filter pick (coins f h0)) (coins f (h0 ++ h1)) ->
    build try_from fuel b r = Ret (Ok (Some (b0, meta)), r') -> (forall a, In a (b_actions b0) -> a_rk a <> pt_id) ->
    Z.of_nat (length (lg_cmxs lg) + length (b_actions b0)) <= 2 ^ 32 ->
    let ws := up_circuits (ip_proof (b_auth b0)) in
    (exists b1 r3 bd, create_proof halo2_prove b0 r1 = Ret (Ok b1, r3) /\ apply_signatures b1 r2 sighash [ask] = Ret (Ok bd) /\
       made halo2_prove try_from (tree_root (leaves_of (lg_cmxs lg0)) 32) b (bd, sighash) meta ws /\
       (padding_repeats lg (bd, sighash) meta \/
        (accepts halo2_verify into lg (bd, sighash) /\
         (balance f ((h0 ++ h1) ++ [(bd, sighash)]) = balance f (h0 ++ h1) - value_of (filter pick (coins f h0)) + receipts mine b \/
          surprise f (h0 ++ h1) b (bd, sighash) ws \/ born_spent f (h0 ++ h1) (bd, sighash))))) \/
    undefined_merkle_hash ws \/ requests_collide b.
  Proof using L.
    intros f ask mine h0 lg0 h1 lg ty pick outs b fuel r b0 meta r' sighash r1 r2 TI PV PS GD BP KF AK D R0 AP PB IC E RK SP ws.
    destruct (purse_legal L halo2_verify into f h0 lg0 ty pick outs b GD KF R0 PB) as (KA0 & _ & DN & SF0 & _ & _ & PM).
    destruct PB as (_ & RB & B3 & B4 & _).
    pose proof (applied_reached _ _ _ _ _ AP h0 R0) as RE.
    destruct (applied_lists _ _ _ _ _ AP) as (_ & A2 & _).
    destruct (chain_lists halo2_verify into (h0 ++ h1) lg RE) as (_ & E2 & _).
    assert (KA : known_anchor lg (tree_root (leaves_of (lg_cmxs lg0)) 32)).
    { exists (length (lg_cmxs lg0)). rewrite A2. split; [rewrite app_length; lia|].
      rewrite firstn_app, Nat.sub_diag, firstn_all. cbn [firstn]. rewrite app_nil_r. reflexivity. }
    assert (US : unspent lg b).
    { intros s nf Hs HN HI.
      assert (IS : In (s_note s) (map snd (filter pick (coins f h0)))) by (rewrite <- B3; apply in_map; exact Hs).
      apply in_map_iff in IS as (c & C1 & C2). apply IC in C2. apply coin_in in C2 as (a & _ & _ & SPT).
      rewrite (proj1 (Forall_forall _ _) B4 s Hs) in HN. rewrite C1 in SPT. unfold spent_in in SPT. rewrite HN in SPT. rewrite E2 in HI.
      assert (T : existsb (Z.eqb nf) (map a_nf (chain_actions (h0 ++ h1))) = true) by (apply existsb_exists; exists nf; split; [exact HI|apply Z.eqb_refl]).
      congruence. }
    assert (SF : spends_found f (h0 ++ h1) b).
    { intros s Hs H1 H2. destruct (SF0 s Hs H1 H2) as (a & I & O). exists a. split; [|exact O]. unfold chain_actions in *. rewrite flat_map_app. apply in_or_app. left. exact I. }
    assert (IA : is_base (tree_root (leaves_of (lg_cmxs lg0)) 32)) by exact (known_base L halo2_verify into h0 lg0 _ R0 KA0).
    assert (CV : covers [ask] b).
    { intros s Hs. exists ask. split; [left; reflexivity|]. rewrite (proj1 (Forall_forall _ _) B4 s Hs). exact AK. }
    destruct (pipeline_completes L halo2_prove halo2_verify try_from into ty _ b fuel r b0 meta r' sighash [ask] r1 r2 TI PV PS GD BP IA RB E RK CV)
      as [(b1 & r3 & bd & bt & P1 & P2 & P3 & _)|U]; [|right; left; exact U].
    destruct (applied_history halo2_prove b0 sighash r1 b1 r3 r2 [ask] bd P1 P2) as (b2 & H1 & H2).
    assert (MD : made halo2_prove try_from (tree_root (leaves_of (lg_cmxs lg0)) 32) b (bd, sighash) meta ws).
    { exists ty, fuel, r, b0, r', b2. split; [exact RB|]. split; [exact E|]. split; [exact H1|]. split; [exact H2|reflexivity]. }
    assert (LB : length (b_actions bd) = length (b_actions b0)).
    { pose proof (f_equal (fun e => length (b_actions e)) P3) as X. unfold effects in X. cbn [b_actions] in X. rewrite !map_length in X. exact X. }
    assert (SP' : Z.of_nat (length (lg_cmxs lg) + length (b_actions (fst (bd, sighash)))) <= 2 ^ 32) by (cbn [fst]; rewrite LB; exact SP).
    destruct (made_accepted L halo2_prove halo2_verify try_from into (h0 ++ h1) lg _ b (bd, sighash) meta ws TI PV GD BP RE KA MD US DN SP')
      as [A|[U|[PR|RC]]].
    - left. exists b1, r3, bd. split; [exact P1|]. split; [exact P2|]. split; [exact MD|]. right. split; [exact A|].
      destruct (balance_step L halo2_prove halo2_verify try_from into f mine (h0 ++ h1) lg _ b (bd, sighash) meta ws GD KF D RE MD A SF) as [X|X]; [left|right; exact X].
      rewrite (PM mine D) in X. refine (eq_trans X _). clear. lia.
    - right. left. exact U.
    - left. exists b1, r3, bd. split; [exact P1|]. split; [exact P2|]. split; [exact MD|]. left. exact PR.
    - right. right. exact RC.
  Qed.
End Later.
