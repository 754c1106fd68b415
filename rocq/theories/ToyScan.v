(** The wallet of C71 scans its two transactions as they come. *)
From Coq Require Import String ZArith List Bool Lia.
From Coq Require Import Init.Byte.
From Verif Require Import Prelude PreludeFacts Spec Fields Curve CurveFacts Oracles Sinsemilla SinsSpec RedPallas Value Keys KeysSpec KeysFacts Note NoteSpec Tree TreeSpec Action
  NoteEnc Bundle Batch Builder Circuit CircuitSpec PipelineSpec LedgerSpec LedgerFacts WalletSpec WalletFacts BackedSpec LifeSpec BalanceSpec PurseSpec PurseFacts
  ScanSpec ScanFacts Toy ToyFacts ToyKeys ToyNote ToyNoteEnc ToyBundle ToyCircuit ToyPipeline ToyLedger.
Import ListNotations.
Open Scope Z_scope.

Section Generic.
  Context {C : Curve} {OR : @Oracles C} {V : Type} (L : CurveLaws C).
  #[local] Opaque note_nullifier try_note_decryption.
  Lemma opens_at : forall f (h : list (@tx C V)) p n a, fvk_ok f -> receives f External h p n -> nth_error (chain_actions h) p = Some a -> opens f a = Some n.
  Proof using L.
    intros f h p n a K (a' & k & to & memo & HA & HK & TD) E. assert (a' = a) by congruence. subst a'.
    destruct (fvk_ok_to_ivk L f Internal K) as (i & HI & _). unfold opens. rewrite HK, HI, TD. reflexivity.
  Qed.
  Lemma scan_two : forall f (t1 t2 : @tx C V) n m nf1 nf2, fvk_ok f ->
    map a_nf (b_actions (fst t1)) = [nf1] -> map a_nf (b_actions (fst t2)) = [nf2] ->
    receives f External [t1; t2] 0 n -> note_nullifier n f = Ret nf2 -> receives f External [t1; t2] 1 m ->
    scan f wallet_new [t1] = mk_wallet 1 [(0%nat, n)] /\ scan f wallet_new [t1; t2] = mk_wallet 2 [(1%nat, m)].
  Proof using L.
    intros f t1 t2 n m nf1 nf2 K E1 E2 R1 N1 R2.
    assert (EC : chain_actions [t1; t2] = b_actions (fst t1) ++ b_actions (fst t2)).
    { change (chain_actions [t1; t2]) with (b_actions (fst t1) ++ b_actions (fst t2) ++ []). rewrite app_nil_r. reflexivity. }
    rewrite !scan_chain. rewrite EC. change (chain_actions [t1]) with (b_actions (fst t1) ++ []). rewrite app_nil_r.
    destruct (b_actions (fst t1)) as [|a1 [|]]; [discriminate E1| |discriminate E1].
    destruct (b_actions (fst t2)) as [|a2 [|]]; [discriminate E2| |discriminate E2].
    assert (O1 : opens f a1 = Some n) by (apply (opens_at f [t1; t2] 0 n a1 K R1); rewrite EC; reflexivity).
    assert (O2 : opens f a2 = Some m) by (apply (opens_at f [t1; t2] 1 m a2 K R2); rewrite EC; reflexivity).
    assert (X : scan_action f wallet_new a1 = mk_wallet 1 [(0%nat, n)]) by (unfold scan_action; rewrite O1; reflexivity).
    cbn [app fold_left]. rewrite X. split; [reflexivity|]. unfold scan_action. rewrite O2. cbn [wl_next wl_notes filter snd].
    unfold spent_in. rewrite N1. cbn [existsb]. cbn [map] in E2. assert (Y : a_nf a2 = nf2) by congruence. rewrite Y, Z.eqb_refl. reflexivity.
  Qed.
End Generic.

#[local] Opaque toy_fvk nf1 nf2 note2 note3 receives nf_of.
Lemma toy_scan : exists halo2_verify extract (t1 t2 : @tx toy_curve Z) lg n m,
  finds_cells halo2_verify extract /\ finds_keys SpendAuth (toy_log SpendAuth) /\ finds_keys Binding (toy_log Binding) /\
  reached halo2_verify (fun v : Z => v) [t1; t2] lg /\
  scan toy_fvk wallet_new [t1] = mk_wallet 1 [(0%nat, n)] /\ n_value n = 1000 /\
  scan toy_fvk wallet_new [t1; t2] = mk_wallet 2 [(1%nat, m)] /\ n_value m = 990.
Proof.
  destruct toy_wallet_full as (ver & ext & h & lg & (t1 & t2 & EH & M1 & M2) & H1 & H2 & H3 & H4 & _ & _ & _ & H8 & H9 & H10 & _).
  rewrite EH in H4, H8, H9.
  destruct (scan_two toy_laws toy_fvk t1 t2 note2 note3 nf1 nf2 toy_fvk_ok M1 M2 H8 H10 H9) as [S1 S2].
  exists ver, ext, t1, t2, lg, note2, note3. split; [exact H1|]. split; [exact H2|]. split; [exact H3|]. split; [exact H4|].
  split; [exact S1|]. split; [reflexivity|]. split; [exact S2|reflexivity].
Qed.
