(** The wallet of C71 between its two transactions: it has 1000, spends it and receives 990. *)
From Coq Require Import String ZArith List Bool Lia.
From Coq Require Import Init.Byte.
From Verif Require Import Prelude PreludeFacts Spec Fields Curve CurveFacts Oracles Sinsemilla SinsSpec RedPallas Value Keys KeysSpec Note NoteSpec Tree TreeSpec Action
  NoteEnc Bundle Batch Builder Circuit CircuitSpec PipelineSpec LedgerSpec LedgerFacts WalletSpec WalletFacts BackedSpec LifeSpec BalanceSpec PurseSpec PurseFacts
  MempoolSpec MempoolFacts SafeSpec SafeFacts Toy ToyFacts ToyKeys ToyNote ToyNoteEnc ToyBundle ToyCircuit ToyPipeline ToyLedger ToyTotal.
Import ListNotations.
Open Scope Z_scope.

Section Generic.
  Context {C : Curve} {OR : @Oracles C} {V : Type} (L : CurveLaws C).
  Variables (ver : bytes -> list (list Z) -> bool) (into : V -> Z).
  #[local] Opaque note_nullifier try_note_decryption opens spent_in tree_root leaves_of.
  Lemma reached_last : forall h (t : @tx C V) lg, reached ver into (h ++ [t]) lg -> exists lg0, reached ver into h lg0 /\ accepts ver into lg0 t /\ lg = apply into lg0 t.
  Proof.
    intros h t lg H. remember (h ++ [t]) as l eqn:E. destruct H as [|h' lg0 t' H A]; [destruct h; discriminate E|].
    apply app_inj_tail in E as [-> ->]. exists lg0. split; [exact H|]. split; [exact A|reflexivity].
  Qed.
  Lemma receives_first : forall f s (t : @tx C V) h n, length (b_actions (fst t)) = 1%nat -> receives f s (t :: h) 0 n -> receives f s [t] 0 n.
  Proof.
    intros f s t h n E (a & k & to & memo & H & X). exists a, k, to, memo. split; [|exact X].
    change (chain_actions (t :: h)) with (b_actions (fst t) ++ chain_actions h) in H. change (chain_actions [t]) with (b_actions (fst t) ++ []).
    destruct (b_actions (fst t)) as [|b [|]]; [discriminate E| |discriminate E]. exact H.
  Qed.
  Lemma two_tx : forall f (t1 t2 : @tx C V) lg n m nf1 nf2 nf3, fvk_ok f -> reached ver into [t1; t2] lg ->
    map a_nf (b_actions (fst t1)) = [nf1] -> map a_nf (b_actions (fst t2)) = [nf2] -> nf2 <> nf1 ->
    receives f External [t1; t2] 0 n -> note_nullifier n f = Ret nf2 -> receives f External [t1; t2] 1 m -> note_nullifier m f = Ret nf3 -> ~ In nf3 (lg_nfs lg) ->
    exists lg0, reached ver into [t1] lg0 /\ applied ver into lg0 [t2] lg /\ In (0%nat, n) (taken f [t1] [t2]) /\ In (1%nat, m) (arrived f [t1] [t2]).
  Proof using L.
    intros f t1 t2 lg n m nf1 nf2 nf3 K RE E1 E2 D R1 N1 R2 N2 NI.
    destruct (reached_last [t1] t2 lg RE) as (lg0 & R0 & A & EL). exists lg0. split; [exact R0|].
    split; [rewrite EL; apply P_next; [exact A|apply P_done]|].
    assert (L1 : length (b_actions (fst t1)) = 1%nat) by (apply (f_equal (@length _)) in E1; rewrite map_length in E1; exact E1).
    assert (C1 : chain_actions [t1] = b_actions (fst t1)) by (change (chain_actions [t1]) with (b_actions (fst t1) ++ []); apply app_nil_r).
    assert (C2 : map a_nf (chain_actions [t1; t2]) = [nf1; nf2]).
    { change (chain_actions [t1; t2]) with (b_actions (fst t1) ++ b_actions (fst t2) ++ []). rewrite app_nil_r, map_app, E1, E2. reflexivity. }
    split.
    - unfold taken. apply filter_In. split.
      + apply (receives_coin L f [t1] 0 n nf2 K (receives_first f External t1 [t2] n L1 R1) N1). rewrite C1, E1. intros [X|[]]. exact (D (eq_sym X)).
      + cbn [snd]. Transparent spent_in. unfold spent_in. rewrite N1. cbn [flat_map]. unfold tx_nfs. rewrite E2. cbn [app existsb]. rewrite Z.eqb_refl. reflexivity.
    - unfold arrived. apply filter_In. split.
      + apply (receives_coin L f [t1; t2] 1 m nf3 K R2 N2). destruct (chain_lists ver into [t1; t2] lg RE) as (_ & EN & _). rewrite <- EN. exact NI.
      + cbn [fst]. rewrite C1, L1. reflexivity.
  Qed.
End Generic.

#[local] Opaque toy_fvk nf1 nf2 note2 note3 coins receives taken arrived nf_of.
Lemma toy_safe : exists halo2_verify extract h0 lg0 h1 lg n m,
  finds_cells halo2_verify extract /\ finds_keys SpendAuth (toy_log SpendAuth) /\ finds_keys Binding (toy_log Binding) /\
  reached halo2_verify (fun v : Z => v) h0 lg0 /\ applied halo2_verify (fun v : Z => v) lg0 h1 lg /\
  In (0%nat, n) (taken toy_fvk h0 h1) /\ n_value n = 1000 /\ In (1%nat, m) (arrived toy_fvk h0 h1) /\ n_value m = 990.
Proof.
  destruct toy_wallet_full as (ver & ext & h & lg & (t1 & t2 & EH & M1 & M2) & H1 & H2 & H3 & H4 & _ & _ & _ & H8 & H9 & H10 & _ & (nf & N1 & N2) & _).
  rewrite EH in H4, H8, H9.
  assert (D : nf2 <> nf1).
  { pose proof nfs_differ as X. apply Z.eqb_neq in X. apply nf_of_ret in H10. rewrite H10 in X. exact X. }
  destruct (two_tx toy_laws ver (fun v : Z => v) toy_fvk t1 t2 lg note2 note3 nf1 nf2 nf toy_fvk_ok H4 M1 M2 D H8 H10 H9 N1 N2) as (lg0 & R0 & A & T1 & T2).
  exists ver, ext, [t1], lg0, [t2], lg, note2, note3. split; [exact H1|]. split; [exact H2|]. split; [exact H3|]. split; [exact R0|]. split; [exact A|].
  split; [exact T1|]. split; [reflexivity|]. split; [exact T2|reflexivity].
Qed.
