(** Two wallets on the chain of ToyLedger. *)
From Coq Require Import String ZArith List Bool Lia.
From Coq Require Import Init.Byte.
From Verif Require Import Prelude PreludeFacts Fields Curve CurveFacts Oracles Spec RedPallas Value Keys KeysSpec KeysFacts Note NoteSpec Tree TreeSpec Action
  NoteEnc Bundle Batch Builder BuilderSpec Circuit CircuitSpec PipelineSpec LedgerSpec LedgerFacts WalletSpec WalletFacts BackedSpec LifeSpec BalanceSpec PurseSpec
  PurseFacts TotalSpec Toy ToyFacts ToyKeys ToyNote ToyNoteEnc ToyBuilder ToyTwo ToyPipeline ToyLedger.
Import ListNotations.
Open Scope Z_scope.

Lemma toy_differ : differ toy_fvk toy_fvk2.
Proof.
  right. assert (H : (fvk_nk toy_fvk =? fvk_nk toy_fvk2) = false) by (vm_compute; reflexivity).
  apply Z.eqb_neq. exact H.
Qed.

Section Place.
  Context {C : Curve} {OR : @Oracles C} {V : Type} (L : CurveLaws C).
  Lemma receives_coin : forall f (h : list (@tx C V)) p n nf, fvk_ok f -> receives f External h p n -> note_nullifier n f = Ret nf ->
    ~ In nf (map a_nf (chain_actions h)) -> In (p, n) (coins f h).
  Proof using L.
    intros f h p n nf K (a & k & to & memo & HA & HK & TD) HN NI. apply coin_in. exists a. cbn [fst snd]. split; [exact HA|]. split.
    - destruct (fvk_ok_to_ivk L f Internal K) as (i & HI & _). unfold opens. rewrite HK, HI, TD. reflexivity.
    - unfold spent_in. rewrite HN. destruct (existsb (Z.eqb nf) (map a_nf (chain_actions h))) eqn:E; [|reflexivity].
      exfalso. apply NI. apply existsb_exists in E as (x & I & X). apply Z.eqb_eq in X. subst x. exact I.
  Qed.
End Place.

#[local] Opaque toy_fvk toy_fvk2 nf2 coins receives.
Lemma toy_total : exists halo2_verify extract h lg,
  finds_cells halo2_verify extract /\ finds_keys SpendAuth (toy_log SpendAuth) /\ finds_keys Binding (toy_log Binding) /\
  reached halo2_verify (fun v : Z => v) h lg /\ Forall fvk_ok [toy_fvk; toy_fvk2] /\ all_differ [toy_fvk; toy_fvk2] /\
  lg_pool lg = 990 /\ exists n, In (1%nat, n) (coins toy_fvk h) /\ n_value n = 990.
Proof.
  destruct toy_wallet as (ver & ext & h & lg & H1 & H2 & H3 & H4 & _ & H6 & _ & _ & H9 & _ & _ & (nf & N1 & N2) & _).
  exists ver, ext, h, lg. split; [exact H1|]. split; [exact H2|]. split; [exact H3|]. split; [exact H4|].
  split; [constructor; [exact toy_fvk_ok|constructor; [exact toy_fvk2_ok|constructor]]|].
  split; [apply FOP_cons; [constructor; [exact toy_differ|constructor]|apply FOP_cons; [constructor|apply FOP_nil]]|].
  split; [exact H6|]. exists note3. split; [|reflexivity].
  destruct (chain_lists ver _ h lg H4) as (_ & EN & _). rewrite EN in N2.
  exact (receives_coin toy_laws toy_fvk h 1 note3 nf toy_fvk_ok H9 N1 N2).
Qed.
