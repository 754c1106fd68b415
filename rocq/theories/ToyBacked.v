(** The history of ToyLedger.v seen by its wallet, for C81. *)
From Coq Require Import String ZArith List Bool Lia.
From Coq Require Import Init.Byte.
From Verif Require Import Prelude Fields Curve Oracles Spec RedPallas Value Keys KeysSpec Note NoteSpec Tree TreeSpec Action NoteEnc Bundle Batch
  Builder BuilderSpec Circuit CircuitSpec PipelineSpec LedgerSpec WalletSpec BackedSpec
  Toy ToyFacts ToyKeys ToyNote ToyNoteEnc ToyBuilder ToyPipeline ToyLedger.
Import ListNotations.
Open Scope Z_scope.

Lemma toy_backed : exists halo2_verify extract h lg (x y : holding),
  finds_cells halo2_verify extract /\ finds_keys SpendAuth (toy_log SpendAuth) /\ finds_keys Binding (toy_log Binding) /\
  reached halo2_verify (fun v : Z => v) h lg /\ found h x /\ consumed (acts extract h) (hd_pos x) /\
  Forall (found h) [y] /\ Forall (seems_unspent lg) [y] /\ NoDup (map hd_pos [y]) /\ total [y] = 990 /\ lg_pool lg = 990.
Proof.
  destruct toy_wallet as (ver & ext & h & lg & H1 & H2 & H3 & H4 & H5 & H6 & H7 & H8 & H9 & _ & _ & (nf & N1 & N2) & (a & A1 & A2 & A3)).
  exists ver, ext, h, lg, (mk_holding toy_fvk External 0%nat note2), (mk_holding toy_fvk External 1%nat note3).
  split; [exact H1|]. split; [exact H2|]. split; [exact H3|]. split; [exact H4|].
  split; [split; [exact toy_fvk_ok|exact H8]|].
  split; [exists a; split; [exact A1|]; split; [exact A2|]; rewrite A3; reflexivity|].
  split; [constructor; [|constructor]; split; [exact toy_fvk_ok|exact H9]|].
  split; [constructor; [|constructor]; intros nf' E; cbn [hd_note hd_fvk] in E; rewrite N1 in E; assert (EQ : nf' = nf) by congruence; rewrite EQ; exact N2|].
  split; [constructor; [intros []|constructor]|]. split; [reflexivity|exact H6].
Qed.
