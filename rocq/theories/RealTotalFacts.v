(** C96 on Pallas with the crate's hash functions. *)
From Coq Require Import String ZArith List Bool Lia.
From Coq Require Import Init.Byte.
From Verif Require Import Prelude Fields Curve Oracles RedPallas Value Keys KeysSpec Note NoteSpec Tree TreeSpec Action NoteEnc Bundle Batch
  Builder BuilderSpec Circuit CircuitSpec PipelineSpec LedgerSpec WalletSpec BackedSpec LifeSpec BalanceSpec PurseSpec TotalSpec TotalFacts
  PallasCurve PallasLaws RealOracles RealFacts RealLifeFacts.
Import ListNotations.
Open Scope Z_scope.

Lemma real_total :
  forall (R : Type) (rng_b : R -> nat -> bytes * R) (rng_i : R -> nat -> nat * R) (rng_p : R -> pallas_point * R),
  let OR := real_oracles R rng_b rng_i rng_p in
  forall (V : Type) (halo2_verify : bytes -> list (list Z) -> bool) (into : V -> Z)
    (extract : bytes -> list (list Z) -> list (@action_cells pallas)) (bx : pallas_point -> bytes -> signature -> Z),
  @finds_cells pallas OR halo2_verify extract -> @finds_keys pallas OR Binding bx ->
  forall (h : list (@tx pallas V)) (lg : ledger) (fs : list (@fvk pallas)),
  @reached pallas OR V halo2_verify into h lg -> Forall (@fvk_ok pallas OR) fs -> all_differ fs ->
  0 <= @all_balances pallas OR V fs h <= lg_pool lg \/
  (exists f g, In f fs /\ In g fs /\ differ f g /\ @shared pallas OR V f g h) \/
  (exists x a, In (hd_fvk x) fs /\ In (hd_pos x, hd_note x) (@coins pallas OR V (hd_fvk x) h) /\ In a (acts extract h) /\
     @other_opening pallas OR x a) \/
  @break pallas OR V into extract bx h.
Proof.
  intros R rng_b rng_i rng_p OR V ver into ext bx XC XB h lg fs RE KS D.
  destruct (real_extractors R rng_b rng_i rng_p) as (sx & _ & XS & _).
  destruct (real_not_id R rng_b rng_i rng_p) as (G1 & _).
  exact (@balances_backed pallas OR V pallas_laws ver into ext sx bx XC XS XB h lg fs G1 RE KS D).
Qed.
