(** C81 on Pallas. *)
From Coq Require Import String ZArith List Bool.
From Coq Require Import Init.Byte.
From Verif Require Import Prelude Fields Curve Oracles RedPallas Value Keys KeysSpec Note NoteSpec Tree TreeSpec Action NoteEnc Bundle Batch
  Builder BuilderSpec Circuit CircuitSpec PipelineSpec LedgerSpec WalletSpec BackedSpec BackedFacts
  PallasCurve PallasLaws RealOracles RealFacts RealLifeFacts.
Import ListNotations.
Open Scope Z_scope.

Lemma real_backed :
  forall (R : Type) (rng_b : R -> nat -> bytes * R) (rng_i : R -> nat -> nat * R) (rng_p : R -> pallas_point * R),
  let OR := real_oracles R rng_b rng_i rng_p in
  forall (V : Type) (halo2_verify : bytes -> list (list Z) -> bool) (into : V -> Z)
    (extract : bytes -> list (list Z) -> list (@action_cells pallas)) (bx : pallas_point -> bytes -> signature -> Z),
  @finds_cells pallas OR halo2_verify extract -> @finds_keys pallas OR Binding bx ->
  forall (h : list (@tx pallas V)) (lg : ledger) (l : list (@holding pallas)),
  @reached pallas OR V halo2_verify into h lg -> Forall (@found pallas OR V h) l -> Forall (@seems_unspent pallas OR lg) l -> NoDup (map hd_pos l) ->
  0 <= total l <= lg_pool lg \/ (exists x a, In x l /\ In a (acts extract h) /\ @other_opening pallas OR x a) \/
  @break pallas OR V into extract bx h.
Proof.
  intros R rng_b rng_i rng_p OR V ver into ext bx XC XB h lg l RE FO UN ND.
  destruct (real_extractors R rng_b rng_i rng_p) as (sx & _ & XS & _).
  destruct (real_not_id R rng_b rng_i rng_p) as (G1 & _).
  exact (@holdings_backed pallas OR pallas_laws V ver into ext sx bx XC XS XB h lg l G1 RE FO UN ND).
Qed.
