(** C99 on Pallas with the crate's hash functions. *)
From Coq Require Import String ZArith List Bool Lia.
From Coq Require Import Init.Byte.
From Verif Require Import Prelude Fields Curve Oracles RedPallas Value Keys KeysSpec Note NoteSpec Tree TreeSpec Action NoteEnc Bundle Batch
  Builder BuilderSpec Circuit CircuitSpec PipelineSpec LedgerSpec WalletSpec BackedSpec LifeSpec BalanceSpec PurseSpec MempoolSpec SafeSpec SafeFacts
  PallasCurve PallasLaws RealOracles RealFacts.
Import ListNotations.
Open Scope Z_scope.

Lemma real_no_loss :
  forall (R : Type) (rng_b : R -> nat -> bytes * R) (rng_i : R -> nat -> nat * R) (rng_p : R -> pallas_point * R),
  let OR := real_oracles R rng_b rng_i rng_p in
  forall (V : Type) (halo2_verify : bytes -> list (list Z) -> bool) (into : V -> Z)
    (extract : bytes -> list (list Z) -> list (@action_cells pallas)) (sx bx : pallas_point -> bytes -> signature -> Z),
  @finds_cells pallas OR halo2_verify extract -> @finds_keys pallas OR SpendAuth sx -> @finds_keys pallas OR Binding bx ->
  forall (f : @fvk pallas) (h0 : list (@tx pallas V)) (lg0 : ledger) (h1 : list (@tx pallas V)) (lg : ledger),
  @fvk_ok pallas OR f -> @reached pallas OR V halo2_verify into h0 lg0 -> @applied pallas OR V halo2_verify into lg0 h1 lg ->
  @balance pallas OR V f h0 <= @balance pallas OR V f (h0 ++ h1) \/
  (exists c t a w, In c (@coins pallas OR V f h0) /\ In t h1 /\ @reveals pallas OR V extract f (snd c) t a w /\
     (@by_owner pallas OR V sx f (snd c) t a w \/ @by_relation pallas OR f (snd c) w)) \/
  @break pallas OR V into extract bx (h0 ++ h1).
Proof.
  intros R rng_b rng_i rng_p OR V ver into ext sx bx XC XS XB f h0 lg0 h1 lg KF R0 AP.
  destruct (real_not_id R rng_b rng_i rng_p) as (G1 & _).
  exact (@no_loss pallas OR V pallas_laws ver into ext sx bx XC XS XB f h0 lg0 h1 lg G1 KF R0 AP).
Qed.
