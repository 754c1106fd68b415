(** C103 on Pallas. *)
From Coq Require Import String ZArith List Bool Permutation.
From Coq Require Import Init.Byte.
From Verif Require Import Prelude Fields Curve CurveFacts Oracles Spec RedPallas Keys KeysSpec Note Tree Action NoteEnc Bundle BundleSpec Builder Signing BuilderSpec
  Circuit LedgerSpec WalletSpec BackedSpec LifeSpec BalanceSpec LightSpec SentSpec ReceivedSpec ReceivedFacts PallasCurve RealOracles PallasLaws RealFacts.
Import ListNotations.
Open Scope Z_scope.

Lemma real_received :
  forall (R : Type) (rng_b : R -> nat -> bytes * R) (rng_i : R -> nat -> nat * R) (rng_p : R -> pallas_point * R),
  let OR := real_oracles R rng_b rng_i rng_p in
  forall (V : Type) (halo2_prove : list (@witness pallas) -> list (list Z) -> R -> option bytes * R) (try_from : Z -> option V)
    (k : ivk) (es : list (entry pallas V)),
  ivk_ok k -> Forall (@entry_made pallas OR V halo2_prove try_from) es ->
  Permutation (@received pallas OR _ k (chain_actions (map en_tx es))) (flat_map (fun e => @owed pallas OR k (en_builder e)) es) \/
  exists e, In e es /\ @two_readings pallas OR _ k (b_actions (fst (en_tx e))) (en_witnesses e).
Proof.
  intros R rng_b rng_i rng_p OR V prove tf k es K F. destruct (real_not_id R rng_b rng_i rng_p) as (G & _).
  exact (@received_on_chain pallas OR pallas_laws V prove tf k es G K F).
Qed.
