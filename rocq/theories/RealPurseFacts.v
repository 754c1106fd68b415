(** C94 and C101 on Pallas with the crate's hash functions. *)
From Coq Require Import String ZArith List Bool Lia.
From Coq Require Import Init.Byte.
From Verif Require Import Prelude Fields Curve Oracles RedPallas Value Keys KeysSpec Note NoteSpec Tree TreeSpec Action NoteEnc Bundle Batch
  Builder BuilderSpec Signing SigningSpec Circuit CircuitSpec PipelineSpec LedgerSpec WalletSpec BackedSpec LifeSpec BalanceSpec PurseSpec PurseFacts
  LightSpec LightPurseSpec LightPurseFacts PallasCurve PallasLaws RealOracles RealFacts.
Import ListNotations.
Open Scope Z_scope.

Lemma real_purse_pays :
  forall (R : Type) (rng_b : R -> nat -> bytes * R) (rng_i : R -> nat -> nat * R) (rng_p : R -> pallas_point * R),
  let OR := real_oracles R rng_b rng_i rng_p in
  forall (V : Type)
    (halo2_prove : list (@witness pallas) -> list (list Z) -> R -> option bytes * R) (halo2_verify : bytes -> list (list Z) -> bool)
    (try_from : Z -> option V) (into : V -> Z)
    (f : @fvk pallas) (ask : Z) (mine : @address pallas -> bool) (h : list (@tx pallas V)) (lg : ledger) (ty : bundle_type) (pick : nat * @note pallas -> bool)
    (outs : list (@call pallas)) (b : @builder pallas) (fuel : nat) (r : R) (b0 : @unauthorized_bundle pallas V) (meta : bundle_metadata) (r' : R)
    (sighash : bytes) (r1 r2 : R),
  (forall i v, try_from i = Some v -> into v = i) -> @proofs_verify pallas OR halo2_prove halo2_verify -> @prover_succeeds pallas OR halo2_prove ->
  @fvk_ok pallas OR f -> @ak_of_ask pallas OR ask = fvk_ak f -> @decides pallas OR mine f -> @reached pallas OR V halo2_verify into h lg ->
  @purse_built pallas OR f lg ty (filter pick (@coins pallas OR V f h)) outs b ->
  @build pallas OR V try_from fuel b r = Ret (Ok (Some (b0, meta)), r') -> (forall a, In a (b_actions b0) -> a_rk a <> pt_id) ->
  Z.of_nat (length (lg_cmxs lg) + length (b_actions b0)) <= 2 ^ 32 ->
  let ws := up_circuits (ip_proof (b_auth b0)) in
  (exists b1 r3 bd, @create_proof pallas OR V halo2_prove _ _ b0 r1 = Ret (Ok b1, r3) /\ @apply_signatures pallas OR V b1 r2 sighash [ask] = Ret (Ok bd) /\
     (@padding_repeats pallas V lg (bd, sighash) meta \/
      (@accepts pallas OR V halo2_verify into lg (bd, sighash) /\
       (@balance pallas OR V f (h ++ [(bd, sighash)]) = @balance pallas OR V f h - value_of (filter pick (@coins pallas OR V f h)) + @receipts pallas mine b \/
        @surprise pallas OR V f h b (bd, sighash) ws \/ @born_spent pallas OR V f h (bd, sighash))))) \/
  @undefined_merkle_hash pallas OR ws \/ @requests_collide pallas OR b.
Proof.
  intros R rng_b rng_i rng_p OR V prove ver tf into f ask mine h lg ty pick outs b fuel r b0 meta r' sighash r1 r2 TI PV PS KF AK D RE PB E RK SP.
  destruct (real_not_id R rng_b rng_i rng_p) as (G1 & G2 & _).
  destruct (@purse_pays pallas OR V pallas_laws prove ver tf into f ask mine h lg ty pick outs b fuel r b0 meta r' sighash r1 r2 TI PV PS G1 G2 KF AK D RE PB E RK SP)
    as [(b1 & r3 & bd & X1 & X2 & _ & X4)|X]; [left|right; exact X].
  exists b1, r3, bd. split; [exact X1|]. split; [exact X2|exact X4].
Qed.

Lemma real_light_pays :
  forall (R : Type) (rng_b : R -> nat -> bytes * R) (rng_i : R -> nat -> nat * R) (rng_p : R -> pallas_point * R),
  let OR := real_oracles R rng_b rng_i rng_p in
  forall (V : Type)
    (halo2_prove : list (@witness pallas) -> list (list Z) -> R -> option bytes * R) (halo2_verify : bytes -> list (list Z) -> bool)
    (try_from : Z -> option V) (into : V -> Z)
    (f : @fvk pallas) (ask : Z) (h : list (@tx pallas V)) (lg : ledger) (ty : bundle_type) (pick : nat * @note pallas -> bool)
    (outs : list (@call pallas)) (b : @builder pallas) (fuel : nat) (r : R) (b0 : @unauthorized_bundle pallas V) (meta : bundle_metadata) (r' : R)
    (sighash : bytes) (r1 r2 : R),
  (forall i v, try_from i = Some v -> into v = i) -> @proofs_verify pallas OR halo2_prove halo2_verify -> @prover_succeeds pallas OR halo2_prove ->
  @fvk_ok pallas OR f -> @ak_of_ask pallas OR ask = fvk_ak f -> @reached pallas OR V halo2_verify into h lg ->
  @purse_built pallas OR f lg ty (filter pick (@light_coins pallas OR f (compact_chain h))) outs b ->
  @build pallas OR V try_from fuel b r = Ret (Ok (Some (b0, meta)), r') -> (forall a, In a (b_actions b0) -> a_rk a <> pt_id) ->
  Z.of_nat (length (lg_cmxs lg) + length (b_actions b0)) <= 2 ^ 32 ->
  let ws := up_circuits (ip_proof (b_auth b0)) in
  (exists b1 r3 bd, @create_proof pallas OR V halo2_prove _ _ b0 r1 = Ret (Ok b1, r3) /\ @apply_signatures pallas OR V b1 r2 sighash [ask] = Ret (Ok bd) /\
     (@padding_repeats pallas V lg (bd, sighash) meta \/ @accepts pallas OR V halo2_verify into lg (bd, sighash))) \/
  @undefined_merkle_hash pallas OR ws \/ @requests_collide pallas OR b.
Proof.
  intros R rng_b rng_i rng_p OR V prove ver tf into f ask h lg ty pick outs b fuel r b0 meta r' sighash r1 r2 TI PV PS KF AK RE PB E RK SP.
  destruct (real_not_id R rng_b rng_i rng_p) as (G1 & G2 & _).
  exact (@light_pays pallas OR V pallas_laws prove ver tf into f ask h lg ty pick outs b fuel r b0 meta r' sighash r1 r2 TI PV PS G1 G2 KF AK RE PB E RK SP).
Qed.
