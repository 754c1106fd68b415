(** Property C81: what the wallets of a chain can add up. *)
From Coq Require Import String ZArith List Bool.
From Coq Require Import Init.Byte.
From Verif Require Import Prelude Fields Curve Oracles RedPallas Value Keys KeysSpec Note NoteSpec Tree TreeSpec Action NoteEnc Bundle Batch
  Builder BuilderSpec Circuit CircuitSpec PipelineSpec LedgerSpec WalletSpec BackedSpec BackedFacts ToyBacked
  PallasCurve PallasLaws RealOracles RealBackedFacts
  Toy ToyFacts ToyKeys ToyNote ToyNoteEnc ToyBuilder ToyPipeline ToyLedger.
Import ListNotations.
Open Scope Z_scope.

(** C81. If an accepted action consumed the note at a position, the owner who found that note sees its
    nullifier on the chain. *)
Theorem C81_consumed_notes_are_seen :
  forall (C : Curve) (OR : @Oracles C) (L : CurveLaws C) (V : Type)
    (halo2_verify : bytes -> list (list Z) -> bool) (into : V -> Z)
    (extract : bytes -> list (list Z) -> list action_cells) (sx bx : point -> bytes -> signature -> Z),
  finds_cells halo2_verify extract -> finds_keys SpendAuth sx -> finds_keys Binding bx ->
  forall (h : list (@tx C V)) (lg : ledger) (x : holding),
  gd_fallback_ok -> reached halo2_verify into h lg -> found h x -> consumed (acts extract h) (hd_pos x) ->
  (exists nf, note_nullifier (hd_note x) (hd_fvk x) = Ret nf /\ In nf (lg_nfs lg)) \/
  (exists a, In a (acts extract h) /\ other_opening x a) \/ break into extract bx h.
Proof. exact @consumed_is_seen. Qed.
Print Assumptions C81_consumed_notes_are_seen.

(** C81. The notes that any wallets found at different positions and whose nullifiers have not
    appeared are worth no more than the pool. *)
Theorem C81_unspent_notes_are_backed :
  forall (C : Curve) (OR : @Oracles C) (L : CurveLaws C) (V : Type)
    (halo2_verify : bytes -> list (list Z) -> bool) (into : V -> Z)
    (extract : bytes -> list (list Z) -> list action_cells) (sx bx : point -> bytes -> signature -> Z),
  finds_cells halo2_verify extract -> finds_keys SpendAuth sx -> finds_keys Binding bx ->
  forall (h : list (@tx C V)) (lg : ledger) (l : list holding),
  gd_fallback_ok -> reached halo2_verify into h lg -> Forall (found h) l -> Forall (seems_unspent lg) l -> NoDup (map hd_pos l) ->
  0 <= total l <= lg_pool lg \/ (exists x a, In x l /\ In a (acts extract h) /\ other_opening x a) \/ break into extract bx h.
Proof. exact @holdings_backed. Qed.
Print Assumptions C81_unspent_notes_are_backed.

(** A history in which one wallet found a note of 1000, consumed since, and one of 990, unspent, which is all of the pool. *)
Example C81_ex : exists halo2_verify extract h lg (x y : holding),
  finds_cells halo2_verify extract /\ finds_keys SpendAuth (toy_log SpendAuth) /\ finds_keys Binding (toy_log Binding) /\
  reached halo2_verify (fun v : Z => v) h lg /\ found h x /\ consumed (acts extract h) (hd_pos x) /\
  Forall (found h) [y] /\ Forall (seems_unspent lg) [y] /\ NoDup (map hd_pos [y]) /\ total [y] = 990 /\ lg_pool lg = 990.
Proof. exact toy_backed. Qed.
Example C81_ex_key : @gd_fallback_ok toy_curve toy_oracles.
Proof. exact toy_gd. Qed.

(** C81 on Pallas with the crate's hash functions. *)
Theorem C81_unspent_notes_are_backed_on_pallas :
  forall (R : Type) (rng_b : R -> nat -> bytes * R) (rng_i : R -> nat -> nat * R) (rng_p : R -> pallas_point * R),
  let OR := real_oracles R rng_b rng_i rng_p in
  forall (V : Type) (halo2_verify : bytes -> list (list Z) -> bool) (into : V -> Z)
    (extract : bytes -> list (list Z) -> list (@action_cells pallas)) (bx : pallas_point -> bytes -> signature -> Z),
  @finds_cells pallas OR halo2_verify extract -> @finds_keys pallas OR Binding bx ->
  forall (h : list (@tx pallas V)) (lg : ledger) (l : list (@holding pallas)),
  @reached pallas OR V halo2_verify into h lg -> Forall (@found pallas OR V h) l -> Forall (@seems_unspent pallas OR lg) l -> NoDup (map hd_pos l) ->
  0 <= total l <= lg_pool lg \/ (exists x a, In x l /\ In a (acts extract h) /\ @other_opening pallas OR x a) \/
  @break pallas OR V into extract bx h.
Proof. exact real_backed. Qed.
Print Assumptions C81_unspent_notes_are_backed_on_pallas.
