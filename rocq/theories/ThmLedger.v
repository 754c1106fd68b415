(** Property C63: a chain that applies only bundles the crate accepts. *)
From Coq Require Import String ZArith List Bool.
From Coq Require Import Init.Byte.
From Verif Require Import Prelude Fields Curve Oracles RedPallas Value Keys Note Tree Action Bundle Batch Circuit CircuitSpec PipelineSpec
  LedgerSpec LedgerFacts PallasCurve PallasUse Toy ToyPipeline ToyLedger.
Import ListNotations.
Open Scope Z_scope.

(** C63. [sound_ledger] and the exceptions [break] are in LedgerSpec.v. *)
Theorem C63_ledger_is_sound :
  forall (C : Curve) (OR : @Oracles C) (L : CurveLaws C) (V : Type)
    (halo2_verify : bytes -> list (list Z) -> bool) (into : V -> Z)
    (extract : bytes -> list (list Z) -> list action_cells) (sx bx : point -> bytes -> signature -> Z),
  finds_cells halo2_verify extract -> finds_keys SpendAuth sx -> finds_keys Binding bx ->
  forall (h : list (@tx C V)) (lg : ledger),
  reached halo2_verify into h lg ->
  sound_ledger extract h lg \/ break into extract bx h.
Proof. exact @ledger_sound. Qed.
Print Assumptions C63_ledger_is_sound.

(** C63. On Pallas no commitment is the value of an empty leaf, so the last exception never occurs. *)
Theorem C63_no_commitment_is_an_empty_leaf : forall P : @point pallas, @pt_x pallas P <> empty_leaf.
Proof. exact x_not_2. Qed.
Print Assumptions C63_no_commitment_is_an_empty_leaf.

Example C63_ex : exists halo2_verify extract h lg,
  finds_cells halo2_verify extract /\ finds_keys SpendAuth (toy_log SpendAuth) /\ finds_keys Binding (toy_log Binding) /\
  reached halo2_verify (fun v : Z => v) h lg /\ length h = 2%nat /\ lg_pool lg = 990 /\ existsb spends_value (acts extract h) = true.
Proof. exact toy_history. Qed.
