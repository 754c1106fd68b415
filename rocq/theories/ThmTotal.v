(** Property C96: the balances of all wallets are backed by the pool. *)
From Coq Require Import String ZArith List Bool.
From Coq Require Import Init.Byte.
From Verif Require Import Prelude Fields Curve Oracles RedPallas Value Keys KeysSpec Note NoteSpec Tree TreeSpec Action NoteEnc Bundle Batch
  Builder BuilderSpec Circuit CircuitSpec PipelineSpec LedgerSpec WalletSpec BackedSpec LifeSpec BalanceSpec PurseSpec TotalSpec TotalFacts
  PallasCurve PallasLaws RealOracles RealTotalFacts Toy ToyFacts ToyKeys ToyTwo ToyPipeline ToyLedger ToyTotal.
Import ListNotations.
Open Scope Z_scope.

(** C96. On any accepted chain, whoever made its transactions, the balances that any different wallets compute by
    scanning it add up to no more than the pool. The exceptions are explicit: two wallets that both found a note at
    one position, a note found with two openings of its commitment, or a break of the ledger itself (C63). *)
Theorem C96_balances_are_backed :
  forall (C : Curve) (OR : @Oracles C) (V : Type) (L : CurveLaws C)
    (halo2_verify : bytes -> list (list Z) -> bool) (into : V -> Z)
    (extract : bytes -> list (list Z) -> list action_cells) (sx bx : point -> bytes -> signature -> Z),
  finds_cells halo2_verify extract -> finds_keys SpendAuth sx -> finds_keys Binding bx ->
  forall (h : list (@tx C V)) (lg : ledger) (fs : list fvk),
  gd_fallback_ok -> reached halo2_verify into h lg -> Forall fvk_ok fs -> all_differ fs ->
  0 <= all_balances fs h <= lg_pool lg \/
  (exists f g, In f fs /\ In g fs /\ differ f g /\ shared f g h) \/
  (exists x a, In (hd_fvk x) fs /\ In (hd_pos x, hd_note x) (coins (hd_fvk x) h) /\ In a (acts extract h) /\ other_opening x a) \/
  break into extract bx h.
Proof. exact @balances_backed. Qed.
Print Assumptions C96_balances_are_backed.

(** C96 on Pallas with the crate's hash functions. *)
Theorem C96_balances_are_backed_on_pallas :
  forall (R : Type) (rng_b : R -> nat -> bytes * R) (rng_i : R -> nat -> nat * R) (rng_p : R -> pallas_point * R),
  let OR := real_oracles R rng_b rng_i rng_p in
  forall (V : Type) (halo2_verify : bytes -> list (list Z) -> bool) (into : V -> Z)
    (extract : bytes -> list (list Z) -> list (@action_cells pallas)) (bx : pallas_point -> bytes -> signature -> Z),
  @finds_cells pallas OR halo2_verify extract -> @finds_keys pallas OR Binding bx ->
  forall (h : list (@tx pallas V)) (lg : ledger) (fs : list (@fvk pallas)),
  @reached pallas OR V halo2_verify into h lg -> Forall (@fvk_ok pallas OR) fs -> all_differ fs ->
  0 <= @all_balances pallas OR V fs h <= lg_pool lg \/
  (exists f g, In f fs /\ In g fs /\ differ f g /\ @shared pallas OR V f g h) \/
  (exists x a, In (hd_fvk x) fs /\ In (hd_pos x, hd_note x) (@coins pallas OR V (hd_fvk x) h) /\ In a (acts extract h) /\
     @other_opening pallas OR x a) \/
  @break pallas OR V into extract bx h.
Proof. exact real_total. Qed.
Print Assumptions C96_balances_are_backed_on_pallas.

(** Two different wallets on a chain on which one found an unspent note of 990, which is all of the pool. *)
Example C96_ex : exists halo2_verify extract h lg,
  finds_cells halo2_verify extract /\ finds_keys SpendAuth (toy_log SpendAuth) /\ finds_keys Binding (toy_log Binding) /\
  reached halo2_verify (fun v : Z => v) h lg /\ Forall fvk_ok [toy_fvk; toy_fvk2] /\ all_differ [toy_fvk; toy_fvk2] /\
  lg_pool lg = 990 /\ exists n, In (1%nat, n) (coins toy_fvk h) /\ n_value n = 990.
Proof. exact toy_total. Qed.
Example C96_ex_key : @gd_fallback_ok toy_curve toy_oracles.
Proof. exact toy_gd. Qed.
