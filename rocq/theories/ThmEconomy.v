(** Property C102: in a group of wallets that only pay each other, the balances add up to the pool. *)
From Coq Require Import String ZArith List Bool.
From Coq Require Import Init.Byte.
From Verif Require Import Prelude Fields Curve Oracles Spec RedPallas Value Keys KeysSpec Note NoteSpec Tree TreeSpec Action NoteEnc
  Bundle Batch Builder Signing BuilderSpec SigningSpec Circuit PipelineSpec LedgerSpec WalletSpec LifeSpec BalanceSpec TotalSpec EconomySpec LightSpec
  EconomyFacts PallasCurve RealOracles Toy ToyFacts ToyKeys ToyTwo ToySigning ToyPipeline ToyBalance ToyEconomy.
Import ListNotations.
Open Scope Z_scope.

(** C102. On a chain of any length made with the crate inside the group, the balances its wallets compute by
    scanning add up to exactly the pool: no value is lost on the way, and none is counted twice. The exceptions are
    those of C89: two openings of one commitment, two notes with one nullifier, or two keys with one address. *)
Theorem C102_balances_add_up_to_the_pool :
  forall (C : Curve) (OR : @Oracles C) (L : CurveLaws C) (V : Type)
    (halo2_prove : list witness -> list (list Z) -> rng -> option bytes * rng) (halo2_verify : bytes -> list (list Z) -> bool)
    (try_from : Z -> option V) (into : V -> Z) (fs : list fvk) (es : list (entry C V)) (lg : ledger),
  gd_fallback_ok -> (forall i v, try_from i = Some v -> into v = i) -> Forall fvk_ok fs ->
  economy halo2_prove halo2_verify try_from into fs es lg ->
  all_balances fs (map en_tx es) = lg_pool lg \/ exists f, In f fs /\ account_surprise f es.
Proof. exact @economy_total. Qed.
Print Assumptions C102_balances_add_up_to_the_pool.

(** C102. A further transaction changes the sum of the balances by its value balance, whoever pays whom in it. *)
Theorem C102_a_payment_only_moves_value :
  forall (C : Curve) (OR : @Oracles C) (L : CurveLaws C) (V : Type)
    (halo2_prove : list witness -> list (list Z) -> rng -> option bytes * rng) (halo2_verify : bytes -> list (list Z) -> bool)
    (try_from : Z -> option V) (into : V -> Z) (fs : list fvk) (es : list (entry C V)) (lg : ledger) (e : entry C V),
  gd_fallback_ok -> (forall i v, try_from i = Some v -> into v = i) -> Forall fvk_ok fs ->
  economy halo2_prove halo2_verify try_from into fs es lg ->
  economy halo2_prove halo2_verify try_from into fs (es ++ [e]) (apply into lg (en_tx e)) ->
  all_balances fs (map en_tx (es ++ [e])) = all_balances fs (map en_tx es) - into (b_value_balance (fst (en_tx e))) \/
  exists f, In f fs /\ account_surprise f (es ++ [e]).
Proof. exact @economy_step. Qed.
Print Assumptions C102_a_payment_only_moves_value.

(** C102. Clients that download only compact actions come to the same sum. *)
Theorem C102_light_balances_add_up_to_the_pool :
  forall (C : Curve) (OR : @Oracles C) (L : CurveLaws C) (V : Type)
    (halo2_prove : list witness -> list (list Z) -> rng -> option bytes * rng) (halo2_verify : bytes -> list (list Z) -> bool)
    (try_from : Z -> option V) (into : V -> Z) (fs : list fvk) (es : list (entry C V)) (lg : ledger),
  gd_fallback_ok -> (forall i v, try_from i = Some v -> into v = i) -> Forall fvk_ok fs ->
  economy halo2_prove halo2_verify try_from into fs es lg ->
  zsum (map (fun f => light_balance f (compact_chain (map en_tx es))) fs) = lg_pool lg \/
  exists f, In f fs /\ (account_surprise f es \/ light_surprise f es).
Proof. exact @economy_light. Qed.
Print Assumptions C102_light_balances_add_up_to_the_pool.

(** C102. The same on Pallas, for the functions the crate links. *)
Theorem C102_balances_add_up_on_pallas :
  forall (R : Type) (rng_b : R -> nat -> bytes * R) (rng_i : R -> nat -> nat * R) (rng_p : R -> pallas_point * R),
  let OR := real_oracles R rng_b rng_i rng_p in
  forall (V : Type)
    (halo2_prove : list (@witness pallas) -> list (list Z) -> R -> option bytes * R) (halo2_verify : bytes -> list (list Z) -> bool)
    (try_from : Z -> option V) (into : V -> Z) (fs : list (@fvk pallas)) (es : list (entry pallas V)) (lg : ledger),
  (forall i v, try_from i = Some v -> into v = i) -> Forall (@fvk_ok pallas OR) fs ->
  @economy pallas OR V halo2_prove halo2_verify try_from into fs es lg ->
  @all_balances pallas OR V fs (map en_tx es) = lg_pool lg \/ exists f, In f fs /\ @account_surprise pallas OR V f es.
Proof. exact real_economy. Qed.
Print Assumptions C102_balances_add_up_on_pallas.

(** 1000 enter, the first wallet keeps 600 and pays 150 to the second, and 250 leave. *)
Example C102_ex : exists (es : list (entry toy_curve Z)) lg,
  economy toy_prover toy_verifier (fun i : Z => Some i) (fun i => i) [toy_fvk; toy_fvk2] es lg /\ length es = 2%nat /\
  map (fun e => receipts (mine_of toy_fvk2) (en_builder e)) es = [0; 150] /\
  balance toy_fvk (map en_tx es) = 600 /\ lg_pool lg = 750.
Proof. exact toy_economy. Qed.
Example C102_ex_keys : @gd_fallback_ok toy_curve toy_oracles /\ Forall fvk_ok [toy_fvk; toy_fvk2] /\
  (forall i v : Z, Some i = Some v -> v = i).
Proof.
  split; [exact toy_gd|]. split; [constructor; [exact toy_fvk_ok|constructor; [exact toy_fvk2_ok|constructor]]|].
  intros i v H. congruence.
Qed.
