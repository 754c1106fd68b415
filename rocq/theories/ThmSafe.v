(** Property C99: nobody else can take a wallet's notes. *)
From Coq Require Import String ZArith List Bool.
From Coq Require Import Init.Byte.
From Verif Require Import Prelude Fields Curve CurveFacts Oracles Spec Sinsemilla SinsSpec RedPallas Value Keys KeysSpec Note Tree TreeSpec Action
  NoteEnc Bundle Batch Builder BuilderSpec Circuit CircuitSpec PipelineSpec LedgerSpec WalletSpec BackedSpec LifeSpec BalanceSpec PurseSpec MempoolSpec
  SafeSpec SafeFacts PallasCurve RealOracles RealSafeFacts Toy ToyFacts ToyKeys ToyPipeline ToySafe.
Import ListNotations.
Open Scope Z_scope.

(** C99. Any further transactions, whoever made them, change the coins of a wallet by removing those whose
    nullifier they reveal and adding those they bring, and its balance by the values of these. *)
Theorem C99_the_balance_changes_by_what_is_taken_and_what_arrives :
  forall (C : Curve) (OR : @Oracles C) (V : Type) (f : fvk) (h0 h1 : list (@tx C V)),
  coins f (h0 ++ h1) = filter (fun c => negb (spent_in f (flat_map tx_nfs h1) (snd c))) (coins f h0) ++ arrived f h0 h1 /\
  balance f (h0 ++ h1) = balance f h0 - value_of (taken f h0 h1) + value_of (arrived f h0 h1).
Proof. exact @exact_change. Qed.
Print Assumptions C99_the_balance_changes_by_what_is_taken_and_what_arrives.

(** C99. Each coin that is taken was spent as that very note, with the wallet's own keys, by an action signed
    for its transaction by someone who knew the spend authorizing key. *)
Theorem C99_each_note_is_taken_by_its_owner :
  forall (C : Curve) (OR : @Oracles C) (V : Type) (L : CurveLaws C)
    (halo2_verify : bytes -> list (list Z) -> bool) (into : V -> Z)
    (extract : bytes -> list (list Z) -> list action_cells) (sx bx : point -> bytes -> signature -> Z),
  finds_cells halo2_verify extract -> finds_keys SpendAuth sx -> finds_keys Binding bx ->
  forall (f : fvk) (h0 : list (@tx C V)) (lg0 : ledger) (h1 : list (@tx C V)) (lg : ledger) (c : nat * note),
  gd_fallback_ok -> fvk_ok f -> reached halo2_verify into h0 lg0 -> applied halo2_verify into lg0 h1 lg -> In c (taken f h0 h1) ->
  (exists t a w, In t h1 /\ reveals extract f (snd c) t a w /\ (by_owner sx f (snd c) t a w \/ by_relation f (snd c) w)) \/
  break into extract bx (h0 ++ h1).
Proof. exact @taken_by_owner. Qed.
Print Assumptions C99_each_note_is_taken_by_its_owner.

(** C99. So the balance does not go down unless the owner signs. *)
Theorem C99_no_loss_without_the_owner :
  forall (C : Curve) (OR : @Oracles C) (V : Type) (L : CurveLaws C)
    (halo2_verify : bytes -> list (list Z) -> bool) (into : V -> Z)
    (extract : bytes -> list (list Z) -> list action_cells) (sx bx : point -> bytes -> signature -> Z),
  finds_cells halo2_verify extract -> finds_keys SpendAuth sx -> finds_keys Binding bx ->
  forall (f : fvk) (h0 : list (@tx C V)) (lg0 : ledger) (h1 : list (@tx C V)) (lg : ledger),
  gd_fallback_ok -> fvk_ok f -> reached halo2_verify into h0 lg0 -> applied halo2_verify into lg0 h1 lg ->
  balance f h0 <= balance f (h0 ++ h1) \/
  (exists c t a w, In c (coins f h0) /\ In t h1 /\ reveals extract f (snd c) t a w /\ (by_owner sx f (snd c) t a w \/ by_relation f (snd c) w)) \/
  break into extract bx (h0 ++ h1).
Proof. exact @no_loss. Qed.
Print Assumptions C99_no_loss_without_the_owner.

(** C99. The same on Pallas, for the functions the crate links. *)
Theorem C99_no_loss_on_pallas :
  forall (R : Type) (rng_b : R -> nat -> bytes * R) (rng_i : R -> nat -> nat * R) (rng_p : R -> pallas_point * R),
  let OR := real_oracles R rng_b rng_i rng_p in
  forall (V : Type) (halo2_verify : bytes -> list (list Z) -> bool) (into : V -> Z)
    (extract : bytes -> list (list Z) -> list (@action_cells pallas)) (sx bx : pallas_point -> bytes -> signature -> Z),
  @finds_cells pallas OR halo2_verify extract -> @finds_keys pallas OR SpendAuth sx -> @finds_keys pallas OR Binding bx ->
  forall (f : @fvk pallas) (h0 : list (@tx pallas V)) (lg0 : ledger) (h1 : list (@tx pallas V)) (lg : ledger),
  @fvk_ok pallas OR f -> @reached pallas OR V halo2_verify into h0 lg0 -> @applied pallas OR V halo2_verify into lg0 h1 lg ->
  @balance pallas OR V f h0 <= @balance pallas OR V f (h0 ++ h1) \/
  (exists c t a w, In c (@coins pallas OR V f h0) /\ In t h1 /\ @reveals pallas OR V extract f (snd c) t a w /\
     (@by_owner pallas OR V sx f (snd c) t a w \/ @by_relation pallas OR f (snd c) w)) \/
  @break pallas OR V into extract bx (h0 ++ h1).
Proof. exact real_no_loss. Qed.
Print Assumptions C99_no_loss_on_pallas.

(** After its first transaction the wallet has a note of 1000; the second takes it and brings one of 990. *)
Example C99_ex : exists halo2_verify extract h0 lg0 h1 lg n m,
  finds_cells halo2_verify extract /\ finds_keys SpendAuth (toy_log SpendAuth) /\ finds_keys Binding (toy_log Binding) /\
  reached halo2_verify (fun v : Z => v) h0 lg0 /\ applied halo2_verify (fun v : Z => v) lg0 h1 lg /\
  In (0%nat, n) (taken toy_fvk h0 h1) /\ n_value n = 1000 /\ In (1%nat, m) (arrived toy_fvk h0 h1) /\ n_value m = 990.
Proof. exact toy_safe. Qed.
Example C99_ex_keys : @gd_fallback_ok toy_curve toy_oracles /\ fvk_ok toy_fvk.
Proof. exact (conj toy_gd toy_fvk_ok). Qed.
