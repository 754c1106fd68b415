(** Property C100: a wallet may scan the chain as it grows. *)
From Coq Require Import String ZArith List Bool.
From Coq Require Import Init.Byte.
From Verif Require Import Prelude Fields Curve CurveFacts Oracles Spec Sinsemilla SinsSpec RedPallas Value Keys KeysSpec Note Tree TreeSpec Action
  NoteEnc Bundle Batch Builder BuilderSpec Circuit CircuitSpec PipelineSpec LedgerSpec WalletSpec BackedSpec LifeSpec BalanceSpec PurseSpec
  ScanSpec ScanFacts Toy ToyFacts ToyKeys ToyPipeline ToyScan.
Import ListNotations.
Open Scope Z_scope.

(** C100. A wallet that sees each action once holds in the end exactly the coins of the whole chain, with their
    positions, wherever it stopped and resumed, unless it found a note whose nullifier was already revealed. *)
Theorem C100_scanning_finds_the_coins :
  forall (C : Curve) (OR : @Oracles C) (V : Type) (f : fvk) (h0 h1 : list (@tx C V)),
  scan f (scan f wallet_new h0) h1 = scan f wallet_new (h0 ++ h1) /\
  (scan f wallet_new (h0 ++ h1) = mk_wallet (length (chain_actions (h0 ++ h1))) (coins f (h0 ++ h1)) \/ found_too_late f (h0 ++ h1)).
Proof. exact (fun C OR V f h0 h1 => conj (eq_sym (@scan_resumes C OR V f wallet_new h0 h1)) (@scan_finds C OR V f (h0 ++ h1))). Qed.
Print Assumptions C100_scanning_finds_the_coins.

(** C100. On an accepted chain the notes it holds are worth the balance, unless a relation between generators
    can be read off a proof. *)
Theorem C100_scanned_notes_are_the_balance :
  forall (C : Curve) (OR : @Oracles C) (V : Type) (L : CurveLaws C)
    (halo2_verify : bytes -> list (list Z) -> bool) (into : V -> Z)
    (extract : bytes -> list (list Z) -> list action_cells) (sx bx : point -> bytes -> signature -> Z),
  finds_cells halo2_verify extract -> finds_keys SpendAuth sx -> finds_keys Binding bx ->
  forall (f : fvk) (h : list (@tx C V)) (lg : ledger),
  gd_fallback_ok -> fvk_ok f -> reached halo2_verify into h lg ->
  value_of (wl_notes (scan f wallet_new h)) = balance f h \/
  (exists h1 t h2 a n, h = h1 ++ t :: h2 /\ In a (b_actions (fst t)) /\ opens f a = Some n /\
     ((exists x, In x (acts extract (h1 ++ [t])) /\
         (nullifier_relation (spent_secret (snd x)) (own_secret f n) \/ exists s, foreign_opening f s (snd x))) \/
      break into extract bx (h1 ++ [t]))).
Proof. exact @scan_balance. Qed.
Print Assumptions C100_scanned_notes_are_the_balance.

(** The wallet holds a note of 1000 after the first transaction, and one of 990 after the second has spent it. *)
Example C100_ex : exists halo2_verify extract (t1 t2 : @tx toy_curve Z) lg n m,
  finds_cells halo2_verify extract /\ finds_keys SpendAuth (toy_log SpendAuth) /\ finds_keys Binding (toy_log Binding) /\
  reached halo2_verify (fun v : Z => v) [t1; t2] lg /\
  scan toy_fvk wallet_new [t1] = mk_wallet 1 [(0%nat, n)] /\ n_value n = 1000 /\
  scan toy_fvk wallet_new [t1; t2] = mk_wallet 2 [(1%nat, m)] /\ n_value m = 990.
Proof. exact toy_scan. Qed.
Example C100_ex_keys : @gd_fallback_ok toy_curve toy_oracles /\ fvk_ok toy_fvk.
Proof. exact (conj toy_gd toy_fvk_ok). Qed.
