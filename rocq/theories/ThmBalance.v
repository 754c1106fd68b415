(** Property C89: a wallet that scans the chain knows its balance. *)
From Coq Require Import String ZArith List Bool.
From Coq Require Import Init.Byte.
From Verif Require Import Prelude Fields Curve CurveFacts Oracles Spec Sinsemilla SinsSpec RedPallas Value Keys KeysSpec Note Tree TreeSpec Action
  NoteEnc Bundle Batch Builder Signing BuilderSpec SigningSpec Circuit CircuitSpec PipelineSpec LedgerSpec WalletSpec BackedSpec LifeSpec BalanceSpec
  BalanceFacts Toy ToyFacts ToyKeys ToyNoteEnc ToyBuilder ToySigning ToyPipeline ToyLife ToyBalance.
Import ListNotations.
Open Scope Z_scope.

(** C89. A transaction made from the builder [b] and accepted changes the balance that the wallet
    computes by what [b] pays to the wallet less what it spends of the wallet's notes. *)
Theorem C89_balance_follows_payments :
  forall (C : Curve) (OR : @Oracles C) (V : Type) (L : CurveLaws C)
    (halo2_prove : list witness -> list (list Z) -> rng -> option bytes * rng) (halo2_verify : bytes -> list (list Z) -> bool)
    (try_from : Z -> option V) (into : V -> Z)
    (f : fvk) (mine : address -> bool) (h : list (@tx C V)) (lg : ledger) (anchor : Z) (b : builder) (t : @tx C V)
    (meta : bundle_metadata) (ws : list witness),
  gd_fallback_ok -> fvk_ok f -> decides mine f ->
  reached halo2_verify into h lg -> made halo2_prove try_from anchor b t meta ws -> accepts halo2_verify into lg t -> spends_found f h b ->
  balance f (h ++ [t]) = balance f h + receipts mine b - payments mine b \/ surprise f h b t ws \/ born_spent f h t.
Proof. exact @balance_step. Qed.
Print Assumptions C89_balance_follows_payments.

(** C89. So on a chain of such transactions the balance is what was received less what was spent. *)
Theorem C89_account_book :
  forall (C : Curve) (OR : @Oracles C) (V : Type) (L : CurveLaws C)
    (halo2_prove : list witness -> list (list Z) -> rng -> option bytes * rng) (halo2_verify : bytes -> list (list Z) -> bool)
    (try_from : Z -> option V) (into : V -> Z)
    (f : fvk) (mine : address -> bool) (es : list (entry C V)) (lg : ledger),
  gd_fallback_ok -> fvk_ok f -> decides mine f -> account halo2_prove halo2_verify try_from into f es lg ->
  balance f (map en_tx es) =
    zsum (map (fun e => receipts mine (en_builder e)) es) - zsum (map (fun e => payments mine (en_builder e)) es) \/
  account_surprise f es.
Proof. exact @account_book. Qed.
Print Assumptions C89_account_book.

(** C89. On any accepted chain, made with the crate or not, a note of value that the wallet finds in
    a transaction has a nullifier that this and the earlier transactions do not reveal. *)
Theorem C89_no_note_is_born_spent :
  forall (C : Curve) (OR : @Oracles C) (V : Type) (L : CurveLaws C)
    (halo2_verify : bytes -> list (list Z) -> bool) (into : V -> Z)
    (extract : bytes -> list (list Z) -> list action_cells) (sx bx : point -> bytes -> signature -> Z),
  finds_cells halo2_verify extract -> finds_keys SpendAuth sx -> finds_keys Binding bx ->
  forall (f : fvk) (h : list (@tx C V)) (lg : ledger) (t : @tx C V) (a : action signature) (n : note) (nf : Z),
  gd_fallback_ok -> fvk_ok f -> reached halo2_verify into h lg -> accepts halo2_verify into lg t ->
  In a (b_actions (fst t)) -> opens f a = Some n -> n_value n <> 0 -> note_nullifier n f = Ret nf ->
  ~ In nf (map a_nf (chain_actions (h ++ [t]))) \/
  (exists x, In x (acts extract (h ++ [t])) /\
     (nullifier_relation (spent_secret (snd x)) (own_secret f n) \/ exists s, foreign_opening f s (snd x))) \/
  break into extract bx (h ++ [t]).
Proof. exact @not_born_spent. Qed.
Print Assumptions C89_no_note_is_born_spent.

(** A wallet receives 1000, then spends that note and sends itself 600. *)
Example C89_ex : exists (es : list (entry toy_curve Z)) lg,
  account toy_prover toy_verifier (fun i : Z => Some i) (fun i => i) toy_fvk es lg /\ length es = 2%nat /\
  decides (mine_of toy_fvk) toy_fvk /\
  map (fun e => receipts (mine_of toy_fvk) (en_builder e)) es = [1000; 600] /\
  map (fun e => payments (mine_of toy_fvk) (en_builder e)) es = [0; 1000] /\
  balance toy_fvk (map en_tx es) = 600.
Proof. exact toy_account. Qed.
Example C89_ex_keys : @gd_fallback_ok toy_curve toy_oracles /\ fvk_ok toy_fvk.
Proof. exact (conj toy_gd toy_fvk_ok). Qed.
(** A note of 990 received on an accepted chain. *)
Example C89_ex_born : exists halo2_verify extract h lg t a n nf,
  finds_cells halo2_verify extract /\ finds_keys SpendAuth (toy_log SpendAuth) /\ finds_keys Binding (toy_log Binding) /\
  reached halo2_verify (fun v : Z => v) h lg /\ accepts halo2_verify (fun v : Z => v) lg t /\ In a (b_actions (fst t)) /\
  opens toy_fvk a = Some n /\ n_value n = 990 /\ note_nullifier n toy_fvk = Ret nf.
Proof. exact toy_not_born. Qed.
