(** Property C98: a payment prepared for an earlier root, and a transaction on another branch of the chain. *)
From Coq Require Import String ZArith List Bool.
From Coq Require Import Init.Byte.
From Verif Require Import Prelude Fields Curve CurveFacts Oracles Spec Sinsemilla SinsSpec RedPallas Value Keys KeysSpec Note Tree TreeSpec Action
  NoteEnc Bundle Batch Builder Signing BuilderSpec SigningSpec Circuit CircuitSpec PipelineSpec LedgerSpec WalletSpec BackedSpec LifeSpec BalanceSpec
  BalanceFacts PurseSpec PurseFacts MempoolSpec MempoolFacts LaterFacts Toy ToyFacts ToyKeys ToyNoteEnc ToyBuilder ToySigning ToyPipeline ToyLife ToyBalance
  ToyPurse ToyMempool ToyLater.
Import ListNotations.
Open Scope Z_scope.

(** C98. A wallet prepares a payment from its coins at the root of one state while the chain goes on. As long
    as the chosen coins are still coins of the later chain, the payment is accepted there, and the balance is
    the later balance less the choice plus what was paid to the wallet's own addresses. *)
Theorem C98_payment_from_an_older_root :
  forall (C : Curve) (OR : @Oracles C) (V : Type) (L : CurveLaws C)
    (halo2_prove : list witness -> list (list Z) -> rng -> option bytes * rng) (halo2_verify : bytes -> list (list Z) -> bool)
    (try_from : Z -> option V) (into : V -> Z)
    (f : fvk) (ask : Z) (mine : address -> bool) (h0 : list (@tx C V)) (lg0 : ledger) (h1 : list (@tx C V)) (lg : ledger)
    (ty : bundle_type) (pick : nat * note -> bool)
    (outs : list call) (b : builder) (fuel : nat) (r : rng) (b0 : unauthorized_bundle) (meta : bundle_metadata) (r' : rng) (sighash : bytes)
    (r1 r2 : rng),
  (forall i v, try_from i = Some v -> into v = i) -> proofs_verify halo2_prove halo2_verify -> prover_succeeds halo2_prove ->
  gd_fallback_ok -> basepoint SpendAuth <> pt_id -> fvk_ok f -> ak_of_ask ask = fvk_ak f -> decides mine f ->
  reached halo2_verify into h0 lg0 -> applied halo2_verify into lg0 h1 lg ->
  purse_built f lg0 ty (filter pick (coins f h0)) outs b -> incl (filter pick (coins f h0)) (coins f (h0 ++ h1)) ->
  build try_from fuel b r = Ret (Ok (Some (b0, meta)), r') -> (forall a, In a (b_actions b0) -> a_rk a <> pt_id) ->
  Z.of_nat (length (lg_cmxs lg) + length (b_actions b0)) <= 2 ^ 32 ->
  let ws := up_circuits (ip_proof (b_auth b0)) in
  (exists b1 r3 bd, create_proof halo2_prove b0 r1 = Ret (Ok b1, r3) /\ apply_signatures b1 r2 sighash [ask] = Ret (Ok bd) /\
     made halo2_prove try_from (tree_root (leaves_of (lg_cmxs lg0)) 32) b (bd, sighash) meta ws /\
     (padding_repeats lg (bd, sighash) meta \/
      (accepts halo2_verify into lg (bd, sighash) /\
       (balance f ((h0 ++ h1) ++ [(bd, sighash)]) = balance f (h0 ++ h1) - value_of (filter pick (coins f h0)) + receipts mine b \/
        surprise f (h0 ++ h1) b (bd, sighash) ws \/ born_spent f (h0 ++ h1) (bd, sighash))))) \/
  undefined_merkle_hash ws \/ requests_collide b.
Proof. exact @older_root. Qed.
Print Assumptions C98_payment_from_an_older_root.

(** C98. A transaction accepted on one branch of the chain, with an anchor from before the branches part, is
    accepted on another branch exactly when nothing there revealed one of its nullifiers and there is room. *)
Theorem C98_survives_a_fork :
  forall (C : Curve) (OR : @Oracles C) (V : Type) (halo2_verify : bytes -> list (list Z) -> bool) (into : V -> Z)
    (h0 : list (@tx C V)) (lg0 : ledger) (tsA : list (@tx C V)) (lgA : ledger) (tsB : list (@tx C V)) (lgB : ledger) (t : @tx C V),
  reached halo2_verify into h0 lg0 -> applied halo2_verify into lg0 tsA lgA -> applied halo2_verify into lg0 tsB lgB ->
  known_anchor lg0 (b_anchor (fst t)) -> accepts halo2_verify into lgA t ->
  (accepts halo2_verify into lgB t <->
   disjoint (tx_nfs t) (flat_map tx_nfs tsB) /\ Z.of_nat (length (lg_cmxs lgB) + tx_size t) <= 2 ^ 32).
Proof. exact @fork. Qed.
Print Assumptions C98_survives_a_fork.

(** The wallet prepares its payment after one transaction; a second one is taken before it is sent. *)
Example C98_ex : exists (t t' : @tx toy_curve Z) lg0 lg n ask b b0 meta r',
  reached toy_verifier (fun i => i) [t] lg0 /\ applied toy_verifier (fun i => i) lg0 [t'] lg /\ lg_cmxs lg0 <> lg_cmxs lg /\
  coins toy_fvk [t] = [(0%nat, n)] /\ n_value n = 1000 /\ incl (filter (fun _ => true) (coins toy_fvk [t])) (coins toy_fvk ([t] ++ [t'])) /\
  purse_built toy_fvk lg0 toy_type (filter (fun _ => true) (coins toy_fvk [t])) payout b /\
  build (fun i : Z => Some i) 5 b rng2 = Ret (Ok (Some (b0, meta)), r') /\ (forall a, In a (b_actions b0) -> a_rk a <> pt_id) /\
  Z.of_nat (length (lg_cmxs lg) + length (b_actions b0)) <= 2 ^ 32 /\ ak_of_ask ask = fvk_ak toy_fvk.
Proof. exact toy_later. Qed.

(** One branch stops at the empty chain and the other takes a transaction; a second one is valid on both. *)
Example C98_fork_ex : exists (t t' : @tx toy_curve Z) lg,
  accepts toy_verifier (fun i => i) genesis t' /\ known_anchor genesis (b_anchor (fst t')) /\
  applied toy_verifier (fun i => i) genesis [t] lg /\ accepts toy_verifier (fun i => i) lg t'.
Proof. exact toy_fork. Qed.
