(** Property C103: an incoming viewing key shows exactly what was sent to its addresses. *)
From Coq Require Import String ZArith List Bool Permutation.
From Coq Require Import Init.Byte.
From Verif Require Import Prelude Fields Curve Oracles Spec RedPallas Value Keys KeysSpec Note NoteSpec Tree Action NoteEnc NoteEncSpec Bundle BundleSpec Builder
  Signing BuilderSpec Circuit LedgerSpec WalletSpec BackedSpec LifeSpec BalanceSpec LightSpec LightFacts SentSpec ReceivedSpec ReceivedFacts PallasCurve RealOracles RealReceivedFacts
  Toy ToyFacts ToyKeys ToyNote ToyNoteEnc ToyBuilder ToySigning ToyPipeline ToyTwo ToyBalance ToyReceived.
Import ListNotations.
Open Scope Z_scope.

(** C103. In a transaction built by the crate, in any later state of its authorization, an incoming viewing key reads
    the payments of value (recipient, value, memo) asked for to its own addresses, each once, and no others. The
    exception is explicit: a note commitment that the key opens in another way than its maker. *)
Theorem C103_recipient_sees_exactly_what_was_sent :
  forall (C : Curve) (OR : @Oracles C) (L : CurveLaws C) (V : Type) (try_from : Z -> option V)
    (t : bundle_type) (anchor : Z) (b : builder) (fuel : nat) (r : rng)
    (bd : @unauthorized_bundle C V) (meta : bundle_metadata) (r' : rng) (T S : Type) (fin : bundle T S V) (k : ivk),
  gd_fallback_ok -> ivk_ok k -> reachable t anchor b -> build try_from fuel b r = Ret (Ok (Some (bd, meta)), r') ->
  effects fin = effects bd ->
  Permutation (received k (b_actions fin)) (owed k b) \/ two_readings k (b_actions fin) (up_circuits (ip_proof (b_auth bd))).
Proof. exact @received_of_bundle. Qed.
Print Assumptions C103_recipient_sees_exactly_what_was_sent.

(** C103. So on any list of transactions made with the crate, by anyone, the key reads the payments asked for to its
    addresses in all of them. *)
Theorem C103_recipient_reads_its_whole_history :
  forall (C : Curve) (OR : @Oracles C) (L : CurveLaws C) (V : Type)
    (halo2_prove : list witness -> list (list Z) -> rng -> option bytes * rng) (try_from : Z -> option V) (k : ivk) (es : list (entry C V)),
  gd_fallback_ok -> ivk_ok k -> Forall (entry_made halo2_prove try_from) es ->
  Permutation (received k (chain_actions (map en_tx es))) (flat_map (fun e => owed k (en_builder e)) es) \/
  exists e, In e es /\ two_readings k (b_actions (fst (en_tx e))) (en_witnesses e).
Proof. exact @received_on_chain. Qed.
Print Assumptions C103_recipient_reads_its_whole_history.

(** C103. A client that downloads only compact actions reads the same payments, without the memos. *)
Theorem C103_light_client_reads_its_whole_history :
  forall (C : Curve) (OR : @Oracles C) (L : CurveLaws C) (V : Type)
    (halo2_prove : list witness -> list (list Z) -> rng -> option bytes * rng) (try_from : Z -> option V) (k : ivk) (es : list (entry C V)),
  gd_fallback_ok -> ivk_ok k -> Forall (entry_made halo2_prove try_from) es ->
  Permutation (light_received k (compact_chain (map en_tx es))) (map fst (flat_map (fun e => owed k (en_builder e)) es)) \/
  exists e, In e es /\ (two_readings k (b_actions (fst (en_tx e))) (en_witnesses e) \/ two_light_readings k (b_actions (fst (en_tx e))) (en_witnesses e)).
Proof. exact @light_received_on_chain. Qed.
Print Assumptions C103_light_client_reads_its_whole_history.

(** C103 on Pallas. *)
Theorem C103_recipient_reads_its_whole_history_on_pallas :
  forall (R : Type) (rng_b : R -> nat -> bytes * R) (rng_i : R -> nat -> nat * R) (rng_p : R -> pallas_point * R),
  let OR := real_oracles R rng_b rng_i rng_p in
  forall (V : Type) (halo2_prove : list (@witness pallas) -> list (list Z) -> R -> option bytes * R) (try_from : Z -> option V)
    (k : ivk) (es : list (entry pallas V)),
  ivk_ok k -> Forall (@entry_made pallas OR V halo2_prove try_from) es ->
  Permutation (@received pallas OR _ k (chain_actions (map en_tx es))) (flat_map (fun e => @owed pallas OR k (en_builder e)) es) \/
  exists e, In e es /\ @two_readings pallas OR _ k (b_actions (fst (en_tx e))) (en_witnesses e).
Proof. exact real_received. Qed.
Print Assumptions C103_recipient_reads_its_whole_history_on_pallas.

(** A builder that pays 5 to one wallet, 7 to another, and nothing to an address of the first. *)
Example C103_ex : @gd_fallback_ok toy_curve toy_oracles /\ reachable toy_type 7 mix_builder /\
  (exists bd meta r', build (fun i : Z => Some i) 5 mix_builder toy_rng = Ret (Ok (Some (bd, meta)), r')) /\
  exists k1 k2, fvk_to_ivk toy_fvk External = Ret k1 /\ fvk_to_ivk toy_fvk2 External = Ret k2 /\ ivk_ok k1 /\ ivk_ok k2 /\
    owed k1 mix_builder = [(my_addr, 5, xf6 :: repeat x00 511)] /\ owed k2 mix_builder = [(my_addr2, 7, toy_memo)].
Proof. exact (conj toy_gd (conj mix_reachable (conj mix_builds mix_owed))). Qed.
Example C103_ex_chain : exists es : list (entry toy_curve Z), length es = 2%nat /\ Forall (entry_made toy_prover (fun i : Z => Some i)) es /\
  map (fun e => receipts (mine_of toy_fvk) (en_builder e)) es = [1000; 600].
Proof.
  destruct toy_account as (es & lg & A & LE & _ & R & _). exists es. exact (conj LE (conj (account_made _ _ _ _ _ _ _ A) R)).
Qed.
