(** Property C80: payments made with the crate are accepted by the chain of C63, found by their
    recipient, and can be spent from then on. *)
From Coq Require Import String ZArith List Bool.
From Coq Require Import Init.Byte.
From Verif Require Import Prelude Fields Curve Oracles RedPallas Value Keys KeysSpec Note NoteSpec Tree TreeSpec Action NoteEnc NoteEncSpec Bundle
  Batch Builder BuilderSpec Signing Circuit PipelineSpec LedgerSpec WalletSpec LifeSpec LifeFacts
  Toy ToyFacts ToyKeys ToyNoteEnc ToyBuilder ToySigning ToyPipeline ToyLife.
Import ListNotations.
Open Scope Z_scope.

(** C80: a transaction made for a root of the tree, spending different notes that nobody has spent
    yet, is accepted. The exceptions are those of C61, a padding action whose nullifier repeats, and
    a discrete-log relation between two of the requested notes. *)
Theorem C80_own_transactions_are_accepted :
  forall (C : Curve) (OR : @Oracles C) (V : Type) (L : CurveLaws C)
    (halo2_prove : list witness -> list (list Z) -> rng -> option bytes * rng) (halo2_verify : bytes -> list (list Z) -> bool)
    (try_from : Z -> option V) (into : V -> Z)
    (h : list (@tx C V)) (lg : ledger) (anchor : Z) (b : builder) (t : @tx C V) (meta : bundle_metadata) (ws : list witness),
  (forall i v, try_from i = Some v -> into v = i) -> proofs_verify halo2_prove halo2_verify ->
  gd_fallback_ok -> basepoint SpendAuth <> pt_id ->
  reached halo2_verify into h lg -> known_anchor lg anchor -> made halo2_prove try_from anchor b t meta ws ->
  unspent lg b -> different_notes b -> Z.of_nat (length (lg_cmxs lg) + length (b_actions (fst t))) <= 2 ^ 32 ->
  accepts halo2_verify into lg t \/ undefined_merkle_hash ws \/ padding_repeats lg t meta \/ requests_collide b.
Proof. exact @made_accepted. Qed.
Print Assumptions C80_own_transactions_are_accepted.

(** C80: once it is in the chain, whatever follows, the recipient finds each output at its
    position, with its value and memo, and a builder for the current tree accepts the note. *)
Theorem C80_payments_arrive_and_can_be_spent :
  forall (C : Curve) (OR : @Oracles C) (V : Type) (L : CurveLaws C)
    (halo2_prove : list witness -> list (list Z) -> rng -> option bytes * rng) (halo2_verify : bytes -> list (list Z) -> bool)
    (try_from : Z -> option V) (into : V -> Z)
    (h : list (@tx C V)) (lg : ledger) (anchor : Z) (b : builder) (t : @tx C V) (meta : bundle_metadata) (ws : list witness)
    (i : nat) (o : output_info) (f : fvk) (s : scope) (key : ivk),
  gd_fallback_ok -> made halo2_prove try_from anchor b t meta ws -> nth_error (bl_outputs b) i = Some o ->
  fvk_ok f -> fvk_to_ivk f s = Ret key -> owned_by key (o_recipient o) ->
  reached halo2_verify into h lg ->
  exists k n, output_action_index meta i = Some k /\ n_recipient n = o_recipient o /\ n_value n = o_value o /\
    forall h' lg', reached halo2_verify into (h ++ t :: h') lg' ->
      let pos := (length (lg_cmxs lg) + k)%nat in
      (exists a, nth_error (chain_actions (h ++ t :: h')) pos = Some a /\
         try_note_decryption key a = Ret (Some (n, o_recipient o, o_memo o))) /\
      forall b', spends_enabled (bt_flags (bl_type b')) = true -> bl_anchor b' = tree_root (leaves_of (lg_cmxs lg')) 32 ->
        exists path s', mp_from_position (Z.of_nat pos) (auth_path (leaves_of (lg_cmxs lg')) (Z.of_nat pos) 32) = Ret path /\
          add_spend b' f n path = Ret (Ok tt, with_spend b' (mk_spend None f s' n path)).
Proof. exact @payment_received. Qed.
Print Assumptions C80_payments_arrive_and_can_be_spent.

(** A first transaction that spends a zero-value note and pays 1000; the bundle has two actions. *)
Example C80_ex : exists (t : @tx toy_curve Z) meta ws lg,
  made toy_prover (fun i : Z => Some i) root0 pay_builder t meta ws /\ ~ undefined_merkle_hash ws /\
  known_anchor genesis root0 /\ unspent genesis pay_builder /\ different_notes pay_builder /\
  length (bl_spends pay_builder) = 1%nat /\ length (b_actions (fst t)) = 2%nat /\
  (exists o, nth_error (bl_outputs pay_builder) 0 = Some o /\ o_recipient o = my_addr /\ o_value o = 1000 /\ o_memo o = toy_memo) /\
  (exists k, fvk_to_ivk toy_fvk External = Ret k /\ owned_by k my_addr) /\
  accepts toy_verifier (fun i => i) genesis t /\ reached toy_verifier (fun i => i) [t] lg /\ lg_pool lg = 1000.
Proof. exact toy_life. Qed.
