(** Properties C07-C16 (src/builder.rs). *)
From Coq Require Import String ZArith List Bool Permutation Lia.
From Coq Require Import Init.Byte.
From Verif Require Import Prelude Fields Curve Oracles RedPallas Value Keys Note Tree Action NoteEnc Bundle Builder Spec
  ValueFacts KeysSpec KeysFacts NoteSpec NoteEncSpec BuilderSpec BuilderFacts BuildFacts VbFacts
  Toy ToyFacts ToyKeys ToyNoteEnc ToyBuilder.
Import ListNotations.
Open Scope Z_scope.

(** C07: what each call does, case by case ([step_spec]); no call with legal arguments panics. *)
Theorem C07_calls_follow_the_rules :
  forall (C : Curve) (OR : @Oracles C) (L : CurveLaws C) (b : builder) (c : call),
  call_ok c -> exists r b', step b c = Ret (r, b') /\ step_spec b c r b'.
Proof. exact @step_correct. Qed.
Print Assumptions C07_calls_follow_the_rules.

(** C07: what a builder holds after any history: exactly the accepted items, in order, all legal. *)
Theorem C07_histories_accept_only_legal_items :
  forall (C : Curve) (OR : @Oracles C) (L : CurveLaws C) (l : list call) (t : bundle_type) (anchor : Z)
    (rs : list reply) (b : builder),
  Forall call_ok l -> run (builder_new t anchor) l = Ret (rs, b) ->
  builder_legal b /\ bl_type b = t /\ bl_anchor b = anchor /\ length rs = length l /\
  map (fun s => (s_fvk s, s_note s, s_path s)) (bl_spends b) = accepted_spends l rs /\
  bl_outputs b = accepted_outputs l rs.
Proof. exact @run_from_new. Qed.
Print Assumptions C07_histories_accept_only_legal_items.

Theorem C07_histories_never_panic :
  forall (C : Curve) (OR : @Oracles C) (L : CurveLaws C) (l : list call) (b : builder),
  Forall call_ok l -> exists rs b', run b l = Ret (rs, b').
Proof. exact @run_total. Qed.
Print Assumptions C07_histories_never_panic.

Example C07_has_instances : exists rs,
  Forall call_ok toy_calls /\ run (builder_new toy_type toy_anchor) toy_calls = Ret (rs, toy_builder) /\
  length (bl_spends toy_builder) = 4%nat /\ length (bl_outputs toy_builder) = 4%nat.
Proof.
  destruct toy_run as [rs H]. exists rs. split; [exact toy_calls_ok|]. split; [exact H|exact toy_holds].
Qed.

(** C08. The only panic is the one of [SpendingKey::from_bytes] (C31), when the RNG draws a key
    whose authorizing key is zero for a dummy. *)
Theorem C08_build_fails_only_on_overflow :
  forall (C : Curve) (OR : @Oracles C) (L : CurveLaws C) (V : Type) (try_from : Z -> option V)
    (t : bundle_type) (anchor : Z) (b : builder) (fuel : nat) (r : rng),
  gd_fallback_ok -> reachable t anchor b ->
  (forall why, build try_from fuel b r = Panic why -> rng_hits_zero_key r) /\
  (forall res r', build try_from fuel b r = Ret (res, r') -> res = Err BE_ValueSum \/ exists o, res = Ok o).
Proof. exact @build_outcome. Qed.
Print Assumptions C08_build_fails_only_on_overflow.

Example C08_has_instances :
  CurveLaws toy_curve /\ gd_fallback_ok /\ reachable toy_type toy_anchor toy_builder /\
  exists bd meta r', build (fun i : Z => Some i) 5 toy_builder toy_rng = Ret (Ok (Some (bd, meta)), r').
Proof. exact (conj toy_laws (conj toy_gd (conj toy_reachable toy_builds))). Qed.

(** C09. *)
Theorem C09_shape_of_the_built_bundle :
  forall (C : Curve) (OR : @Oracles C) (L : CurveLaws C) (V : Type) (try_from : Z -> option V)
    (t : bundle_type) (anchor : Z) (b : builder) (fuel : nat) (r : rng)
    (o : option (@unauthorized_bundle C V * bundle_metadata)) (r' : rng),
  gd_fallback_ok -> reachable t anchor b -> build try_from fuel b r = Ret (Ok o, r') ->
  exists n, num_actions t (length (bl_spends b)) (length (bl_outputs b)) = Ok n /\
    (o = None <-> n = 0%nat) /\
    forall bd meta, o = Some (bd, meta) ->
      length (b_actions bd) = n /\ b_flags bd = bt_flags t /\ b_anchor bd = anchor.
Proof. exact @build_shape. Qed.
Print Assumptions C09_shape_of_the_built_bundle.

(** The premises of C09-C12 and C14-C16 are met by the builder of [C08_has_instances]. *)
Example C09_has_instances : num_actions toy_type 4 4 = Ok 4%nat /\ num_actions toy_type 0 0 = Ok 0%nat.
Proof. split; reflexivity. Qed.

(** C10. *)
Theorem C10_metadata_points_at_the_right_actions :
  forall (C : Curve) (OR : @Oracles C) (L : CurveLaws C) (V : Type) (try_from : Z -> option V)
    (t : bundle_type) (anchor : Z) (b : builder) (fuel : nat) (r : rng)
    (bd : @unauthorized_bundle C V) (meta : bundle_metadata) (r' : rng),
  gd_fallback_ok -> reachable t anchor b -> build try_from fuel b r = Ret (Ok (Some (bd, meta)), r') ->
  (forall i s, nth_error (bl_spends b) i = Some s ->
     exists k a, spend_action_index meta i = Some k /\ nth_error (b_actions bd) k = Some a /\
       note_nullifier (s_note s) (s_fvk s) = Ret (a_nf a)) /\
  (forall i o, nth_error (bl_outputs b) i = Some o ->
     exists k a n r0, output_action_index meta i = Some k /\ nth_error (b_actions bd) k = Some a /\
       n_recipient n = o_recipient o /\ n_value n = o_value o /\ encrypts (o_ovk o) n (o_memo o) r0 a) /\
  (forall i j k, spend_action_index meta i = Some k -> spend_action_index meta j = Some k -> i = j) /\
  (forall i j k, output_action_index meta i = Some k -> output_action_index meta j = Some k -> i = j) /\
  (forall i, (length (bl_spends b) <= i)%nat -> spend_action_index meta i = None) /\
  (forall i, (length (bl_outputs b) <= i)%nat -> output_action_index meta i = None).
Proof. exact @build_metadata. Qed.
Print Assumptions C10_metadata_points_at_the_right_actions.

Example C10_has_instances :
  exists s o, nth_error (bl_spends toy_builder) 3 = Some s /\ nth_error (bl_outputs toy_builder) 3 = Some o.
Proof.
  destruct toy_holds as [H1 H2].
  destruct (nth_error (bl_spends toy_builder) 3) as [s|] eqn:E1; [|apply nth_error_None in E1; lia].
  destruct (nth_error (bl_outputs toy_builder) 3) as [o|] eqn:E2; [|apply nth_error_None in E2; lia].
  exists s, o. split; reflexivity.
Qed.

(** C11: there is a list of pairs, one per action, that uses each requested item once, and fresh
    zero-value dummies for the rest; action [k] spends and sends pair [k]. *)
Theorem C11_items_appear_once_and_padding_has_no_value :
  forall (C : Curve) (OR : @Oracles C) (L : CurveLaws C) (V : Type) (try_from : Z -> option V)
    (t : bundle_type) (anchor : Z) (b : builder) (fuel : nat) (r : rng)
    (bd : @unauthorized_bundle C V) (meta : bundle_metadata) (r' : rng),
  gd_fallback_ok -> reachable t anchor b -> build try_from fuel b r = Ret (Ok (Some (bd, meta)), r') ->
  exists plan, built b plan bd meta.
Proof. exact @build_plan. Qed.
Print Assumptions C11_items_appear_once_and_padding_has_no_value.

(** C12. *)
Theorem C12_value_balance_is_exact :
  forall (C : Curve) (OR : @Oracles C) (L : CurveLaws C) (V : Type) (try_from : Z -> option V)
    (t : bundle_type) (anchor : Z) (b : builder),
  gd_fallback_ok -> reachable t anchor b ->
  (forall fuel r bd meta r', build try_from fuel b r = Ret (Ok (Some (bd, meta)), r') ->
     try_from (spent b - sent b) = Some (b_value_balance bd)) /\
  (exists res, value_balance try_from b = Ret res /\
     forall v, res = Ok v -> try_from (spent b - sent b) = Some v) /\
  (forall v, spent b < 2 ^ 64 -> sent b < 2 ^ 64 -> i64_ok (spent b - sent b) -> try_from (spent b - sent b) = Some v ->
     value_balance try_from b = Ret (Ok v) /\
     forall fuel r res r', build try_from fuel b r = Ret (res, r') -> exists o, res = Ok o).
Proof. exact @build_balance. Qed.
Print Assumptions C12_value_balance_is_exact.

Example C12_has_instances : exists b,
  reachable toy_type 7 b /\ spent b = 0 /\ sent b = 12 /\ i64_ok (spent b - sent b).
Proof.
  destruct toy_small as (b & H1 & H2 & H3). exists b. split; [exact H1|]. split; [exact H2|]. split; [exact H3|].
  rewrite H2, H3. unfold i64_ok. lia.
Qed.

(** C12: exactly when [value_balance] succeeds (the spends are all added before any output is
    subtracted), and that [build] cannot succeed when the balance itself does not fit. The first
    failing case is met by the builder of C13, which cannot report its zero balance. *)
Theorem C12_value_balance_succeeds_exactly :
  forall (C : Curve) (OR : @Oracles C) (L : CurveLaws C) (V : Type) (try_from : Z -> option V)
    (t : bundle_type) (anchor : Z) (b : builder),
  gd_fallback_ok -> reachable t anchor b ->
  (forall v, value_balance try_from b = Ret (Ok v) <->
     spent b < 2 ^ 64 /\ i64_ok (spent b - sent b) /\ try_from (spent b - sent b) = Some v) /\
  (value_balance try_from b = Ret (Err OverflowError) <->
     2 ^ 64 <= spent b \/ ~ i64_ok (spent b - sent b) \/ try_from (spent b - sent b) = None) /\
  (~ i64_ok (spent b - sent b) \/ try_from (spent b - sent b) = None ->
     forall fuel r bd meta r', build try_from fuel b r <> Ret (Ok (Some (bd, meta)), r')).
Proof. exact @value_balance_exact. Qed.
Print Assumptions C12_value_balance_succeeds_exactly.

(** C13 is false of the code: a builder whose spends and outputs cancel out exactly, whose
    value_balance reports an overflow, and whose build succeeds or fails with the shuffle. *)
Theorem C13_overflow_depends_on_order_refuted :
  exists (C : Curve) (OR : @Oracles C) (t : bundle_type) (anchor : Z) (b : builder) (r1 r2 : rng),
    CurveLaws C /\ gd_fallback_ok /\ reachable t anchor b /\ spent b = sent b /\
    value_balance (fun i : Z => Some i) b = Ret (Err OverflowError) /\
    (exists bd meta r', build (fun i : Z => Some i) 5 b r1 = Ret (Ok (Some (bd, meta)), r') /\ b_value_balance bd = 0) /\
    (exists r', build (fun i : Z => Some i) 5 b r2 = Ret (Err BE_ValueSum, r')).
Proof. exact balance_order_dependent. Qed.
Print Assumptions C13_overflow_depends_on_order_refuted.

(** C14: [witness_of] ties the proof witness at the same index to the same spend and the same new note. *)
Theorem C14_each_action_binds_its_own_notes :
  forall (C : Curve) (OR : @Oracles C) (L : CurveLaws C) (V : Type) (try_from : Z -> option V)
    (t : bundle_type) (anchor : Z) (b : builder) (fuel : nat) (r : rng)
    (bd : @unauthorized_bundle C V) (meta : bundle_metadata) (r' : rng) (k : nat) (a : action signing_metadata),
  gd_fallback_ok -> reachable t anchor b -> build try_from fuel b r = Ret (Ok (Some (bd, meta)), r') ->
  nth_error (b_actions bd) k = Some a ->
  exists s n cm w alpha rcv,
    note_nullifier (s_note s) (s_fvk s) = Ret (a_nf a) /\
    n_rho n = a_nf a /\ commitment n = Ret cm /\ a_cmx a = pt_x cm /\
    nth_error (up_circuits (ip_proof (b_auth bd))) k = Some w /\ witness_of s n alpha rcv w /\
    a_cv a = pt_add (pt_mul (n_value (s_note s) - n_value n) value_base_V) (pt_mul rcv value_base_R) /\
    a_rk a = pt_add (fvk_ak (s_fvk s)) (pt_mul alpha (basepoint SpendAuth)).
Proof. exact @build_chaining. Qed.
Print Assumptions C14_each_action_binds_its_own_notes.

(** C15 (that the assertion in build cannot fire is part of C08: it would be a panic). *)
Theorem C15_binding_key_matches :
  forall (C : Curve) (OR : @Oracles C) (L : CurveLaws C) (V : Type) (try_from : Z -> option V) (into : V -> Z)
    (t : bundle_type) (anchor : Z) (b : builder) (fuel : nat) (r : rng)
    (bd : @unauthorized_bundle C V) (meta : bundle_metadata) (r' : rng),
  (forall i v, try_from i = Some v -> into v = i) ->
  gd_fallback_ok -> reachable t anchor b -> build try_from fuel b r = Ret (Ok (Some (bd, meta)), r') ->
  is_scalar (ua_bsk (ip_sigs (b_auth bd))) /\
  binding_validating_key into bd = Ret (vk_of Binding (ua_bsk (ip_sigs (b_auth bd)))).
Proof. exact @build_binding. Qed.
Print Assumptions C15_binding_key_matches.

(** C16. *)
Theorem C16_recipients_can_read :
  forall (C : Curve) (OR : @Oracles C) (L : CurveLaws C) (V : Type) (try_from : Z -> option V)
    (t : bundle_type) (anchor : Z) (b : builder) (fuel : nat) (r : rng)
    (bd : @unauthorized_bundle C V) (meta : bundle_metadata) (r' : rng) (i : nat) (o : output_info),
  gd_fallback_ok -> reachable t anchor b -> build try_from fuel b r = Ret (Ok (Some (bd, meta)), r') ->
  nth_error (bl_outputs b) i = Some o ->
  exists k a n, output_action_index meta i = Some k /\ nth_error (b_actions bd) k = Some a /\
    n_recipient n = o_recipient o /\ n_value n = o_value o /\
    (forall key, ivk_ok key -> owned_by key (o_recipient o) ->
       decrypt_output_with_key bd k key = Ret (Some (n, o_recipient o, o_memo o)) /\
       try_compact_note_decryption key (compact_of_action a) = Ret (Some (n, o_recipient o))) /\
    (forall ovk, o_ovk o = Some ovk ->
       recover_output_with_ovk bd k ovk = Ret (Some (n, o_recipient o, o_memo o))).
Proof. exact @build_readable. Qed.
Print Assumptions C16_recipients_can_read.

Example C16_has_instances : exists key, ivk_ok key /\ owned_by key my_addr.
Proof. exact toy_reader. Qed.
