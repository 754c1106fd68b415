(** Small specifications for the builder (C07-C16). *)
From Coq Require Import String ZArith List Bool Permutation.
From Coq Require Import Init.Byte.
From Verif Require Import Prelude Fields Curve Oracles RedPallas Value Keys Note Tree Action NoteEnc Bundle Builder
  KeysSpec NoteSpec NoteEncSpec Spec RngSpec.
Import ListNotations.
Open Scope Z_scope.

Section Spec.
  Context {C : Curve} {OR : @Oracles C}.

  (** * Calls and histories *)

  Inductive call :=
  | AddSpend (f : fvk) (n : note) (path : merkle_path)
  | AddOutput (ovk : option bytes) (recipient : address) (value : Z) (memo : option bytes).
  Inductive reply :=
  | RSpend (r : result spend_error unit)
  | ROutput (r : result output_error unit).

  (** The arguments are values the Rust types can hold. *)
  Record path_ok (p : merkle_path) : Prop := {
    po_position : 0 <= mp_position p < 2 ^ 32;
    po_length : length (mp_auth_path p) = 32%nat;
    po_elems : Forall is_base (mp_auth_path p)
  }.
  Definition call_ok (c : call) : Prop :=
    match c with
    | AddSpend f n path => fvk_ok f /\ note_ok n /\ (exists cm, commitment n = Ret cm) /\ path_ok path
    | AddOutput ovk a v memo =>
        (forall k, ovk = Some k -> length k = 32%nat) /\ address_ok a /\ is_u64 v /\
        (forall m, memo = Some m -> length m = 512%nat)
    end.

  Definition step (b : builder) (c : call) : outcome (reply * builder) :=
    match c with
    | AddSpend f n path => let! (r, b') := add_spend b f n path in Ret (RSpend r, b')
    | AddOutput ovk a v memo => let (r, b') := add_output b ovk a v memo in Ret (ROutput r, b')
    end.
  Fixpoint run (b : builder) (l : list call) : outcome (list reply * builder) :=
    match l with
    | [] => Ret ([], b)
    | c :: l' =>
        let! (r, b') := step b c in
        let! (rs, b'') := run b' l' in
        Ret (r :: rs, b'')
    end.
  Definition reachable (t : bundle_type) (anchor : Z) (b : builder) : Prop :=
    exists l rs, Forall call_ok l /\ run (builder_new t anchor) l = Ret (rs, b).

  (** The address is one the key derives; external addresses are never counted as internal. *)
  Definition owner (f : fvk) (a : address) (s : scope) : Prop :=
    match s with
    | External => derives f External a
    | Internal => derives f Internal a /\ ~ derives f External a
    end.
  (** The path leads from the note's commitment to the anchor; zero-value notes are exempt. *)
  Definition witnessed (n : note) (p : merkle_path) (anchor : Z) : Prop :=
    n_value n = 0 \/ exists cm, commitment n = Ret cm /\ mp_root p (pt_x cm) = anchor.

  Definition with_spend (b : builder) (s : spend_info) : builder :=
    mk_builder (bl_spends b ++ [s]) (bl_outputs b) (bl_type b) (bl_anchor b).
  Definition with_output (b : builder) (o : output_info) : builder :=
    mk_builder (bl_spends b) (bl_outputs b ++ [o]) (bl_type b) (bl_anchor b).

  (** What one call must do. The cases exclude each other. *)
  Inductive step_spec (b : builder) : call -> reply -> builder -> Prop :=
  | spend_disabled : forall f n p, spends_enabled (bt_flags (bl_type b)) = false ->
      step_spec b (AddSpend f n p) (RSpend (Err SE_SpendsDisabled)) b
  | spend_foreign : forall f n p, spends_enabled (bt_flags (bl_type b)) = true ->
      (forall s, ~ owner f (n_recipient n) s) ->
      step_spec b (AddSpend f n p) (RSpend (Err SE_FvkMismatch)) b
  | spend_unwitnessed : forall f n p s, spends_enabled (bt_flags (bl_type b)) = true ->
      owner f (n_recipient n) s -> ~ witnessed n p (bl_anchor b) ->
      step_spec b (AddSpend f n p) (RSpend (Err SE_AnchorMismatch)) b
  | spend_accepted : forall f n p s, spends_enabled (bt_flags (bl_type b)) = true ->
      owner f (n_recipient n) s -> witnessed n p (bl_anchor b) ->
      step_spec b (AddSpend f n p) (RSpend (Ok tt)) (with_spend b (mk_spend None f s n p))
  | output_disabled : forall k a v m, outputs_enabled (bt_flags (bl_type b)) = false ->
      step_spec b (AddOutput k a v m) (ROutput (Err OutputError)) b
  | output_accepted : forall k a v m, outputs_enabled (bt_flags (bl_type b)) = true ->
      step_spec b (AddOutput k a v m) (ROutput (Ok tt))
        (with_output b (mk_output k a v (match m with Some m' => m' | None => xf6 :: repeat x00 511 end))).

  (** What a builder may hold. *)
  Record spend_legal (t : bundle_type) (anchor : Z) (s : spend_info) : Prop := {
    sl_enabled : spends_enabled (bt_flags t) = true;
    sl_real : s_dummy_sk s = None;
    sl_fvk : fvk_ok (s_fvk s);
    sl_note : note_ok (s_note s);
    sl_commits : exists cm, commitment (s_note s) = Ret cm;
    sl_path : path_ok (s_path s);
    sl_owner : owner (s_fvk s) (n_recipient (s_note s)) (s_scope s);
    sl_witnessed : witnessed (s_note s) (s_path s) anchor
  }.
  Record output_legal (t : bundle_type) (o : output_info) : Prop := {
    ol_enabled : outputs_enabled (bt_flags t) = true;
    ol_ovk : forall k, o_ovk o = Some k -> length k = 32%nat;
    ol_recipient : address_ok (o_recipient o);
    ol_value : is_u64 (o_value o);
    ol_memo : length (o_memo o) = 512%nat
  }.
  Definition builder_legal (b : builder) : Prop :=
    Forall (spend_legal (bl_type b) (bl_anchor b)) (bl_spends b) /\
    Forall (output_legal (bl_type b)) (bl_outputs b).

  (** The accepted calls of a history, in order. *)
  Fixpoint accepted_spends (l : list call) (rs : list reply) : list (fvk * note * merkle_path) :=
    match l, rs with
    | AddSpend f n p :: l', RSpend (Ok _) :: rs' => (f, n, p) :: accepted_spends l' rs'
    | _ :: l', _ :: rs' => accepted_spends l' rs'
    | _, _ => []
    end.
  Fixpoint accepted_outputs (l : list call) (rs : list reply) : list output_info :=
    match l, rs with
    | AddOutput k a v m :: l', ROutput (Ok _) :: rs' =>
        mk_output k a v (match m with Some m' => m' | None => xf6 :: repeat x00 511 end) :: accepted_outputs l' rs'
    | _ :: l', _ :: rs' => accepted_outputs l' rs'
    | _, _ => []
    end.

  (** * Built bundles *)

  (** The proof witness for spending [s] and creating [n]. *)
  Definition witness_of (s : spend_info) (n : note) (alpha rcv : Z) (w : witness) : Prop :=
    exists cm rivk,
      commitment (s_note s) = Ret cm /\ fvk_rivk_scope (s_fvk s) (s_scope s) = Ret rivk /\
      w = mk_witness (mp_auth_path (s_path s)) (mp_position (s_path s))
            (diversify_hash (ad_d (n_recipient (s_note s)))) (ad_pk_d (n_recipient (s_note s)))
            (n_value (s_note s)) (n_rho (s_note s)) (rseed_psi (n_rseed (s_note s)) (n_rho (s_note s)))
            (rseed_rcm (n_rseed (s_note s)) (n_rho (s_note s))) cm alpha
            (fvk_ak (s_fvk s)) (fvk_nk (s_fvk s)) rivk
            (diversify_hash (ad_d (n_recipient n))) (ad_pk_d (n_recipient n)) (n_value n)
            (rseed_psi (n_rseed n) (n_rho n)) (rseed_rcm (n_rseed n) (n_rho n)) rcv.

  (** The action [a] with witness [w] spends [s] and sends [o], as the new note [n]. *)
  Record action_of (s : spend_info) (o : output_info) (n : note) (alpha rcv : Z)
    (a : action signing_metadata) (w : witness) : Prop := {
    ac_nf : note_nullifier (s_note s) (s_fvk s) = Ret (a_nf a);
    ac_rk : a_rk a = pt_add (fvk_ak (s_fvk s)) (pt_mul alpha (basepoint SpendAuth));
    ac_cv : a_cv a = pt_add (pt_mul (n_value (s_note s) - o_value o) value_base_V) (pt_mul rcv value_base_R);
    ac_alpha : is_scalar alpha;
    ac_rcv : is_scalar rcv;
    ac_note : note_ok n;
    ac_recipient : n_recipient n = o_recipient o;
    ac_value : n_value n = o_value o;
    ac_rho : n_rho n = a_nf a;
    ac_encrypts : exists r, encrypts (o_ovk o) n (o_memo o) r a;
    ac_parts : sm_parts (a_auth a) = mk_parts (fvk_ak (s_fvk s)) alpha;
    ac_dummy : match s_dummy_sk s with
               | None => sm_dummy_ask (a_auth a) = None
               | Some sk => exists ask, ask_from_sk sk = Ret ask /\ sm_dummy_ask (a_auth a) = Some ask
               end;
    ac_witness : witness_of s n alpha rcv w
  }.

  (** A spending key drawn from the RNG. *)
  Definition fresh_sk (sk : bytes) : Prop :=
    sk_from_bytes sk = Ret (Some sk) /\ exists r, sk = fst (rng_bytes 32 r).
  Record dummy_spend (s : spend_info) : Prop := {
    ds_fresh : exists sk, s_dummy_sk s = Some sk /\ fresh_sk sk /\ fvk_from_sk sk = Ret (s_fvk s);
    ds_zero : n_value (s_note s) = 0;
    ds_scope : s_scope s = External;
    ds_recipient : fvk_address_at (s_fvk s) (div_index_of_u32 0) External = Ret (n_recipient (s_note s));
    ds_note : note_ok (s_note s);
    ds_commits : exists cm, commitment (s_note s) = Ret cm;
    ds_path : path_ok (s_path s)
  }.
  Record dummy_output (o : output_info) : Prop := {
    do_zero : o_value o = 0;
    do_ovk : o_ovk o = None;
    do_memo : o_memo o = xf6 :: repeat x00 511;
    do_fresh : exists sk f, fresh_sk sk /\ fvk_from_sk sk = Ret f /\
                 fvk_address_at f (div_index_of_u32 0) External = Ret (o_recipient o)
  }.

  (** The bundle and metadata realise the plan, a list of (spend, output) pairs, one per action. *)
  Record built {V} (bl : builder) (plan : list (spend_info * output_info))
    (b : @unauthorized_bundle C V) (meta : bundle_metadata) : Prop := {
    bu_actions : length (b_actions b) = length plan;
    bu_witnesses : length (up_circuits (ip_proof (b_auth b))) = length plan;
    bu_each : forall k s o, nth_error plan k = Some (s, o) ->
      exists a w n alpha rcv,
        nth_error (b_actions b) k = Some a /\
        nth_error (up_circuits (ip_proof (b_auth b))) k = Some w /\ action_of s o n alpha rcv a w;
    bu_spends : exists ds, Permutation (map fst plan) (bl_spends bl ++ ds) /\ Forall dummy_spend ds;
    bu_outputs : exists os, Permutation (map snd plan) (bl_outputs bl ++ os) /\ Forall dummy_output os;
    bu_spend_index : forall i s, nth_error (bl_spends bl) i = Some s ->
      exists k o, spend_action_index meta i = Some k /\ nth_error plan k = Some (s, o);
    bu_output_index : forall i o, nth_error (bl_outputs bl) i = Some o ->
      exists k s, output_action_index meta i = Some k /\ nth_error plan k = Some (s, o);
    bu_spend_distinct : forall i j k, spend_action_index meta i = Some k -> spend_action_index meta j = Some k -> i = j;
    bu_output_distinct : forall i j k, output_action_index meta i = Some k -> output_action_index meta j = Some k -> i = j;
    bu_spend_past : forall i, (length (bl_spends bl) <= i)%nat -> spend_action_index meta i = None;
    bu_output_past : forall i, (length (bl_outputs bl) <= i)%nat -> output_action_index meta i = None
  }.

  (** The RNG, started at [r], drew a 32-byte string that hashes to the zero signing key (see C31). *)
  Definition rng_hits_zero_key (r : rng) : Prop :=
    exists b r', draws r [Bytes b] r' /\ length b = 32%nat /\ to_scalar (prf_expand b dom_orchard_ask []) = 0.

  Definition spent (b : builder) : Z := zsum (map (fun s => n_value (s_note s)) (bl_spends b)).
  Definition sent (b : builder) : Z := zsum (map o_value (bl_outputs b)).
End Spec.
