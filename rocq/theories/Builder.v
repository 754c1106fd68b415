(** src/builder.rs (construction part) and Circuit::from_action_context* of src/circuit.rs. *)
From Coq Require Import String ZArith List Bool.
From Coq Require Import Init.Byte.
From Verif Require Import Prelude Fields Curve Oracles RedPallas Value Keys Note Tree Action NoteEnc Bundle.
Import ListNotations.
Open Scope Z_scope.

(** builder.rs:28 MIN_ACTIONS. *)
Definition min_actions : nat := 2.

(** builder.rs:32-45 BundleType. *)
Inductive bundle_type :=
| Transactional (f : flags) (bundle_required : bool)
| Coinbase.

(** builder.rs:50-60 DEFAULT and DISABLED. *)
Definition bt_default : bundle_type := Transactional flags_enabled false.
Definition bt_disabled : bundle_type := Transactional (mk_flags false false) false.

(** builder.rs:102-107 flags. *)
Definition bt_flags (t : bundle_type) : flags :=
  match t with Transactional f _ => f | Coinbase => flags_spends_disabled end.

(** builder.rs:67-99 num_actions (the error is a message string). *)
Definition num_actions (t : bundle_type) (num_spends num_outputs : nat) : result string nat :=
  let num_requested := Nat.max num_spends num_outputs in
  match t with
  | Transactional f bundle_required =>
      if negb (spends_enabled f) && Nat.ltb 0 num_spends
      then Err "Spends are disabled, so num_spends must be zero"%string
      else if negb (outputs_enabled f) && Nat.ltb 0 num_outputs
      then Err "Outputs are disabled, so num_outputs must be zero"%string
      else Ok (if bundle_required || Nat.ltb 0 num_requested
               then Nat.max num_requested min_actions else 0%nat)
  | Coinbase =>
      if Nat.ltb 0 num_spends
      then Err "Coinbase bundles have spends disabled, so num_spends must be zero"%string
      else Ok num_outputs
  end.

(** builder.rs:112-133 BuildError. *)
Inductive build_error :=
| BE_SpendsDisabled | BE_OutputsDisabled | BE_AnchorMismatch | BE_MissingSignatures
| BE_Proof | BE_ValueSum | BE_InvalidExternalSignature | BE_DuplicateSignature
| BE_BundleTypeNotSatisfiable.

(** builder.rs:172-179 SpendError; 196 OutputError. *)
Inductive spend_error := SE_SpendsDisabled | SE_AnchorMismatch | SE_FvkMismatch.
Inductive output_error := OutputError.

(** builder.rs:208-214 SpendInfo. *)
Record spend_info {C : Curve} := mk_spend {
  s_dummy_sk : option bytes;
  s_fvk : fvk;
  s_scope : scope;
  s_note : note;
  s_path : merkle_path
}.
Arguments mk_spend {C}.

(** builder.rs:268-273 OutputInfo. *)
Record output_info {C : Curve} := mk_output {
  o_ovk : option bytes;
  o_recipient : address;
  o_value : Z;
  o_memo : bytes
}.
Arguments mk_output {C}.

(** builder.rs:308-312 ActionInfo. *)
Record action_info {C : Curve} := mk_info {
  ai_spend : spend_info;
  ai_output : output_info;
  ai_rcv : Z
}.
Arguments mk_info {C}.

(** circuit.rs:102-122 Circuit (the private witness; all values known). *)
Record witness {C : Curve} := mk_witness {
  w_path : list Z;
  w_pos : Z;
  w_g_d_old : point;
  w_pk_d_old : point;
  w_v_old : Z;
  w_rho_old : Z;
  w_psi_old : Z;
  w_rcm_old : Z;
  w_cm_old : point;
  w_alpha : Z;
  w_ak : point;
  w_nk : Z;
  w_rivk : Z;
  w_g_d_new : point;
  w_pk_d_new : point;
  w_v_new : Z;
  w_psi_new : Z;
  w_rcm_new : Z;
  w_rcv : Z
}.
Arguments mk_witness {C}.

(** builder.rs:746-752 SigningParts; 766-774 SigningMetadata. *)
Record signing_parts {C : Curve} := mk_parts { sp_ak : point; sp_alpha : Z }.
Arguments mk_parts {C}.
Record signing_metadata {C : Curve} := mk_meta { sm_dummy_ask : option Z; sm_parts : signing_parts }.
Arguments mk_meta {C}.

(** builder.rs:384-387 BundleMetadata. *)
Record bundle_metadata := mk_bundle_metadata { bm_spends : list nat; bm_outputs : list nat }.

(** builder.rs:689-692 InProgress; 702-704 Unproven; 756-758 Unauthorized. *)
Record in_progress {P Sg : Type} := mk_progress { ip_proof : P; ip_sigs : Sg }.
Arguments mk_progress {P Sg}.
Arguments in_progress P Sg : clear implicits.
Record unproven {C : Curve} := mk_unproven { up_circuits : list witness }.
Arguments mk_unproven {C}.
Record unauthorized := mk_unauthorized { ua_bsk : Z }.

(** builder.rs:390-395 BundleMetadata::new; 398-400 empty; 410-424 lookups. *)
Definition metadata_new (ns no : nat) : bundle_metadata :=
  mk_bundle_metadata (repeat 0%nat ns) (repeat 0%nat no).
Definition metadata_empty : bundle_metadata := metadata_new 0 0.
Definition spend_action_index (m : bundle_metadata) (n : nat) : option nat := nth_error (bm_spends m) n.
Definition output_action_index (m : bundle_metadata) (n : nat) : option nat := nth_error (bm_outputs m) n.

(** [v[i] = x] on a vector, for [i] in range. *)
Fixpoint set_nth {A} (i : nat) (x : A) (l : list A) : list A :=
  match l, i with
  | [], _ => []
  | _ :: l', O => x :: l'
  | a :: l', S i' => a :: set_nth i' x l'
  end.

(** [slice.swap(i, j)], both in range. *)
Definition swap {A} (i j : nat) (l : list A) : list A :=
  match nth_error l i, nth_error l j with
  | Some a, Some b => set_nth i b (set_nth j a l)
  | _, _ => l
  end.

Section Builder.
  Context {C : Curve} {OR : @Oracles C}.

  (** rand 0.8 SliceRandom::shuffle: for i in (1..len).rev() { swap(i, gen_index(rng, i + 1)) }. *)
  Fixpoint shuffle_from {A} (i : nat) (l : list A) (r : rng) : list A * rng :=
    match i with
    | O => (l, r)
    | S i' =>
        let (j, r') := rng_below (S i) r in
        shuffle_from i' (swap i j l) r'
    end.
  Definition shuffle {A} (l : list A) (r : rng) : list A * rng := shuffle_from (length l - 1) l r.

  (** builder.rs:226-235 SpendInfo::new. *)
  Definition spend_info_new (f : fvk) (n : note) (path : merkle_path) : outcome (option spend_info) :=
    let! s := fvk_scope_for_address f (n_recipient n) in
    Ret (match s with
         | Some sc => Some (mk_spend None f sc n path)
         | None => None
         end).

  (** builder.rs:240-253 SpendInfo::dummy. *)
  Definition spend_dummy (fuel : nat) (r : rng) : outcome (spend_info * rng) :=
    let! (sk, f, n, r1) := note_dummy fuel None r in
    let (path, r2) := mp_dummy r1 in
    Ret (mk_spend (Some sk) f External n path, r2).

  (** builder.rs:255-263 has_matching_anchor. *)
  Definition has_matching_anchor (s : spend_info) (anchor : Z) : outcome bool :=
    if n_value (s_note s) =? 0 then Ret true
    else
      let! cm := commitment (s_note s) in
      Ret (mp_root (s_path s) (cmx_of cm) =? anchor).

  (** builder.rs:287-291 the default memo. *)
  Definition default_memo : bytes := xf6 :: repeat x00 511.

  (** builder.rs:277-293 OutputInfo::new. *)
  Definition output_info_new (ovk : option bytes) (recipient : address) (value : Z)
    (memo : option bytes) : output_info :=
    mk_output ovk recipient value (match memo with Some m => m | None => default_memo end).

  (** builder.rs:298-303 OutputInfo::dummy. *)
  Definition output_dummy (fuel : nat) (r : rng) : outcome (output_info * rng) :=
    let! (sk, r1) := sk_random fuel r in
    let! f := fvk_from_sk sk in
    let! recipient := fvk_address_at f (div_index_of_u32 0) External in
    Ret (output_info_new None recipient 0 None, r1).

  (** builder.rs:324-326 ActionInfo::value_sum. *)
  Definition ai_value_sum (a : action_info) : outcome Z :=
    note_value_sub (n_value (s_note (ai_spend a))) (o_value (ai_output a)).

  (** circuit.rs:150-186 from_action_context_unchecked. *)
  Definition from_action_context_unchecked (s : spend_info) (out : note) (alpha rcv : Z)
    : outcome witness :=
    let n := s_note s in
    let! cm_old := commitment n in
    let! rivk := fvk_rivk_scope (s_fvk s) (s_scope s) in
    Ret {| w_path := mp_auth_path (s_path s);
           w_pos := mp_position (s_path s);
           w_g_d_old := ad_g_d (n_recipient n);
           w_pk_d_old := ad_pk_d (n_recipient n);
           w_v_old := n_value n;
           w_rho_old := n_rho n;
           w_psi_old := rseed_psi (n_rseed n) (n_rho n);
           w_rcm_old := rseed_rcm (n_rseed n) (n_rho n);
           w_cm_old := cm_old;
           w_alpha := alpha;
           w_ak := fvk_ak (s_fvk s);
           w_nk := fvk_nk (s_fvk s);
           w_rivk := rivk;
           w_g_d_new := ad_g_d (n_recipient out);
           w_pk_d_new := ad_pk_d (n_recipient out);
           w_v_new := n_value out;
           w_psi_new := rseed_psi (n_rseed out) (n_rho out);
           w_rcm_new := rseed_rcm (n_rseed out) (n_rho out);
           w_rcv := rcv |}.

  (** circuit.rs:140-148 from_action_context. *)
  Definition from_action_context (s : spend_info) (out : note) (alpha rcv : Z)
    : outcome (option witness) :=
    let! nf := note_nullifier (s_note s) (s_fvk s) in
    if rho_from_nf_old nf =? n_rho out
    then let! w := from_action_context_unchecked s out alpha rcv in Ret (Some w)
    else Ret None.

  (** An [Option::map] whose closure may panic. *)
  Definition opt_omap {A B} (f : A -> outcome B) (m : option A) : outcome (option B) :=
    match m with
    | None => Ret None
    | Some a => let! b := f a in Ret (Some b)
    end.

  (** builder.rs:333-369 ActionInfo::build. *)
  Definition ai_build (fuel : nat) (a : action_info) (r : rng)
    : outcome (action signing_metadata * witness * rng) :=
    let s := ai_spend a in
    let o := ai_output a in
    let! v_net := ai_value_sum a in
    let! cv_net := derive_cv v_net (ai_rcv a) in
    let! nf_old := note_nullifier (s_note s) (s_fvk s) in
    let rho := rho_from_nf_old nf_old in
    let ak := fvk_ak (s_fvk s) in
    let (alpha, r1) := rng_scalar r in
    let rk := vk_randomize ak alpha in
    let! (n, r2) := note_new fuel (o_recipient o) (o_value o) rho r1 in
    let! cm_new := commitment n in
    let cmx := cmx_of cm_new in
    let! e := encryptor_new (o_ovk o) n (o_memo o) in
    let epk_bytes := epk_to_bytes (e_epk e) in
    let enc := encrypt_note_plaintext e in
    let (out, r3) := encrypt_outgoing_plaintext e cv_net cmx r2 in
    let! dummy_ask := opt_omap ask_from_sk (s_dummy_sk s) in
    let! w := from_action_context_unchecked s n alpha (ai_rcv a) in
    Ret (mk_action nf_old rk cmx (mk_ciphertext epk_bytes enc out) cv_net
           (mk_meta dummy_ask (mk_parts ak alpha)), w, r3).

  (** * The builder *)

  (** builder.rs:430-435 Builder; 439-446 new. *)
  Record builder := mk_builder {
    bl_spends : list spend_info;
    bl_outputs : list output_info;
    bl_type : bundle_type;
    bl_anchor : Z
  }.
  Definition builder_new (t : bundle_type) (anchor : Z) : builder := mk_builder [] [] t anchor.

  (** builder.rs:460-481 add_spend. *)
  Definition add_spend (b : builder) (f : fvk) (n : note) (path : merkle_path)
    : outcome (result spend_error unit * builder) :=
    if negb (spends_enabled (bt_flags (bl_type b))) then Ret (Err SE_SpendsDisabled, b)
    else
      let! s := spend_info_new f n path in
      match s with
      | None => Ret (Err SE_FvkMismatch, b)
      | Some sp =>
          let! ok := has_matching_anchor sp (bl_anchor b) in
          if negb ok then Ret (Err SE_AnchorMismatch, b)
          else Ret (Ok tt, mk_builder (bl_spends b ++ [sp]) (bl_outputs b) (bl_type b) (bl_anchor b))
      end.

  (** builder.rs:484-500 add_output. *)
  Definition add_output (b : builder) (ovk : option bytes) (recipient : address) (value : Z)
    (memo : option bytes) : result output_error unit * builder :=
    if negb (outputs_enabled (bt_flags (bl_type b))) then (Err OutputError, b)
    else (Ok tt, mk_builder (bl_spends b)
                   (bl_outputs b ++ [output_info_new ovk recipient value memo])
                   (bl_type b) (bl_anchor b)).

  (** [fold(Some(zero), |acc, v| acc? + v)] followed by ok_or(OverflowError), over terms whose
      computation may panic (builder.rs:534-535 and 636-641). *)
  Fixpoint osum (l : list (outcome Z)) (acc : option Z) : outcome (option Z) :=
    match l with
    | [] => Ret acc
    | t :: l' =>
        match acc with
        | None => osum l' None
        | Some a => let! v := t in osum l' (value_sum_add a v)
        end
    end.

  (** V: TryFrom<i64> (e.g. i64 itself or a range-limited amount). *)
  Section V.
    Context {V : Type}.
    Variable try_from : Z -> option V.

    (** builder.rs:524-537 value_balance. *)
    Definition value_balance (b : builder) : outcome (result overflow_error V) :=
      let! s := osum (map (fun s => note_value_sub (n_value (s_note s)) 0) (bl_spends b) ++
                      map (fun o => note_value_sub 0 (o_value o)) (bl_outputs b)) (Some 0) in
      Ret (match s with
           | None => Err OverflowError
           | Some v =>
               match i64_try_from v with
               | Err e => Err e
               | Ok i => match try_from i with Some x => Ok x | None => Err OverflowError end
               end
           end).

    (** builder.rs:592-604: existing items, then dummies, [n] in total, in order. *)
    Fixpoint pad_dummies {A} (dummy : rng -> outcome (A * rng)) (n : nat) (r : rng)
      : outcome (list A * rng) :=
      match n with
      | O => Ret ([], r)
      | S n' =>
          let! (d, r1) := dummy r in
          let! (l, r2) := pad_dummies dummy n' r1 in
          Ret (d :: l, r2)
      end.
    Definition pad {A} (dummy : rng -> outcome (A * rng)) (l : list A) (n : nat) (r : rng)
      : outcome (list A * rng) :=
      let! (ds, r') := pad_dummies dummy (n - length l) r in
      Ret (firstn n l ++ ds, r').
    (** enumerate(). *)
    Definition enumerate {A} (l : list A) : list (nat * A) := List.combine (seq 0 (length l)) l.

    (** builder.rs:612-630: walk the zipped lists, record positions, draw rcv. *)
    Fixpoint pair_up (ns no idx : nat) (l : list ((nat * spend_info) * (nat * output_info)))
      (m : bundle_metadata) (r : rng) : list action_info * bundle_metadata * rng :=
      match l with
      | [] => ([], m, r)
      | ((si, s), (oi, o)) :: l' =>
          let sp := if Nat.ltb si ns then set_nth si idx (bm_spends m) else bm_spends m in
          let ou := if Nat.ltb oi no then set_nth oi idx (bm_outputs m) else bm_outputs m in
          let (rcv, r1) := trapdoor_random r in
          let '(rest, m', r2) := pair_up ns no (S idx) l' (mk_bundle_metadata sp ou) r1 in
          (mk_info s o rcv :: rest, m', r2)
      end.

    (** builder.rs:656 build every action, in order. *)
    Fixpoint build_actions (fuel : nat) (l : list action_info) (r : rng)
      : outcome (list (action signing_metadata) * list witness * rng) :=
      match l with
      | [] => Ret ([], [], r)
      | a :: l' =>
          let! (act, w, r1) := ai_build fuel a r in
          let! (acts, ws, r2) := build_actions fuel l' r1 in
          Ret (act :: acts, w :: ws, r2)
      end.

    (** builder.rs:575-579. *)
    Fixpoint all_anchors_match (l : list spend_info) (anchor : Z) : outcome bool :=
      match l with
      | [] => Ret true
      | s :: l' =>
          let! ok := has_matching_anchor s anchor in
          if ok then all_anchors_match l' anchor else Ret false
      end.

    Definition unauthorized_bundle :=
      bundle (in_progress unproven unauthorized) signing_metadata V.

    (** builder.rs:591-633: the pairing of spends and outputs. *)
    Definition pre_actions (fuel n : nat) (spends : list spend_info) (outputs : list output_info)
      (r : rng) : outcome (list action_info * bundle_metadata * rng) :=
      let! (sp, r1) := pad (spend_dummy fuel) spends n r in
      let! (ou, r2) := pad (output_dummy fuel) outputs n r1 in
      let (sp', r3) := shuffle (enumerate sp) r2 in
      let (ou', r4) := shuffle (enumerate ou) r3 in
      Ret (pair_up (length spends) (length outputs) 0 (List.combine sp' ou')
             (metadata_new (length spends) (length outputs)) r4).

    (** builder.rs:636-678: from the paired actions to the bundle. *)
    Definition finish (fuel : nat) (pre : list action_info) (meta : bundle_metadata)
      (f : flags) (anchor : Z) (r : rng)
      : outcome (result build_error (option (unauthorized_bundle * bundle_metadata)) * rng) :=
      let! vs := osum (map ai_value_sum pre) (Some 0) in
      match vs with
      | None => Ret (Err BE_ValueSum, r)
      | Some vb =>
          match i64_try_from vb with
          | Err _ => Ret (Err BE_ValueSum, r)
          | Ok i =>
              match try_from i with
              | None => Ret (Err BE_ValueSum, r)
              | Some v =>
                  let! bsk := into_bsk (trapdoor_sum (map ai_rcv pre)) in
                  let! (acts, ws, r') := build_actions fuel pre r in
                  let! z := derive_cv vb 0 in
                  let! bvk := into_bvk (cv_sub (cv_sum (map a_cv acts)) z) in
                  let! _ := assert_ "bsk and bvk are consistent" (vk_eqb (vk_of Binding bsk) bvk) in
                  Ret (Ok (match acts with
                           | [] => None
                           | _ => Some (mk_bundle acts f v anchor
                                          (mk_progress (mk_unproven ws) (mk_unauthorized bsk)), meta)
                           end), r')
              end
          end
      end.

    (** builder.rs:561-679 bundle(). *)
    Definition build_bundle (fuel : nat) (r : rng) (anchor : Z) (t : bundle_type)
      (spends : list spend_info) (outputs : list output_info)
      : outcome (result build_error (option (unauthorized_bundle * bundle_metadata)) * rng) :=
      let f := bt_flags t in
      let ns := length spends in
      let no := length outputs in
      if negb (spends_enabled f) && Nat.ltb 0 ns then Ret (Err BE_SpendsDisabled, r)
      else
        let! ok := all_anchors_match spends anchor in
        if negb ok then Ret (Err BE_AnchorMismatch, r)
        else if negb (outputs_enabled f) && Nat.ltb 0 no then Ret (Err BE_OutputsDisabled, r)
        else
          match num_actions t ns no with
          | Err _ => Ret (Err BE_BundleTypeNotSatisfiable, r)
          | Ok n =>
              let! (pre, meta, r1) := pre_actions fuel n spends outputs r in
              finish fuel pre meta f anchor r1
          end.

    (** builder.rs:543-554 build. *)
    Definition build (fuel : nat) (b : builder) (r : rng) :=
      build_bundle fuel r (bl_anchor b) (bl_type b) (bl_spends b) (bl_outputs b).
  End V.
End Builder.
