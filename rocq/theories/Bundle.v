(** src/bundle.rs, src/bundle/commitments.rs and the instance part of src/circuit.rs. *)
From Coq Require Import String ZArith List Bool.
From Coq Require Import Init.Byte.
From Verif Require Import Prelude Fields Curve Oracles RedPallas Value Keys Note Action NoteEnc.
Import ListNotations.
Open Scope Z_scope.

(** bundle.rs:46-59 Flags. *)
Record flags := mk_flags { spends_enabled : bool; outputs_enabled : bool }.

(** bundle.rs:61-63. *)
Definition flag_spends_enabled : Z := 1.
Definition flag_outputs_enabled : Z := 2.
Definition flags_expected_unset : Z := 255 - Z.lor flag_spends_enabled flag_outputs_enabled.

(** bundle.rs:75-90. *)
Definition flags_enabled : flags := mk_flags true true.
Definition flags_spends_disabled : flags := mk_flags false true.
Definition flags_outputs_disabled : flags := mk_flags true false.

(** bundle.rs:114-123 to_byte. *)
Definition flags_to_byte (f : flags) : Z :=
  let v := 0 in
  let v := if spends_enabled f then Z.lor v flag_spends_enabled else v in
  if outputs_enabled f then Z.lor v flag_outputs_enabled else v.

(** bundle.rs:131-141 from_byte. *)
Definition flags_from_byte (b : Z) : option flags :=
  if Z.land b flags_expected_unset =? 0
  then Some (mk_flags (negb (Z.land b flag_spends_enabled =? 0))
                      (negb (Z.land b flag_outputs_enabled =? 0)))
  else None.

(** bundle.rs:152-165 Bundle<T, V>. [T] is the authorization, [S] its SpendAuth type. The
    NonEmpty list of actions is a list; values of the Rust type have [b_actions <> []]. *)
Record bundle {C : Curve} {T S V : Type} := mk_bundle {
  b_actions : list (action S);
  b_flags : flags;
  b_value_balance : V;
  b_anchor : Z;
  b_auth : T
}.
Arguments mk_bundle {C T S V}.
Arguments bundle {C} T S V.

(** circuit.rs:797-805 Instance. *)
Record instance {C : Curve} := mk_instance {
  i_anchor : Z;
  i_cv_net : point;
  i_nf_old : Z;
  i_rk : point;
  i_cmx : Z;
  i_enable_spend : bool;
  i_enable_output : bool
}.
Arguments mk_instance {C}.

(** bundle.rs:414-417 Authorized. *)
Record authorized := mk_authorized { au_proof : bytes; au_binding_sig : signature }.

Section Bundle.
  Context {C : Curve} {OR : @Oracles C}.

  (** bundle.rs:31-41 Action::to_instance. *)
  Definition to_instance {A} (a : action A) (f : flags) (anchor : Z) : instance :=
    mk_instance anchor (a_cv a) (a_nf a) (a_rk a) (a_cmx a) (spends_enabled f) (outputs_enabled f).

  (** bundle.rs:291-296 to_instances. *)
  Definition to_instances {T S V} (b : bundle T S V) : list instance :=
    map (fun a => to_instance a (b_flags b) (b_anchor b)) (b_actions b).

  (** circuit.rs:835-856 Instance::to_halo2_instance, with the offsets of circuit.rs:70-78.
      The identity has no coordinates, so the last unwrap panics on it. *)
  Definition to_halo2_instance (i : instance) : outcome (list Z) :=
    let! rk := unwrap "rk from_bytes" (pt_decode (vk_to_bytes (i_rk i))) in
    let! _ := assert_ "rk coordinates" (negb (pt_is_id rk)) in
    Ret [i_anchor i; cv_x (i_cv_net i); cv_y (i_cv_net i); i_nf_old i; pt_x rk; pt_y rk;
         i_cmx i; Z.b2z (i_enable_spend i); Z.b2z (i_enable_output i)].

  Fixpoint omap {A B} (f : A -> outcome B) (l : list A) : outcome (list B) :=
    match l with
    | [] => Ret []
    | a :: l' => let! b := f a in let! bs := omap f l' in Ret (b :: bs)
    end.

  (** bundle.rs:236-247 try_map_value_balance. *)
  Definition try_map_value_balance {T S V W E} (f : V -> result E W) (b : bundle T S V)
    : result E (bundle T S W) :=
    match f (b_value_balance b) with
    | Ok w => Ok (mk_bundle (b_actions b) (b_flags b) w (b_anchor b) (b_auth b))
    | Err e => Err e
    end.

  (** The closure of [map] threads the mutable context through the actions in order. *)
  Fixpoint map_ctx {R A B} (f : R -> A -> B * R) (r : R) (l : list (action A))
    : list (action B) * R :=
    match l with
    | [] => ([], r)
    | a :: l' =>
        let (b, r1) := f r (a_auth a) in
        let (bs, r2) := map_ctx f r1 l' in
        (a_map (fun _ => b) a :: bs, r2)
    end.

  (** bundle.rs:250-266 map_authorization. *)
  Definition map_authorization {R T S V T' S'} (b : bundle T S V) (ctx : R)
    (spend_auth : R -> T -> S -> S' * R) (step : R -> T -> T' * R) : bundle T' S' V * R :=
    let (acts, r1) := map_ctx (fun r s => spend_auth r (b_auth b) s) ctx (b_actions b) in
    let (t, r2) := step r1 (b_auth b) in
    (mk_bundle acts (b_flags b) (b_value_balance b) (b_anchor b) t, r2).

  (** collect::<Result<Vec<_>, E>>() over try_map, stopping at the first error. *)
  Fixpoint try_map_ctx {R A B E} (f : R -> A -> result E B * R) (r : R) (l : list (action A))
    : result E (list (action B)) * R :=
    match l with
    | [] => (Ok [], r)
    | a :: l' =>
        let (res, r1) := f r (a_auth a) in
        match a_try_map (fun _ => res) a with
        | Err e => (Err e, r1)
        | Ok a' =>
            let (res2, r2) := try_map_ctx f r1 l' in
            match res2 with
            | Ok l2 => (Ok (a' :: l2), r2)
            | Err e => (Err e, r2)
            end
        end
    end.

  (** bundle.rs:269-289 try_map_authorization; the unwrap of NonEmpty::from_vec panics on an
      empty vector. *)
  Definition try_map_authorization {R T S V T' S' E} (b : bundle T S V) (ctx : R)
    (spend_auth : R -> T -> S -> result E S' * R) (step : R -> T -> outcome (result E T' * R))
    : outcome (result E (bundle T' S' V) * R) :=
    let (acts, r1) := try_map_ctx (fun r s => spend_auth r (b_auth b) s) ctx (b_actions b) in
    match acts with
    | Err e => Ret (Err e, r1)
    | Ok acts' =>
        let! _ := assert_ "NonEmpty::from_vec" (negb (Nat.eqb (length acts') 0)) in
        let! (t, r2) := step r1 (b_auth b) in
        match t with
        | Ok t' => Ret (Ok (mk_bundle acts' (b_flags b) (b_value_balance b) (b_anchor b) t'), r2)
        | Err e => Ret (Err e, r2)
        end
    end.

  (** [find_map] with a closure that may panic. *)
  Fixpoint find_map {A B} (f : A -> outcome (option B)) (l : list A) : outcome (option B) :=
    match l with
    | [] => Ret None
    | a :: l' =>
        let! x := f a in
        match x with Some b => Ret (Some b) | None => find_map f l' end
    end.

  (** [enumerate().filter_map(..)], from index [i]. *)
  Fixpoint enum_filter_map {A B} (f : nat -> A -> outcome (option B)) (i : nat) (l : list A)
    : outcome (list B) :=
    match l with
    | [] => Ret []
    | a :: l' =>
        let! x := f i a in
        let! rest := enum_filter_map f (S i) l' in
        Ret (match x with Some b => b :: rest | None => rest end)
    end.

  (** bundle.rs:302-321 decrypt_outputs_with_keys. *)
  Definition decrypt_outputs_with_keys {T S V} (b : bundle T S V) (keys : list ivk)
    : outcome (list (nat * ivk * note * address * bytes)) :=
    enum_filter_map
      (fun idx a =>
         find_map (fun k =>
                     let! d := try_note_decryption k a in
                     Ret (match d with
                          | Some (n, to, m) => Some (idx, k, n, to, m)
                          | None => None
                          end)) keys)
      0 (b_actions b).

  (** bundle.rs:326-336 decrypt_output_with_key. *)
  Definition decrypt_output_with_key {T S V} (b : bundle T S V) (idx : nat) (k : ivk)
    : outcome (option (note * address * bytes)) :=
    match nth_error (b_actions b) idx with
    | None => Ret None
    | Some a => try_note_decryption k a
    end.

  (** bundle.rs:342-363 recover_outputs_with_ovks. *)
  Definition recover_outputs_with_ovks {T S V} (b : bundle T S V) (keys : list bytes)
    : outcome (list (nat * bytes * note * address * bytes)) :=
    enum_filter_map
      (fun idx a =>
         find_map (fun k =>
                     let! d := try_output_recovery k a in
                     Ret (match d with
                          | Some (n, to, m) => Some (idx, k, n, to, m)
                          | None => None
                          end)) keys)
      0 (b_actions b).

  (** bundle.rs:368-383 recover_output_with_ovk. *)
  Definition recover_output_with_ovk {T S V} (b : bundle T S V) (idx : nat) (k : bytes)
    : outcome (option (note * address * bytes)) :=
    match nth_error (b_actions b) idx with
    | None => Ret None
    | Some a => try_output_recovery k a
    end.

  (** bundle.rs:397-409 binding_validating_key; [into] is V's conversion to i64. *)
  Definition binding_validating_key {T S V} (into : V -> Z) (b : bundle T S V) : outcome point :=
    let! z := derive_cv (value_sum_from_raw (into (b_value_balance b))) 0 in
    into_bvk (cv_sub (cv_sum (map a_cv (b_actions b))) z).

  (** * bundle/commitments.rs *)

  (** commitments.rs:39-42, 44, 46-49: what each action feeds to the three hashers. *)
  Definition compact_part {A} (a : action A) : bytes :=
    nf_to_bytes (a_nf a) ++ cmx_to_bytes (a_cmx a) ++ ct_epk (a_ct a) ++ slice 0 52 (ct_enc (a_ct a)).
  Definition memo_part {A} (a : action A) : bytes := slice 52 564 (ct_enc (a_ct a)).
  Definition noncompact_part {A} (a : action A) : bytes :=
    cv_to_bytes (a_cv a) ++ vk_to_bytes (a_rk a) ++ skipn 564 (ct_enc (a_ct a)) ++ ct_out (a_ct a).

  Definition compact_data {A} (l : list (action A)) : bytes := flat_map compact_part l.
  Definition memo_data {A} (l : list (action A)) : bytes := flat_map memo_part l.
  Definition noncompact_data {A} (l : list (action A)) : bytes := flat_map noncompact_part l.

  (** commitments.rs:52-57: the outer hash input ([to_le_bytes] of the i64). *)
  Definition txid_data {T S V} (into : V -> Z) (b : bundle T S V) : bytes :=
    blake2b 32 "ZTxIdOrcActCHash" (compact_data (b_actions b)) ++
    blake2b 32 "ZTxIdOrcActMHash" (memo_data (b_actions b)) ++
    blake2b 32 "ZTxIdOrcActNHash" (noncompact_data (b_actions b)) ++
    [byte_of_Z (flags_to_byte (b_flags b))] ++
    le_bytes 8 (into (b_value_balance b) mod 2 ^ 64) ++
    to_repr (b_anchor b).

  (** commitments.rs:30-59 hash_bundle_txid_data; bundle.rs:389-391 commitment. *)
  Definition bundle_commitment {T S V} (into : V -> Z) (b : bundle T S V) : bytes :=
    blake2b 32 "ZTxIdOrchardHash" (txid_data into b).

  (** commitments.rs:65-67 hash_bundle_txid_empty. *)
  Definition txid_empty : bytes := blake2b 32 "ZTxIdOrchardHash" [].

  (** commitments.rs:74-84 hash_bundle_auth_data. *)
  Definition auth_data {V} (b : bundle authorized signature V) : bytes :=
    au_proof (b_auth b) ++ flat_map (fun a => sig_bytes (a_auth a)) (b_actions b)
    ++ sig_bytes (au_binding_sig (b_auth b)).
  Definition authorizing_commitment {V} (b : bundle authorized signature V) : bytes :=
    blake2b 32 "ZTxAuthOrchaHash" (auth_data b).

  (** commitments.rs:90-92 hash_bundle_auth_empty. *)
  Definition auth_empty : bytes := blake2b 32 "ZTxAuthOrchaHash" [].
End Bundle.
