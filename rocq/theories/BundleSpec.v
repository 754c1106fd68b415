(** Small specifications for src/bundle.rs, src/bundle/commitments.rs and src/bundle/batch.rs. *)
From Coq Require Import String ZArith List Bool Sorted.
From Coq Require Import Init.Byte.
From Verif Require Import Prelude Fields Curve Oracles RedPallas Value Keys Note Action NoteEnc Bundle Batch
  KeysSpec NoteSpec NoteEncSpec.
Import ListNotations.
Open Scope Z_scope.

Section Spec.
  Context {C : Curve} {OR : @Oracles C}.

  (** Values the Rust types can hold. *)
  Record action_ok {A} (a : action A) : Prop := {
    ao_nf : is_base (a_nf a);
    ao_cmx : is_base (a_cmx a);
    ao_ct : ct_ok (a_ct a)
  }.
  Definition is_i64 (v : Z) : Prop := - 2 ^ 63 <= v < 2 ^ 63.
  Record bundle_ok {T S V} (into : V -> Z) (b : bundle T S V) : Prop := {
    bo_actions : Forall action_ok (b_actions b);
    bo_nonempty : b_actions b <> [];
    bo_balance : is_i64 (into (b_value_balance b));
    bo_anchor : is_base (b_anchor b)
  }.

  (** The effects of a bundle: everything but the authorization data. *)
  Definition action_effects {A} (a : action A) : action unit :=
    mk_action (a_nf a) (a_rk a) (a_cmx a) (a_ct a) (a_cv a) tt.
  Definition effects {T S V} (b : bundle T S V) : bundle unit unit V :=
    mk_bundle (map action_effects (b_actions b)) (b_flags b) (b_value_balance b) (b_anchor b) tt.

  (** Two different strings with one digest. *)
  Definition collision (pers : string) (m m' : bytes) : Prop :=
    m <> m' /\ blake2b 32 pers m = blake2b 32 pers m'.

  (** A collision among the strings hashed for two bundle commitments. *)
  Definition txid_collision {T S V T' S'} (into : V -> Z) (b : bundle T S V) (b' : bundle T' S' V) : Prop :=
    collision "ZTxIdOrchardHash" (txid_data into b) (txid_data into b') \/
    collision "ZTxIdOrcActCHash" (compact_data (b_actions b)) (compact_data (b_actions b')) \/
    collision "ZTxIdOrcActMHash" (memo_data (b_actions b)) (memo_data (b_actions b')) \/
    collision "ZTxIdOrcActNHash" (noncompact_data (b_actions b)) (noncompact_data (b_actions b')).

  Record auth_ok {V} (b : bundle authorized signature V) : Prop := {
    ak_sigs : Forall (fun a => wf_sig (a_auth a)) (b_actions b);
    ak_binding : wf_sig (au_binding_sig (b_auth b))
  }.

  (** What a scan must return: for [try key action] the decryption function, entries in increasing
      action order, one for each action that some key opens, with the first such key. *)
  Definition first_hit {K A R} (try : K -> A -> outcome (option R)) (keys : list K) (a : A) (k : K) (x : R) : Prop :=
    exists j, nth_error keys j = Some k /\ try k a = Ret (Some x) /\
      forall i k', (i < j)%nat -> nth_error keys i = Some k' -> try k' a = Ret None.
  Definition scan_of {K A R} (try : K -> A -> outcome (option R)) (keys : list K) (acts : list A)
    (res : list (nat * K * R)) : Prop :=
    StronglySorted lt (map (fun e => fst (fst e)) res) /\
    forall i k x, In (i, k, x) res <->
      exists a, nth_error acts i = Some a /\ first_hit try keys a k x.

  (** * Batches *)

  (** A bundle is valid for a sighash: every signature and the proof verify on their own. *)
  Definition bundle_valid {V} (halo2_verify : bytes -> list (list Z) -> bool) (into : V -> Z)
    (b : bundle authorized signature V) (sighash : bytes) : Prop :=
    (forall a, In a (b_actions b) -> verify SpendAuth (a_rk a) sighash (a_auth a) = true) /\
    (exists bvk, binding_validating_key into b = Ret bvk /\
       verify Binding bvk sighash (au_binding_sig (b_auth b)) = true) /\
    verify_proof halo2_verify b = Ret true.

  (** The calls of a batch: add the bundles one after the other to an empty batch. *)
  Fixpoint add_all {V} (into : V -> Z) (bt : batch) (l : list (bundle authorized signature V * bytes)) : outcome batch :=
    match l with
    | [] => Ret bt
    | (b, sh) :: l' => let! bt' := add_bundle into bt b sh in add_all into bt' l'
    end.

  (** The error point of one signature: the identity exactly when the signature verifies. *)
  Definition sig_error (i : batch_item) : option point :=
    match pt_decode (sig_r (it_sig i)), scalar_from_repr (sig_s (it_sig i)) with
    | Some R, Some s =>
        Some (pt_sub (pt_sub (pt_mul s (basepoint (it_type i)))
                             (pt_mul (hstar (sig_r (it_sig i) ++ vk_to_bytes (it_vk i) ++ it_msg i)) (it_vk i))) R)
    | _, _ => None
    end.

  (** The 128-bit coefficients drawn for [n] signatures. *)
  Fixpoint coefficients (n : nat) (r : rng) : list Z :=
    match n with
    | O => []
    | S n' => let (z, r') := gen_128_bits r in z :: coefficients n' r'
    end.

  Fixpoint combination (zs : list Z) (es : list point) : point :=
    match zs, es with
    | z :: zs', E :: es' => pt_add (pt_mul z E) (combination zs' es')
    | _, _ => pt_id
    end.
End Spec.
