(** src/bundle/batch.rs and Proof::verify / add_to_batch (src/circuit.rs:922-953). *)
From Coq Require Import String ZArith List Bool.
From Coq Require Import Init.Byte.
From Verif Require Import Prelude Fields Curve Oracles RedPallas Value Note Action Bundle.
Import ListNotations.
Open Scope Z_scope.

Section Batch.
  Context {C : Curve} {OR : @Oracles C}.

  (** halo2's plonk::verify_proof for the action circuit's verifying key: proof bytes and the
      public inputs of each circuit copy. *)
  Variable halo2_verify : bytes -> list (list Z) -> bool.

  (** circuit.rs:922-933 Proof::verify, bundle.rs:452-456 verify_proof. *)
  Definition proof_verify (proof : bytes) (instances : list instance) : outcome bool :=
    let! is := omap to_halo2_instance instances in
    Ret (halo2_verify proof is).
  Definition verify_proof {V} (b : bundle authorized signature V) : outcome bool :=
    proof_verify (au_proof (b_auth b)) (to_instances b).

  (** redpallas::batch::Item: type, key, message, signature. *)
  Record batch_item := mk_item {
    it_type : sig_type;
    it_vk : point;
    it_msg : bytes;
    it_sig : signature
  }.

  (** batch.rs:23-26 BatchValidator. *)
  Record batch := mk_batch {
    bt_proofs : list (bytes * list (list Z));
    bt_signatures : list batch_item
  }.
  Definition batch_new : batch := mk_batch [] [].

  (** batch.rs:38-61 add_bundle (with circuit.rs:941-953 add_to_batch). *)
  Definition add_bundle {V} (into : V -> Z) (bt : batch) (b : bundle authorized signature V)
    (sighash : bytes) : outcome batch :=
    let spend_items :=
      map (fun a => mk_item SpendAuth (a_rk a) sighash (a_auth a)) (b_actions b) in
    let! bvk := binding_validating_key into b in
    let! is := omap to_halo2_instance (to_instances b) in
    Ret (mk_batch (bt_proofs bt ++ [(au_proof (b_auth b), is)])
                  (bt_signatures bt ++ spend_items ++
                   [mk_item Binding bvk sighash (au_binding_sig (b_auth b))])).

  (** reddsa::batch gen_128_bits: two random u64, a scalar below 2^128. *)
  Definition gen_128_bits (r : rng) : Z * rng :=
    let (b, r') := rng_bytes 16 r in (le_val b, r').

  (** reddsa::batch::Verifier::verify, the loop over the items: parse each signature and draw its
      coefficient; accumulate the two base point coefficients and the multiscalar sum. The
      accumulator is (coefficient of the SpendAuth base, of the Binding base, sum over the
      items of [z c]VK + [z]R). An unparsable item aborts. *)
  Fixpoint batch_loop (acc : Z * Z * point) (l : list batch_item) (r : rng) : option (Z * Z * point) :=
    match l with
    | [] => Some acc
    | i :: l' =>
        match scalar_from_repr (sig_s (it_sig i)), pt_decode (sig_r (it_sig i)) with
        | Some s, Some R =>
            let c := hstar (sig_r (it_sig i) ++ vk_to_bytes (it_vk i) ++ it_msg i) in
            let (z, r') := gen_128_bits r in
            let '(ps, pb, pt) := acc in
            let ps' := match it_type i with SpendAuth => (ps - z * s) mod qmod | Binding => ps end in
            let pb' := match it_type i with Binding => (pb - z * s) mod qmod | SpendAuth => pb end in
            batch_loop (ps', pb', pt_add pt (pt_add (pt_mul ((z * c) mod qmod) (it_vk i)) (pt_mul z R))) l' r'
        | _, _ => None
        end
    end.

  (** The final multiscalar check of the same function. *)
  Definition verify_items (l : list batch_item) (r : rng) : bool :=
    match batch_loop (0, 0, pt_id) l r with
    | Some (ps, pb, pt) =>
        pt_is_id (pt_add (pt_add (pt_mul ps (basepoint SpendAuth)) (pt_mul pb (basepoint Binding))) pt)
    | None => false
    end.

  (** plonk::BatchVerifier::finalize: a randomised check of a linear combination, taken here to accept
      exactly when every queued proof does (see DESIGN.md, trusted base). *)
  Definition finalize_proofs (l : list (bytes * list (list Z))) : bool :=
    forallb (fun p => halo2_verify (fst p) (snd p)) l.

  (** batch.rs:69-92 validate. *)
  Definition validate (bt : batch) (r : rng) : bool :=
    match bt_signatures bt with
    | [] => true
    | _ => if verify_items (bt_signatures bt) r then finalize_proofs (bt_proofs bt) else false
    end.
End Batch.
