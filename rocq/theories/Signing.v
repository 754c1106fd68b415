(** src/builder.rs, the authorization part: create_proof, prepare, sign, append, finalize. *)
From Coq Require Import String ZArith List Bool.
From Coq Require Import Init.Byte.
From Verif Require Import Prelude Fields Curve Oracles RedPallas Value Keys Note Action Bundle Builder.
Import ListNotations.
Open Scope Z_scope.

(** builder.rs:778-781 PartiallyAuthorized; 791-796 MaybeSigned. *)
Record partially_authorized := mk_partial { pa_binding_sig : signature; pa_sighash : bytes }.
Inductive maybe_signed {C : Curve} := Unsigned (p : signing_parts) | Signed (s : signature).
Arguments maybe_signed : clear implicits.
Arguments maybe_signed {C}.

Section Signing.
  Context {C : Curve} {OR : @Oracles C}.
  Context {V : Type}.

  (** builder.rs:799-804 MaybeSigned::finalize. *)
  Definition maybe_finalize (m : maybe_signed) : result build_error signature :=
    match m with Signed s => Ok s | Unsigned _ => Err BE_MissingSignatures end.

  (** builder.rs:811-833 prepare. *)
  Definition prepare {P} (b : bundle (in_progress P unauthorized) signing_metadata V) (r : rng)
    (sighash : bytes) : bundle (in_progress P partially_authorized) maybe_signed V * rng :=
    map_authorization b r
      (fun r _ m =>
         match sm_dummy_ask m with
         | Some ask =>
             let (s, r') := sign SpendAuth (sk_randomize ask (sp_alpha (sm_parts m))) sighash r in
             (Signed s, r')
         | None => (Unsigned (sm_parts m), r)
         end)
      (fun r auth =>
         let (s, r') := sign Binding (ua_bsk (ip_sigs auth)) sighash r in
         (mk_progress (ip_proof auth) (mk_partial s sighash), r')).

  Definition partial_bundle P := bundle (in_progress P partially_authorized) maybe_signed V.

  (** builder.rs:860-874 sign. *)
  Definition bundle_sign {P} (b : partial_bundle P) (r : rng) (ask : Z) : partial_bundle P * rng :=
    let expected_ak := ak_of_ask ask in
    map_authorization b r
      (fun r partial m =>
         match m with
         | Unsigned p =>
             if ak_eqb (sp_ak p) expected_ak then
               let (s, r') := sign SpendAuth (sk_randomize ask (sp_alpha p))
                                (pa_sighash (ip_sigs partial)) r in
               (Signed s, r')
             else (Unsigned p, r)
         | Signed s => (Signed s, r)
         end)
      (fun r partial => (partial, r)).

  (** builder.rs:889-916 append_signature; the context is the counter. *)
  Definition append_signature {P} (b : partial_bundle P) (s : signature)
    : result build_error (partial_bundle P) :=
    let (b', valid_for) :=
      map_authorization b 0%nat
        (fun n partial m =>
           match m with
           | Unsigned p =>
               let rk := vk_randomize (sp_ak p) (sp_alpha p) in
               if verify SpendAuth rk (pa_sighash (ip_sigs partial)) s
               then (Signed s, S n) else (Unsigned p, n)
           | Signed s' => (Signed s', n)
           end)
        (fun n partial => (partial, n)) in
    match valid_for with
    | O => Err BE_InvalidExternalSignature
    | S O => Ok b'
    | _ => Err BE_DuplicateSignature
    end.

  (** builder.rs:882-887 append_signatures: try_fold. *)
  Fixpoint append_signatures {P} (b : partial_bundle P) (l : list signature)
    : result build_error (partial_bundle P) :=
    match l with
    | [] => Ok b
    | s :: l' => match append_signature b s with
                 | Ok b' => append_signatures b' l'
                 | Err e => Err e
                 end
    end.

  (** builder.rs:923-934 finalize. *)
  Definition finalize (b : partial_bundle bytes)
    : outcome (result build_error (bundle authorized signature V)) :=
    let! (res, _) :=
      try_map_authorization b tt
        (fun u _ m => (maybe_finalize m, u))
        (fun u partial => Ret (Ok (mk_authorized (ip_proof partial) (pa_binding_sig (ip_sigs partial))), u)) in
    Ret res.

  (** builder.rs:841-853 apply_signatures. *)
  Fixpoint sign_all {P} (b : partial_bundle P) (r : rng) (asks : list Z) : partial_bundle P * rng :=
    match asks with
    | [] => (b, r)
    | ask :: l => let (b', r') := bundle_sign b r ask in sign_all b' r' l
    end.
  Definition apply_signatures (b : bundle (in_progress bytes unauthorized) signing_metadata V)
    (r : rng) (sighash : bytes) (asks : list Z)
    : outcome (result build_error (bundle authorized signature V)) :=
    let (b1, r1) := prepare b r sighash in
    let (b2, _) := sign_all b1 r1 asks in
    finalize b2.

  (** halo2's plonk::create_proof for the action circuit: witnesses, public inputs, RNG. *)
  Variable halo2_prove : list witness -> list (list Z) -> rng -> option bytes * rng.

  (** circuit.rs:896-919 Proof::create, builder.rs:708-715. *)
  Definition proof_create (ws : list witness) (instances : list instance) (r : rng)
    : outcome (option bytes * rng) :=
    let! is := omap to_halo2_instance instances in
    Ret (halo2_prove ws is r).

  (** builder.rs:720-741 Bundle::create_proof. *)
  Definition create_proof {Sg SA} (b : bundle (in_progress unproven Sg) SA V) (r : rng)
    : outcome (result build_error (bundle (in_progress bytes Sg) SA V) * rng) :=
    let instances := map (fun a => to_instance a (b_flags b) (b_anchor b)) (b_actions b) in
    try_map_authorization b r
      (fun r _ a => (Ok a, r))
      (fun r auth =>
         let! (p, r') := proof_create (up_circuits (ip_proof auth)) instances r in
         Ret (match p with
              | Some proof => (Ok (mk_progress proof (ip_sigs auth)), r')
              | None => (Err BE_Proof, r')
              end)).
End Signing.
