(** Small specifications for the authorization part of src/builder.rs (C17-C21). *)
From Coq Require Import String ZArith List Bool.
From Coq Require Import Init.Byte.
From Verif Require Import Prelude Fields Curve Oracles RedPallas Value Keys Note Tree Action NoteEnc Bundle Builder Signing
  BundleSpec BuilderSpec.
Import ListNotations.
Open Scope Z_scope.

Section Spec.
  Context {C : Curve} {OR : @Oracles C} {V : Type}.

  Definition is_unsigned (a : action maybe_signed) : Prop := exists p, a_auth a = Unsigned p.

  (** A partially signed bundle is sound for a sighash: what is still to be signed matches the
      action's rk, and what is signed verifies. *)
  Record authorizable {P} (sighash : bytes) (b : @partial_bundle C V P) : Prop := {
    az_sighash : pa_sighash (ip_sigs (b_auth b)) = sighash;
    az_actions : Forall (fun a : action maybe_signed =>
      match a_auth a with
      | Unsigned p => a_rk a = pt_add (sp_ak p) (pt_mul (sp_alpha p) (basepoint SpendAuth))
      | Signed s => verify SpendAuth (a_rk a) sighash s = true
      end) (b_actions b)
  }.

  (** What sign(ask) does to one action. *)
  Definition sign_effect (sighash : bytes) (ask : Z) (a a' : action maybe_signed) : Prop :=
    action_effects a' = action_effects a /\
    match a_auth a with
    | Signed s => a_auth a' = Signed s
    | Unsigned p =>
        (sp_ak p = ak_of_ask ask -> exists s, a_auth a' = Signed s /\ verify SpendAuth (a_rk a) sighash s = true) /\
        (sp_ak p <> ak_of_ask ask -> a_auth a' = Unsigned p)
    end.

  (** The signature is good for the unsigned action at index [k]. *)
  Definition good_for {P} (b : @partial_bundle C V P) (sighash : bytes) (s : signature) (k : nat) : Prop :=
    exists a, nth_error (b_actions b) k = Some a /\ is_unsigned a /\ verify SpendAuth (a_rk a) sighash s = true.

  (** The ways to get from a built bundle to a partially signed one: prove before, between or after
      signing; sign and append any number of times. The flag says whether it is proved. *)
  Definition proof_stage (proved : bool) : Type := if proved then bytes else unproven.
  Inductive history (halo2_prove : list witness -> list (list Z) -> rng -> option bytes * rng)
    (b0 : @unauthorized_bundle C V) (sighash : bytes) : forall proved : bool, @partial_bundle C V (proof_stage proved) -> Prop :=
  | H_prepare : forall r, history halo2_prove b0 sighash false (fst (prepare b0 r sighash))
  | H_prove_prepare : forall r b1 r1 r2, create_proof halo2_prove b0 r = Ret (Ok b1, r1) ->
      history halo2_prove b0 sighash true (fst (prepare b1 r2 sighash))
  | H_sign : forall pr b r ask, history halo2_prove b0 sighash pr b ->
      history halo2_prove b0 sighash pr (fst (bundle_sign b r ask))
  | H_append : forall pr b s b', history halo2_prove b0 sighash pr b -> append_signature b s = Ok b' ->
      history halo2_prove b0 sighash pr b'
  | H_append_all : forall pr b l b', history halo2_prove b0 sighash pr b -> append_signatures b l = Ok b' ->
      history halo2_prove b0 sighash pr b'
  | H_prove : forall b r b' r', history halo2_prove b0 sighash false b -> create_proof halo2_prove b r = Ret (Ok b', r') ->
      history halo2_prove b0 sighash true b'.

  (** The signing keys cover every requested spend. *)
  Definition covers (asks : list Z) (b : builder) : Prop :=
    forall s, In s (bl_spends b) -> exists ask, In ask asks /\ ak_of_ask ask = fvk_ak (s_fvk s).
End Spec.
