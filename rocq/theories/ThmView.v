(** Property C90: the values and spending keys of a transaction are hidden jointly. *)
From Coq Require Import String ZArith List Bool.
From Coq Require Import Init.Byte.
From Verif Require Import Prelude Fields Curve Oracles RedPallas Value Keys KeysSpec Note Tree Action NoteEnc Bundle Builder BuilderSpec Signing SigningSpec
  Spec RngSpec RandomSpec HidingSpec PallasCurve RealOracles ViewSpec ViewFacts Toy ToyFacts ToyKeys ToyNote ToyNoteEnc ToyBundle ToyBuilder ToySigning ToyView.
Import ListNotations.
Open Scope Z_scope.

(** C90. Commitments, randomized keys and signatures look the same for any two lists of values and keys with
    the same length and total: moving the blindings by constants maps one view to the other, one to one. *)
Theorem C90_views_hide :
  forall (C : Curve) (OR : @Oracles C) (L : CurveLaws C) (lam : Z), value_base_V = pt_mul lam value_base_R ->
  forall ss ss' : list secret, length ss' = length ss -> zsum (map sc_value ss) = zsum (map sc_value ss') ->
  exists ds, Forall blinding_ok ds /\ length ds = length ss /\
    (forall sighash bs seeds seed, length bs = length ss ->
       view sighash ss bs seeds seed = view sighash ss' (shifts ds bs) seeds seed) /\
    (forall bs', Forall blinding_ok bs' -> length bs' = length ss ->
       exactly_one (fun bs => Forall blinding_ok bs /\ length bs = length ss /\ shifts ds bs = bs')).
Proof. exact @views_hide. Qed.
Print Assumptions C90_views_hide.

(** The bases of the crate, on Pallas, are such. *)
Theorem C90_pallas_bases :
  forall (R : Type) (rng_b : R -> nat -> bytes * R) (rng_i : R -> nat -> nat * R) (rng_p : R -> pallas_point * R),
  let OR := real_oracles R rng_b rng_i rng_p in
  @value_base_R pallas OR <> pt_id /\ exists lam, @value_base_V pallas OR = @pt_mul pallas lam (@value_base_R pallas OR).
Proof. exact real_value_bases. Qed.
Print Assumptions C90_pallas_bases.

(** C90. What a finished transaction shows is such a view: of its own values and keys, which add up to the
    value balance, with the blindings and the signature randomness that were drawn for it. *)
Theorem C90_transactions_show_a_view :
  forall (C : Curve) (OR : @Oracles C) (L : CurveLaws C) (V : Type) (halo2 : list witness -> list (list Z) -> rng -> option bytes * rng)
    (try_from : Z -> option V) (into : V -> Z) (t : bundle_type) (anchor : Z) (b : builder) (fuel : nat) (r : rng)
    (b0 : @unauthorized_bundle C V) (meta : bundle_metadata) (r' r1 : rng) (b1 : bundle (in_progress bytes unauthorized) signing_metadata V)
    (r2 r3 : rng) (sighash : bytes) (asks : list Z) (bd : bundle authorized signature V),
  (forall i v, try_from i = Some v -> into v = i) -> value_base_R <> pt_id -> gd_fallback_ok -> reachable t anchor b ->
  build try_from fuel b r = Ret (Ok (Some (b0, meta)), r') -> create_proof halo2 b0 r1 = Ret (Ok b1, r2) ->
  apply_signatures b1 r3 sighash asks = Ret (Ok bd) ->
  exists plan ds ss seeds seed r4, built b plan b0 meta /\
    draws r (flat_map draws_of ds) r' /\ draws r3 (map Bytes (seed :: seeds)) r4 /\
    length ds = length plan /\ length seeds = length plan /\ length (b_actions bd) = length plan /\
    Forall2 secret_of plan ss /\ zsum (map sc_value ss) = into (b_value_balance bd) /\
    shown bd = view sighash ss (map blinding_of ds) seeds seed.
Proof. exact @transaction_view. Qed.
Print Assumptions C90_transactions_show_a_view.

(** C90. So any other values and keys with the same number of actions and the same balance explain it too. *)
Theorem C90_transactions_hide :
  forall (C : Curve) (OR : @Oracles C) (L : CurveLaws C) (V : Type) (halo2 : list witness -> list (list Z) -> rng -> option bytes * rng)
    (try_from : Z -> option V) (into : V -> Z) (lam : Z) (t : bundle_type) (anchor : Z) (b : builder) (fuel : nat) (r : rng)
    (b0 : @unauthorized_bundle C V) (meta : bundle_metadata) (r' r1 : rng) (b1 : bundle (in_progress bytes unauthorized) signing_metadata V)
    (r2 r3 : rng) (sighash : bytes) (asks : list Z) (bd : bundle authorized signature V),
  (forall i v, try_from i = Some v -> into v = i) -> value_base_R <> pt_id -> value_base_V = pt_mul lam value_base_R ->
  gd_fallback_ok -> reachable t anchor b ->
  build try_from fuel b r = Ret (Ok (Some (b0, meta)), r') -> create_proof halo2 b0 r1 = Ret (Ok b1, r2) ->
  apply_signatures b1 r3 sighash asks = Ret (Ok bd) ->
  forall ss', length ss' = length (b_actions bd) -> zsum (map sc_value ss') = into (b_value_balance bd) ->
  exists bs' seeds seed, Forall blinding_ok bs' /\ length bs' = length ss' /\ length seeds = length ss' /\
    shown bd = view sighash ss' bs' seeds seed.
Proof. exact @transactions_hide. Qed.
Print Assumptions C90_transactions_hide.

(** Two payments of 30 look like one of 60 and one of nothing. *)
Example C90_ex_values : let ss := [mk_secret (-30) 5; mk_secret (-30) 6] in let ss' := [mk_secret (-60) 7; mk_secret 0 8] in
  length ss' = length ss /\ zsum (map sc_value ss) = zsum (map sc_value ss').
Proof. split; reflexivity. Qed.
Example C90_ex_bases : @value_base_R toy_curve toy_oracles <> pt_id /\
  exists lam, @value_base_V toy_curve toy_oracles = @pt_mul toy_curve lam (@value_base_R toy_curve toy_oracles).
Proof. exact (conj toy_base_R toy_base_log). Qed.
(** The finished transaction of C17-C21 and other secrets with its balance. *)
Example C90_ex : @gd_fallback_ok toy_curve toy_oracles /\ reachable toy_type toy_anchor toy_builder /\
  exists b0 meta r' b1 r1 ask bd ss,
  build (fun i : Z => Some i) 5 toy_builder toy_rng = Ret (Ok (Some (b0, meta)), r') /\
  create_proof toy_prover b0 toy_rng = Ret (Ok b1, r1) /\ apply_signatures b1 toy_rng toy_sighash [ask] = Ret (Ok bd) /\
  length ss = length (b_actions bd) /\ zsum (map sc_value ss) = b_value_balance bd.
Proof. exact (conj toy_gd (conj toy_reachable toy_view)). Qed.
