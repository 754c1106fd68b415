(** Property C88: mapping over a bundle (src/bundle.rs, src/action.rs). *)
From Coq Require Import String ZArith List Bool.
From Coq Require Import Init.Byte.
From Verif Require Import Prelude Fields Curve Oracles RedPallas Value Keys Note Action NoteEnc Bundle
  BundleSpec MapSpec MapFacts Toy ToyFacts ToyBundle.
Import ListNotations.
Open Scope Z_scope.

(** C88. [map_authorization] calls [spend_auth] once on each action's authorization, in order, then [step] once,
    and changes nothing else. *)
Theorem C88_map_authorization :
  forall (C : Curve) (R T S V T' S' : Type) (b : bundle T S V) (ctx : R)
    (spend_auth : R -> T -> S -> S' * R) (step : R -> T -> T' * R) (b' : bundle T' S' V) (ctx' : R),
  map_authorization b ctx spend_auth step = (b', ctx') ->
  effects b' = effects b /\
  exists c1,
    runs (fun r s s' r1 => spend_auth r (b_auth b) s = (s', r1)) ctx
      (map a_auth (b_actions b)) (map a_auth (b_actions b')) c1 /\
    step c1 (b_auth b) = (b_auth b', ctx').
Proof. exact @map_authorization_maps. Qed.
Print Assumptions C88_map_authorization.

(** So neither the commitment nor what the proof and the binding signature are checked against changes. *)
Theorem C88_map_authorization_keeps_the_checks :
  forall (C : Curve) (OR : @Oracles C) (R T S V T' S' : Type) (b : bundle T S V) (ctx : R)
    (spend_auth : R -> T -> S -> S' * R) (step : R -> T -> T' * R) (into : V -> Z),
  let b' := fst (map_authorization b ctx spend_auth step) in
  bundle_commitment into b' = bundle_commitment into b /\ to_instances b' = to_instances b /\
  binding_validating_key into b' = binding_validating_key into b.
Proof. exact @map_authorization_same. Qed.
Print Assumptions C88_map_authorization_keeps_the_checks.

(** [try_map_authorization] succeeds exactly when every callback does, with the same effects ... *)
Theorem C88_try_map_authorization_succeeds :
  forall (C : Curve) (R T S V T' S' E : Type) (b : bundle T S V) (ctx : R)
    (spend_auth : R -> T -> S -> result E S' * R) (step : R -> T -> outcome (result E T' * R))
    (b' : bundle T' S' V) (ctx' : R),
  b_actions b <> [] ->
  (try_map_authorization b ctx spend_auth step = Ret (Ok b', ctx') <->
   effects b' = effects b /\
   exists c1,
     runs (fun r s s' r1 => spend_auth r (b_auth b) s = (Ok s', r1)) ctx
       (map a_auth (b_actions b)) (map a_auth (b_actions b')) c1 /\
     step c1 (b_auth b) = Ret (Ok (b_auth b'), ctx')).
Proof. exact @try_map_succeeds. Qed.
Print Assumptions C88_try_map_authorization_succeeds.

(** ... returns the first error, with the context as that callback left it, ... *)
Theorem C88_try_map_authorization_fails :
  forall (C : Curve) (R T S V T' S' E : Type) (b : bundle T S V) (ctx : R)
    (spend_auth : R -> T -> S -> result E S' * R) (step : R -> T -> outcome (result E T' * R)) (e : E) (ctx' : R),
  b_actions b <> [] ->
  (try_map_authorization b ctx spend_auth step = Ret (Err e, ctx') <->
   (exists pre s post oks c1, map a_auth (b_actions b) = pre ++ s :: post /\
      runs (fun r s s' r1 => spend_auth r (b_auth b) s = (Ok s', r1)) ctx pre oks c1 /\
      spend_auth c1 (b_auth b) s = (Err e, ctx')) \/
   (exists oks c1,
      runs (fun r s s' r1 => spend_auth r (b_auth b) s = (Ok s', r1)) ctx (map a_auth (b_actions b)) oks c1 /\
      step c1 (b_auth b) = Ret (Err e, ctx'))).
Proof. exact @try_map_fails. Qed.
Print Assumptions C88_try_map_authorization_fails.

(** ... and panics only if [step] does. *)
Theorem C88_try_map_authorization_panics :
  forall (C : Curve) (R T S V T' S' E : Type) (b : bundle T S V) (ctx : R)
    (spend_auth : R -> T -> S -> result E S' * R) (step : R -> T -> outcome (result E T' * R)) (why : string),
  b_actions b <> [] ->
  try_map_authorization b ctx spend_auth step = Panic why ->
  exists oks c1,
    runs (fun r s s' r1 => spend_auth r (b_auth b) s = (Ok s', r1)) ctx (map a_auth (b_actions b)) oks c1 /\
    step c1 (b_auth b) = Panic why.
Proof. exact @try_map_panics. Qed.
Print Assumptions C88_try_map_authorization_panics.

(** [try_map_value_balance] fails exactly when its callback does, and otherwise changes the balance only. *)
Theorem C88_try_map_value_balance :
  forall (C : Curve) (T S V W E : Type) (f : V -> result E W) (b : bundle T S V),
  (forall e, try_map_value_balance f b = Err e <-> f (b_value_balance b) = Err e) /\
  (forall b', try_map_value_balance f b = Ok b' <->
     f (b_value_balance b) = Ok (b_value_balance b') /\ b_actions b' = b_actions b /\ b_flags b' = b_flags b /\
     b_anchor b' = b_anchor b /\ b_auth b' = b_auth b).
Proof. exact @try_map_balance. Qed.
Print Assumptions C88_try_map_value_balance.

(** A change of the balance's type that keeps its integer value is invisible to every check. *)
Theorem C88_same_balance_same_checks :
  forall (C : Curve) (OR : @Oracles C) (T S V W E : Type) (f : V -> result E W) (b : bundle T S V) (b' : bundle T S W)
    (into : V -> Z) (into' : W -> Z),
  try_map_value_balance f b = Ok b' -> into' (b_value_balance b') = into (b_value_balance b) ->
  bundle_commitment into' b' = bundle_commitment into b /\ to_instances b' = to_instances b /\
  binding_validating_key into' b' = binding_validating_key into b.
Proof. exact @try_map_balance_commitment. Qed.
Print Assumptions C88_same_balance_same_checks.

(** A callback with a counter numbers the two signatures 7 and 8; one that rejects 8 fails there and leaves the
    counter at 9; and the balance 4 fits in another type. *)
Example C88_ex1 : exists b' s0 s1,
  map a_auth (b_actions toy_bundle) = [s0; s1] /\
  map_authorization toy_bundle 7%nat number_it count_all = (b', 9%nat) /\
  map a_auth (b_actions b') = [(7%nat, s0); (8%nat, s1)] /\ fst (b_auth b') = 9%nat.
Proof. exact toy_numbers. Qed.
Example C88_ex2 : b_actions toy_bundle <> [] /\
  try_map_authorization toy_bundle 7%nat number_one keep_auth = Ret (Err 8%nat, 9%nat).
Proof. split; [discriminate|exact toy_fails]. Qed.
Example C88_ex3 : exists b', try_map_value_balance (fun v => if v <? 100 then Ok (Z.to_nat v) else Err v) toy_bundle = Ok b' /\
  Z.of_nat (b_value_balance b') = b_value_balance toy_bundle.
Proof. exact toy_fits. Qed.
