(** Small specification for what an outgoing viewing key shows of a transaction (C97). *)
From Coq Require Import String ZArith List Bool.
From Coq Require Import Init.Byte.
From Verif Require Import Prelude Fields Curve Oracles RedPallas Value Keys Note Tree Action NoteEnc Bundle Builder RandomSpec.
Import ListNotations.
Open Scope Z_scope.

Section Spec.
  Context {C : Curve} {OR : @Oracles C}.

  (** A payment: to whom, how much, and the memo. *)
  Definition payment : Type := address * Z * bytes.

  (** The payments that [key] recovers from these actions. *)
  Definition recovered {A} (key : bytes) (a : action A) : list payment :=
    match try_output_recovery key a with
    | Ret (Some (n, to, memo)) => [(to, n_value n, memo)]
    | _ => []
    end.
  Definition sent {A} (key : bytes) (as_ : list (action A)) : list payment := flat_map (recovered key) as_.

  (** The payments that were asked for with [key]. *)
  Definition with_key (key : bytes) (o : output_info) : bool :=
    match o_ovk o with Some k => bytes_eqb k key | None => false end.
  Definition payment_of (o : output_info) : payment := (o_recipient o, o_value o, o_memo o).
  Definition requested (key : bytes) (b : builder) : list payment := map payment_of (filter (with_key key) (bl_outputs b)).

  (** The key that [key] gives for the outgoing ciphertext of an action. *)
  Definition out_key {A} (key : bytes) (a : action A) : bytes := prf_ock key (a_cv a) (cmx_to_bytes (a_cmx a)) (ct_epk (a_ct a)).
  (** The outgoing ciphertext, made with one key, carries the right tag for another. *)
  Definition one_tag {A} (a : action A) (k k' : bytes) : Prop :=
    let c := firstn 64 (ct_out (a_ct a)) in skipn 64 (ct_out (a_ct a)) = poly_tag k c /\ poly_tag k c = poly_tag k' c.
  Inductive misread {A} (key : bytes) (b : builder) (as_ : list (action A)) (ds : list (@action_draws C)) : Prop :=
  (* made with another outgoing viewing key *)
  | M_other : forall k a o ovk, nth_error as_ k = Some a -> In o (bl_outputs b) -> o_ovk o = Some ovk -> ovk <> key ->
      one_tag a (out_key ovk a) (out_key key a) -> misread key b as_ ds
  (* made without one: with a key drawn for it *)
  | M_none : forall k a d x p, nth_error as_ k = Some a -> nth_error ds k = Some d -> dr_out d = Some (x, p) ->
      one_tag a x (out_key key a) -> misread key b as_ ds.
End Spec.
