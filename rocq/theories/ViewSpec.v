(** What a transaction shows about its values and spending keys (C90): for each action a value
    commitment, a randomized key and a signature, and for the whole one binding signature. *)
From Coq Require Import String ZArith List Bool.
From Coq Require Import Init.Byte.
From Verif Require Import Prelude Fields Curve Oracles RedPallas Value Keys Note Tree Action NoteEnc Bundle Builder Signing Spec RandomSpec.
Import ListNotations.
Open Scope Z_scope.

(** What an action hides: its net value (spent less sent) and the key that authorizes its spend. *)
Record secret := mk_secret { sc_value : Z; sc_ask : Z }.
(** What hides it: the trapdoor of the commitment and the randomizer of the key. *)
Record blinding := mk_blinding { bg_rcv : Z; bg_alpha : Z }.
Definition blinding_ok (b : blinding) : Prop := is_scalar (bg_rcv b) /\ is_scalar (bg_alpha b).

(** Blindings moved by [d]. *)
Definition shift (d b : blinding) : blinding :=
  mk_blinding ((bg_rcv b + bg_rcv d) mod qmod) ((bg_alpha b + bg_alpha d) mod qmod).
Fixpoint shifts (ds bs : list blinding) : list blinding :=
  match ds, bs with d :: ds', b :: bs' => shift d b :: shifts ds' bs' | _, _ => [] end.

Section View.
  Context {C : Curve} {OR : @Oracles C}.

  Record published := mk_published { pb_cv : point; pb_rk : point; pb_sig : signature }.

  (** Protocol specification, sections 5.4.8.3 and 5.4.7: [seed] is the randomness of the signature. *)
  Definition publish (sighash : bytes) (s : secret) (b : blinding) (seed : bytes) : published :=
    mk_published (pt_add (pt_mul (sc_value s) value_base_V) (pt_mul (bg_rcv b) value_base_R))
      (pt_add (pt_mul (sc_ask s) (basepoint SpendAuth)) (pt_mul (bg_alpha b) (basepoint SpendAuth)))
      (reddsa SpendAuth ((sc_ask s + bg_alpha b) mod qmod) sighash seed).
  Fixpoint publish_all (sighash : bytes) (ss : list secret) (bs : list blinding) (seeds : list bytes) : list published :=
    match ss, bs, seeds with
    | s :: ss', b :: bs', x :: seeds' => publish sighash s b x :: publish_all sighash ss' bs' seeds'
    | _, _, _ => []
    end.
  (** The binding signature is made with the sum of the trapdoors. *)
  Definition view (sighash : bytes) (ss : list secret) (bs : list blinding) (seeds : list bytes) (seed : bytes) : list published * signature :=
    (publish_all sighash ss bs seeds, reddsa Binding (zsum (map bg_rcv bs) mod qmod) sighash seed).

  (** What a finished bundle shows. *)
  Definition shown {V} (bd : bundle authorized signature V) : list published * signature :=
    (map (fun a => mk_published (a_cv a) (a_rk a) (a_auth a)) (b_actions bd), au_binding_sig (b_auth bd)).

  (** The secret of an action that spends [s] and makes [o]; the blinding drawn for an action. *)
  Definition secret_of (so : spend_info * output_info) (x : secret) : Prop :=
    sc_value x = n_value (s_note (fst so)) - o_value (snd so) /\ pt_mul (sc_ask x) (basepoint SpendAuth) = fvk_ak (s_fvk (fst so)).
  Definition blinding_of (d : action_draws) : blinding := mk_blinding (to_scalar (dr_rcv d)) (to_scalar (dr_alpha d)).
End View.
