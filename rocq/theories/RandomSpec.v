(** Where the secrets of a built bundle come from (C72). *)
From Coq Require Import String ZArith List Bool.
From Coq Require Import Init.Byte.
From Verif Require Import Prelude Fields Curve Oracles RedPallas Value Keys Note Tree Action NoteEnc Bundle Builder Signing RngSpec.
Import ListNotations.
Open Scope Z_scope.

Section Spec.
  Context {C : Curve} {OR : @Oracles C}.

  (** What is drawn for one action. *)
  Record action_draws := mk_draws {
    dr_spend : option (bytes * point * bytes);  (* a dummy spend: spending key, rho, rseed *)
    dr_output : option bytes;                   (* a dummy output: spending key of the recipient *)
    dr_rcv : bytes;
    dr_alpha : bytes;
    dr_rseed : bytes;                           (* of the new note *)
    dr_out : option (bytes * bytes)             (* no ovk: a random key and plaintext *)
  }.
  Definition spend_draws (x : option (bytes * point * bytes)) : list draw :=
    match x with Some (sk, P, rs) => [Bytes sk; Point P; Bytes rs] | None => [] end.
  Definition output_draws (x : option bytes) : list draw :=
    match x with Some sk => [Bytes sk] | None => [] end.
  Definition out_draws (x : option (bytes * bytes)) : list draw :=
    match x with Some (k, p) => [Bytes k; Bytes p] | None => [] end.
  Definition draws_of (d : action_draws) : list draw :=
    spend_draws (dr_spend d) ++ output_draws (dr_output d) ++ [Bytes (dr_rcv d)] ++
    Bytes (dr_alpha d) :: Bytes (dr_rseed d) :: out_draws (dr_out d).

  (** A spend was requested, or is a dummy made from the draws. *)
  Definition spend_from (requested : list spend_info) (s : spend_info) (x : option (bytes * point * bytes)) : Prop :=
    match x with
    | None => In s requested
    | Some (sk, P, rs) => length sk = 32%nat /\ length rs = 32%nat /\ s_dummy_sk s = Some sk /\ fvk_from_sk sk = Ret (s_fvk s) /\
        n_value (s_note s) = 0 /\ n_rho (s_note s) = pt_x P /\ n_rseed (s_note s) = rs
    end.
  Definition output_from (requested : list output_info) (o : output_info) (x : option bytes) : Prop :=
    match x with
    | None => In o requested
    | Some sk => length sk = 32%nat /\ o_value o = 0 /\ o_ovk o = None /\
        exists f, fvk_from_sk sk = Ret f /\ fvk_address_at f (div_index_of_u32 0) External = Ret (o_recipient o)
    end.

  (** The secrets of an action are its draws, reduced or expanded as the protocol says. *)
  Record drawn_for (o : output_info) (a : action signing_metadata) (w : witness) (d : action_draws) : Prop := {
    df_lengths : length (dr_rcv d) = 64%nat /\ length (dr_alpha d) = 64%nat /\ length (dr_rseed d) = 32%nat;
    df_rcv : w_rcv w = to_scalar (dr_rcv d);
    df_alpha : w_alpha w = to_scalar (dr_alpha d) /\ sp_alpha (sm_parts (a_auth a)) = to_scalar (dr_alpha d);
    df_note : w_psi_new w = rseed_psi (dr_rseed d) (a_nf a) /\ w_rcm_new w = rseed_rcm (dr_rseed d) (a_nf a);
    df_out : match o_ovk o, dr_out d with
             | Some _, None => True
             | None, Some (k, p) => length k = 32%nat /\ length p = 64%nat /\ ct_out (a_ct a) = aead_encrypt k p
             | _, _ => False
             end
  }.

  (** The RedDSA signature of [msg] under [sk] with the randomizer [rnd] (protocol specification, section 5.4.7). *)
  Definition reddsa (t : sig_type) (sk : Z) (msg rnd : bytes) : signature :=
    let vk := pt_encode (pt_mul sk (basepoint t)) in
    let nonce := hstar (rnd ++ vk ++ msg) in
    let R := pt_encode (pt_mul nonce (basepoint t)) in
    mk_sig R (to_repr ((nonce + hstar (R ++ vk ++ msg) * sk) mod qmod)).

  (** The challenge of a signature, and what its nonce is hashed from. *)
  Definition challenge (vk : point) (msg : bytes) (s : signature) : Z := hstar (sig_r s ++ pt_encode vk ++ msg).
  Definition nonce_input (t : sig_type) (sk : Z) (msg rnd : bytes) : bytes := rnd ++ pt_encode (pt_mul sk (basepoint t)) ++ msg.

  Definition seed_draws (x : option bytes) : list draw := match x with Some b => [Bytes b] | None => [] end.

  (** [ask] is the signing key of the validating key of [p]. *)
  Definition key_for (ask : Z) (p : signing_parts) : Prop := pt_encode (pt_mul ask (basepoint SpendAuth)) = pt_encode (sp_ak p).

  (** What a signing step does to an action: either nothing is drawn and nothing changes, or 80 bytes are drawn
      and used for the signature of this action with the one of the keys [asks] that is its own. *)
  Definition signed_from (sighash : bytes) (asks : list Z) (a a' : action maybe_signed) (x : option bytes) : Prop :=
    match x with
    | None => a_auth a' = a_auth a
    | Some rnd => length rnd = 80%nat /\ exists p ask, a_auth a = Unsigned p /\ In ask asks /\ key_for ask p /\
        a_auth a' = Signed (reddsa SpendAuth ((ask + sp_alpha p) mod qmod) sighash rnd)
    end.
  Definition prepared_from (sighash : bytes) (a : action signing_metadata) (a' : action maybe_signed) (x : option bytes) : Prop :=
    match sm_dummy_ask (a_auth a), x with
    | None, None => a_auth a' = Unsigned (sm_parts (a_auth a))
    | Some ask, Some rnd => length rnd = 80%nat /\
        a_auth a' = Signed (reddsa SpendAuth ((ask + sp_alpha (sm_parts (a_auth a))) mod qmod) sighash rnd)
    | _, _ => False
    end.
  (** The key that signs an action: its own key if it is a dummy, otherwise the one of the given keys that belongs to it. *)
  Definition signer (asks : list Z) (a : action signing_metadata) (ask : Z) : Prop :=
    match sm_dummy_ask (a_auth a) with
    | Some k => ask = k
    | None => In ask asks /\ key_for ask (sm_parts (a_auth a))
    end.
End Spec.

Inductive Forall3 {A B C} (R : A -> B -> C -> Prop) : list A -> list B -> list C -> Prop :=
| Forall3_nil : Forall3 R [] [] []
| Forall3_cons : forall a b c l m n, R a b c -> Forall3 R l m n -> Forall3 R (a :: l) (b :: m) (c :: n).
