(** When the values of src/keys.rs and src/address.rs are ones the Rust types can hold. *)
From Coq Require Import String ZArith List Bool.
From Coq Require Import Init.Byte.
From Verif Require Import Prelude Fields Curve Oracles Sinsemilla RedPallas Keys.
Import ListNotations.
Open Scope Z_scope.

Section Spec.
  Context {C : Curve} {OR : @Oracles C}.

  (** A full viewing key: ak a non-identity point with even y, nk and rivk field elements, and both
      scopes have an incoming viewing key (neither commitment is bottom or zero). *)
  Record fvk_ok (f : fvk) : Prop := {
    fo_ak : fvk_ak f <> pt_id;
    fo_sign : pt_y (fvk_ak f) mod 2 = 0;
    fo_nk : is_base (fvk_nk f);
    fo_rivk : is_scalar (fvk_rivk f);
    fo_ext : exists k, commit_ivk (pt_x (fvk_ak f)) (fvk_nk f) (fvk_rivk f) = Some k /\ k <> 0;
    fo_int : exists r k, fvk_rivk_scope f Internal = Ret r /\
                         commit_ivk (pt_x (fvk_ak f)) (fvk_nk f) r = Some k /\ k <> 0
  }.

  (** An incoming viewing key: 32-byte diversifier key and 0 < ivk < p. *)
  Definition ivk_ok (k : ivk) : Prop := length (ivk_dk k) = 32%nat /\ 0 < ivk_ivk k < pmod.

  (** An address: 11-byte diversifier and non-identity pk_d. *)
  Definition address_ok (a : address) : Prop := length (ad_d a) = 11%nat /\ ad_pk_d a <> pt_id.

  (** The address is one of those the key derives in this scope. *)
  Definition derives (f : fvk) (s : scope) (a : address) : Prop :=
    exists j, length j = 11%nat /\ fvk_address_at f j s = Ret a.

  (** The fallback point of diversify_hash is a usable base. *)
  Definition gd_fallback_ok : Prop := hash_to_curve "z.cash:Orchard-gd" [] <> pt_id.
End Spec.
