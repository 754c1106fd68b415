(** The uses of PRF^expand in the crate and the byte string each one hashes, written out from
    the Zcash protocol specification (5.4.2) and ZIP 32, independently of the model's helpers. *)
From Coq Require Import String ZArith List Bool.
From Coq Require Import Init.Byte.
From Verif Require Import Prelude Fields Curve Oracles.
Import ListNotations.
Open Scope Z_scope.

Section PrfSpec.
  Context {C : Curve} {OR : @Oracles C}.

  Inductive prf_use :=
  | UAsk (sk : bytes) | UNk (sk : bytes) | URivk (sk : bytes)
  | UEsk (rseed : bytes) (rho : Z) | URcm (rseed : bytes) (rho : Z) | UPsi (rseed : bytes) (rho : Z)
  | UDkOvk (rivk : Z) (ak : point) (nk : Z) | URivkInternal (rivk : Z) (ak : point) (nk : Z)
  | UChild (chain_code sk : bytes) (index : Z).

  Definition prf_use_input (u : prf_use) : bytes :=
    match u with
    | UAsk sk => sk ++ [x06]
    | UNk sk => sk ++ [x07]
    | URivk sk => sk ++ [x08]
    | UEsk rseed rho => rseed ++ x04 :: to_repr rho
    | URcm rseed rho => rseed ++ x05 :: to_repr rho
    | UPsi rseed rho => rseed ++ x09 :: to_repr rho
    | UDkOvk rivk ak nk => to_repr rivk ++ x82 :: pt_encode ak ++ to_repr nk
    | URivkInternal rivk ak nk => to_repr rivk ++ x83 :: pt_encode ak ++ to_repr nk
    | UChild cc sk i => cc ++ x81 :: sk ++ le_bytes 4 i
    end.

  (** Arguments the Rust types allow. *)
  Definition prf_use_ok (u : prf_use) : Prop :=
    match u with
    | UAsk sk | UNk sk | URivk sk => length sk = 32%nat
    | UEsk rseed rho | URcm rseed rho | UPsi rseed rho => length rseed = 32%nat /\ is_base rho
    | UDkOvk rivk ak nk | URivkInternal rivk ak nk => is_scalar rivk /\ is_base nk
    | UChild cc sk i => length cc = 32%nat /\ length sk = 32%nat /\ 0 <= i < 256 ^ Z.of_nat 4
    end.

  Definition prf64 (u : prf_use) : bytes := blake2b 64 "Zcash_ExpandSeed" (prf_use_input u).
End PrfSpec.
