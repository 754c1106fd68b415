(** Comparing keys, nullifiers and tree nodes. *)
From Coq Require Import String ZArith List Bool.
From Coq Require Import Init.Byte.
From Verif Require Import Prelude Fields Curve Oracles RedPallas Keys.
Import ListNotations.
Open Scope Z_scope.

(** core: Ord for [u8; N], lexicographic on unsigned bytes. *)
Fixpoint bytes_cmp (a b : bytes) : comparison :=
  match a, b with
  | [], [] => Eq
  | [], _ => Lt
  | _, [] => Gt
  | x :: a', y :: b' =>
      match N.compare (Byte.to_N x) (Byte.to_N y) with Eq => bytes_cmp a' b' | c => c end
  end.

(** core: Ordering::then, as used by derived Ord on the fields in order. *)
Definition cmp_then (c d : comparison) : comparison := match c with Eq => d | _ => c end.

(** pasta_curves: Ord for both fields, comparing the representations from the most significant byte. *)
Definition field_cmp (a b : Z) : comparison := bytes_cmp (rev (to_repr a)) (rev (to_repr b)).

(** note/nullifier.rs:15, note.rs:25, tree.rs:174: derived Ord for Nullifier, Rho, MerkleHashOrchard;
    keys.rs:227, 268, 551, spec.rs:93: for NullifierDerivingKey, CommitIvkRandomness, KeyAgreementPrivateKey. *)
Definition nf_cmp := field_cmp.
(** derived PartialEq of the same types, and note/commitment.rs:102-112, note/nullifier.rs:65-69 ct_eq. *)
Definition field_eqb (a b : Z) : bool := bytes_eqb (to_repr a) (to_repr b).

Section Order.
  Context {C : Curve} {OR : @Oracles C}.

  (** primitives/redpallas.rs:101-111 Ord for VerificationKey; keys.rs:158 derived for SpendValidatingKey. *)
  Definition vk_cmp (a b : point) : comparison := bytes_cmp (vk_to_bytes a) (vk_to_bytes b).

  (** keys.rs:306 derived Ord and PartialEq for FullViewingKey: ak, nk, rivk. *)
  Definition fvk_cmp (a b : fvk) : comparison :=
    cmp_then (vk_cmp (fvk_ak a) (fvk_ak b)) (cmp_then (field_cmp (fvk_nk a) (fvk_nk b)) (field_cmp (fvk_rivk a) (fvk_rivk b))).
  Definition fvk_eqb (a b : fvk) : bool :=
    ak_eqb (fvk_ak a) (fvk_ak b) && field_eqb (fvk_nk a) (fvk_nk b) && field_eqb (fvk_rivk a) (fvk_rivk b).

  (** keys.rs:476, 615 derived Ord and PartialEq for IncomingViewingKey: dk, ivk. *)
  Definition ivk_cmp (a b : ivk) : comparison :=
    cmp_then (bytes_cmp (ivk_dk a) (ivk_dk b)) (field_cmp (ivk_ivk a) (ivk_ivk b)).
  Definition ivk_eqb (a b : ivk) : bool := bytes_eqb (ivk_dk a) (ivk_dk b) && field_eqb (ivk_ivk a) (ivk_ivk b).
End Order.
