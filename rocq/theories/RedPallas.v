(** src/primitives/redpallas.rs: wrappers over the reddsa crate (0.5), which is written
    out here (Schnorr signatures, cofactor 1). A signing key is its scalar, a verification key
    its point (reddsa caches the point's canonical bytes next to it). *)
From Coq Require Import String ZArith List Bool.
From Coq Require Import Init.Byte.
From Verif Require Import Prelude Fields Curve Oracles.
Import ListNotations.
Open Scope Z_scope.

Inductive sig_type : Type := SpendAuth | Binding.

Section Sig.
  Context {C : Curve} {OR : @Oracles C}.

  (** reddsa::orchard basepoints: G = hash_to_curve("z.cash:Orchard")("G") and
      R = hash_to_curve("z.cash:Orchard-cv")("r"). *)
  Definition basepoint (t : sig_type) : point :=
    match t with
    | SpendAuth => hash_to_curve "z.cash:Orchard" (bytes_of_string "G")
    | Binding => hash_to_curve "z.cash:Orchard-cv" (bytes_of_string "r")
    end.

  (** A signature is 64 bytes: R encoding, then s. *)
  Record signature := mk_sig { sig_r : bytes; sig_s : bytes }.

  (** reddsa HStar: BLAKE2b-512("Zcash_RedPallasH", ..) reduced to a scalar. *)
  Definition hstar (m : bytes) : Z := to_scalar (blake2b 64 "Zcash_RedPallasH" m).

  (** redpallas.rs:40-46 SigningKey::try_from([u8; 32]). *)
  Definition signing_key_from_bytes (b : bytes) : option Z := scalar_from_repr b.

  (** redpallas.rs:80-86 VerificationKey::try_from([u8; 32]): any canonical point,
      the identity included. *)
  Definition vk_from_bytes (b : bytes) : option point := pt_decode b.
  Definition vk_to_bytes (vk : point) : bytes := pt_encode vk.

  (** redpallas.rs:94-98 VerificationKey equality: on encodings. *)
  Definition vk_eqb (a b : point) : bool := bytes_eqb (vk_to_bytes a) (vk_to_bytes b).

  (** redpallas.rs:88-92. *)
  Definition vk_of (t : sig_type) (sk : Z) : point := pt_mul sk (basepoint t).

  (** redpallas.rs:52-54 and 124-126 randomize. *)
  Definition sk_randomize (sk alpha : Z) : Z := (sk + alpha) mod qmod.
  Definition vk_randomize (vk : point) (alpha : Z) : point :=
    pt_add vk (pt_mul alpha (basepoint SpendAuth)).

  (** redpallas.rs:59-61 sign. *)
  Definition sign (t : sig_type) (sk : Z) (msg : bytes) (r : rng) : signature * rng :=
    let (rnd, r') := rng_bytes 80 r in
    let vkb := vk_to_bytes (vk_of t sk) in
    let nonce := hstar (rnd ++ vkb ++ msg) in
    let rb := pt_encode (pt_mul nonce (basepoint t)) in
    let c := hstar (rb ++ vkb ++ msg) in
    (mk_sig rb (to_repr ((nonce + c * sk) mod qmod)), r').

  (** redpallas.rs:151-153 verify. *)
  Definition verify (t : sig_type) (vk : point) (msg : bytes) (s : signature) : bool :=
    match pt_decode (sig_r s), scalar_from_repr (sig_s s) with
    | Some R, Some sc =>
        let c := hstar (sig_r s ++ vk_to_bytes vk ++ msg) in
        pt_is_id (pt_sub (pt_sub (pt_mul sc (basepoint t)) (pt_mul c vk)) R)
    | _, _ => false
    end.

  (** redpallas.rs:166-170: the 64 bytes. *)
  Definition sig_bytes (s : signature) : bytes := sig_r s ++ sig_s s.
  (** redpallas.rs:160-164: from any 64 bytes. *)
  Definition sig_from_bytes (b : bytes) : signature := mk_sig (firstn 32 b) (skipn 32 b).
  (** A value of the Rust type: two 32-byte halves. *)
  Definition wf_sig (s : signature) : Prop := length (sig_r s) = 32%nat /\ length (sig_s s) = 32%nat.
End Sig.
