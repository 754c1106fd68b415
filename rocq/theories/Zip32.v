(** src/zip32.rs and SpendingKey::from_zip32_seed (src/keys.rs:93-109). *)
From Coq Require Import String ZArith List Bool.
From Coq Require Import Init.Byte.
From Verif Require Import Prelude Fields Curve Oracles Keys.
Import ListNotations.
Open Scope Z_scope.

(** zip32.rs:21-26 Error. *)
Inductive zip32_error := InvalidSpendingKey | InvalidChildIndex (i : Z).

(** A ChildIndex of the zip32 crate: a hardened index, 2^31 <= i < 2^32. *)
Definition child_hardened (i : Z) : outcome Z :=
  let! _ := assert_ "ChildIndex::hardened" (i <? 2 ^ 31) in Ret (i + 2 ^ 31).
Definition child_from_index (i : Z) : option Z := if 2 ^ 31 <=? i then Some i else None.

(** zip32.rs:75-76 KeyIndex: None for the master key. *)
Definition key_index := option Z.
(** zip32.rs:102-108 KeyIndex::new. *)
Definition key_index_new (depth i : Z) : option key_index :=
  if depth =? 0 then (if i =? 0 then Some None else None)
  else match child_from_index i with Some c => Some (Some c) | None => None end.
(** zip32.rs:110-116 index. *)
Definition key_index_index (k : key_index) : Z := match k with Some i => i | None => 0 end.

(** zip32.rs:124-131 ExtendedSpendingKey. *)
Record xsk := mk_xsk {
  x_depth : Z;
  x_parent_tag : bytes;
  x_child_index : key_index;
  x_chain_code : bytes;
  x_sk : bytes
}.

Definition key_index_eqb (a b : key_index) : bool :=
  match a, b with
  | None, None => true
  | Some i, Some j => i =? j
  | _, _ => false
  end.

(** zip32.rs:133-141 ct_eq. *)
Definition xsk_eqb (a b : xsk) : bool :=
  (x_depth a =? x_depth b) && bytes_eqb (x_parent_tag a) (x_parent_tag b)
  && key_index_eqb (x_child_index a) (x_child_index b)
  && bytes_eqb (x_chain_code a) (x_chain_code b) && bytes_eqb (x_sk a) (x_sk b).

Section Zip32.
  Context {C : Curve} {OR : @Oracles C}.

  (** zip32.rs:39-62 FvkFingerprint::from(fvk).tag(). *)
  Definition fvk_tag (f : fvk) : bytes :=
    firstn 4 (blake2b 32 "ZcashOrchardFVFP" (fvk_to_bytes f)).

  (** zip32.rs:168-197 master. *)
  Definition xsk_master (seed : bytes) : outcome (result zip32_error xsk) :=
    let! _ := assert_ "seed length" (Nat.leb 32 (length seed) && Nat.leb (length seed) 252) in
    let i := blake2b 64 "ZcashIP32Orchard" seed in
    let! sk_m := sk_from_bytes (slice 0 32 i) in
    match sk_m with
    | None => Ret (Err InvalidSpendingKey)
    | Some sk => Ret (Ok (mk_xsk 0 (repeat x00 4) None (slice 32 64 i) sk))
    end.

  (** The PRF^expand input of zip32.rs:208-212. *)
  Definition child_prf (k : xsk) (index : Z) : bytes :=
    prf_expand (x_chain_code k) dom_orchard_zip32_child [x_sk k; le_bytes 4 index].

  (** zip32.rs:206-233 derive_child; [depth + 1] on a u8 is an overflow panic at 255 (as built
      with overflow checks; it wraps to 0 in a build without them). *)
  Definition derive_child (k : xsk) (index : Z) : outcome (result zip32_error xsk) :=
    let i := child_prf k index in
    let! sk_i := sk_from_bytes (slice 0 32 i) in
    match sk_i with
    | None => Ret (Err InvalidSpendingKey)
    | Some sk =>
        let! f := fvk_from_sk (x_sk k) in
        let! _ := assert_ "depth + 1 overflows u8" (x_depth k <? 255) in
        Ret (Ok (mk_xsk (x_depth k + 1) (fvk_tag f) (Some index) (slice 32 64 i) sk))
    end.

  (** zip32.rs:153-156 the loop of from_path. *)
  Fixpoint derive_path (k : xsk) (path : list Z) : outcome (result zip32_error xsk) :=
    match path with
    | [] => Ret (Ok k)
    | i :: rest =>
        let! c := derive_child k i in
        match c with
        | Err e => Ret (Err e)
        | Ok k' => derive_path k' rest
        end
    end.

  (** zip32.rs:151-157 from_path. *)
  Definition xsk_from_path (seed : bytes) (path : list Z) : outcome (result zip32_error xsk) :=
    let! m := xsk_master seed in
    match m with
    | Err e => Ret (Err e)
    | Ok k => derive_path k path
    end.

  (** keys.rs:93-109 SpendingKey::from_zip32_seed; ZIP32_PURPOSE = 32 (keys.rs:33).
      AccountId is a u32 below 2^31 by construction. *)
  Definition sk_from_zip32_seed (seed : bytes) (coin_type account : Z)
    : outcome (result zip32_error bytes) :=
    if 2 ^ 31 <=? coin_type then Ret (Err (InvalidChildIndex coin_type))
    else
      let! i0 := child_hardened 32 in
      let! i1 := child_hardened coin_type in
      let! i2 := child_hardened account in
      let! x := xsk_from_path seed [i0; i1; i2] in
      Ret (match x with Ok k => Ok (x_sk k) | Err e => Err e end).
End Zip32.
