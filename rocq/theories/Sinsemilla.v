(** Sinsemilla hash and commitment (halo2_gadgets::sinsemilla::primitives 0.3), which the
    crate calls from src/spec.rs:208-214, src/note/commitment.rs:48-59 and src/tree.rs:227-238,
    and the bit-string helpers of src/constants/sinsemilla.rs and src/spec.rs. *)
From Coq Require Import String ZArith List Bool.
From Coq Require Import Init.Byte.
From Verif Require Import Prelude Fields Curve Oracles.
Import ListNotations.
Open Scope Z_scope.

(** src/constants/sinsemilla.rs:10 K and 20 C. *)
Definition sinsemilla_k : nat := 10.
Definition sinsemilla_c : Z := 253.

(** src/constants/sinsemilla.rs:13-16 INV_TWO_POW_K (bytes, little-endian). *)
Definition inv_two_pow_k_bytes : list Z :=
  [1; 0; 192; 196; 160; 229; 70; 82; 221; 165; 74; 202; 85; 7; 62; 34; 0; 0; 0; 0; 0; 0; 0; 0; 0;
   0; 0; 0; 0; 0; 240; 63].

(** src/spec.rs:294-299 lebs2ip: the enumerate/fold loop, with the u64 sum explicit
    ([acc + (1 << i)] never carries, so u64 wrap-around is modelled as mod 2^64). *)
Fixpoint lebs2ip_loop (i : Z) (acc : Z) (bits : list bool) : Z :=
  match bits with
  | [] => acc
  | b :: rest => lebs2ip_loop (i + 1) ((acc + (if b then 2 ^ i else 0)) mod 2 ^ 64) rest
  end.
Definition lebs2ip (bits : list bool) : outcome Z :=
  let! _ := assert_ "lebs2ip: L <= 64" (Nat.leb (length bits) 64) in
  Ret (lebs2ip_loop 0 0 bits).

(** src/spec.rs:307-310 i2lebsp: bit [mask] is [int & (1 << mask) != 0]. *)
Definition i2lebsp (num_bits : nat) (int : Z) : outcome (list bool) :=
  let! _ := assert_ "i2lebsp: NUM_BITS <= 64" (Nat.leb num_bits 64) in
  Ret (map (fun mask => negb (Z.land int (2 ^ Z.of_nat mask) =? 0)) (seq 0 num_bits)).

(** src/constants/sinsemilla.rs:64-69 lebs2ip_k (u32 arithmetic). *)
Fixpoint lebs2ip_k_loop (i : Z) (acc : Z) (bits : list bool) : Z :=
  match bits with
  | [] => acc
  | b :: rest => lebs2ip_k_loop (i + 1) ((acc + (if b then 2 ^ i else 0)) mod 2 ^ 32) rest
  end.
Definition lebs2ip_k (bits : list bool) : outcome Z :=
  let! _ := assert_ "lebs2ip_k: len = K" (Nat.eqb (length bits) sinsemilla_k) in
  Ret (lebs2ip_k_loop 0 0 bits).

(** src/constants/sinsemilla.rs:73-76 i2lebsp_k. *)
Definition i2lebsp_k (int : Z) : outcome (list bool) :=
  let! _ := assert_ "i2lebsp_k: int < 2^K" (int <? 2 ^ 10) in
  i2lebsp sinsemilla_k int.

Section Hash.
  Context {C : Curve} {OR : @Oracles C}.

  (** Pad: zero bits up to a multiple of K (the assertion on the maximal length K*C = 2530
      is not modelled: the crate's messages have 510, 520 and 1086 bits). *)
  Definition sins_pad (msg : list bool) : list bool :=
    msg ++ repeat false ((10 - length msg mod 10) mod 10).

  (** [padded.chunks(K)], each read with lebs2ip_k. *)
  Fixpoint sins_words (n : nat) (msg : list bool) : list Z :=
    match n with
    | O => []
    | S n' => bits_val (firstn 10 msg) :: sins_words n' (skipn 10 msg)
    end.

  Definition msg_words (msg : list bool) : list Z :=
    sins_words (length (sins_pad msg) / 10) (sins_pad msg).

  (** The generator table SINSEMILLA_S. *)
  Definition sins_S (w : Z) : point := hash_to_curve "z.cash:SinsemillaS" (le_bytes 4 w).

  (** IncompletePoint addition: bottom on the identity and on equal x-coordinates. *)
  Definition inc_add (P Q : point) : option point :=
    if pt_is_id P || pt_is_id Q || (pt_x P =? pt_x Q) then None else Some (pt_add P Q).

  Definition sins_step (acc : option point) (w : Z) : option point :=
    let? a := acc in
    let? b := inc_add a (sins_S w) in
    inc_add b a.

  (** HashDomain::hash_to_point on words, starting from Q. *)
  Definition sins_hash_words (Q : point) (ws : list Z) : option point :=
    fold_left sins_step ws (Some Q).

  (** HashDomain::new(domain).Q. *)
  Definition sins_Q (domain : string) : point :=
    hash_to_curve "z.cash:SinsemillaQ" (bytes_of_string domain).

  Definition sins_hash_to_point (domain : string) (msg : list bool) : option point :=
    sins_hash_words (sins_Q domain) (msg_words msg).

  (** HashDomain::hash. *)
  Definition sins_hash (domain : string) (msg : list bool) : option Z :=
    option_map extract_p (sins_hash_to_point domain msg).

  (** CommitDomain: M = HashDomain::new(domain ++ "-M"), R = hash_to_curve(domain ++ "-r")("").
      commit adds [r]R with complete addition. *)
  Definition commit_R (domain : string) : point := hash_to_curve (domain ++ "-r") [].

  Definition sins_commit (domain : string) (msg : list bool) (r : Z) : option point :=
    let? P := sins_hash_to_point (domain ++ "-M") msg in
    Some (pt_add P (pt_mul r (commit_R domain))).

  (** CommitDomain::short_commit. *)
  Definition sins_short_commit (domain : string) (msg : list bool) (r : Z) : option Z :=
    option_map extract_p (sins_commit domain msg r).
End Hash.
