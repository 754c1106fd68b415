(** ChaCha20 and Poly1305 as in RFC 8439 (crate chacha20poly1305 0.10, used by zcash_note_encryption).
    Not in /repo. *)
From Coq Require Import String ZArith List Bool.
From Coq Require Import Init.Byte.
From Verif Require Import Prelude Blake2b.
Import ListNotations.
Open Scope Z_scope.

Definition w32 (x : Z) : Z := Z.land x 0xffffffff.
Definition rotl32 (x : Z) (n : Z) : Z := w32 (Z.lor (Z.shiftl x n) (Z.shiftr x (32 - n))).

Definition cc_quarter (a b c d : nat) (s : list Z) : list Z :=
  let va := w32 (at_ a s + at_ b s) in let vd := rotl32 (Z.lxor (at_ d s) va) 16 in
  let vc := w32 (at_ c s + vd) in let vb := rotl32 (Z.lxor (at_ b s) vc) 12 in
  let va := w32 (va + vb) in let vd := rotl32 (Z.lxor vd va) 8 in
  let vc := w32 (vc + vd) in let vb := rotl32 (Z.lxor vb vc) 7 in
  set_nth a va (set_nth b vb (set_nth c vc (set_nth d vd s))).

Definition cc_double_round (s : list Z) : list Z :=
  let s := cc_quarter 0 4 8 12 s in let s := cc_quarter 1 5 9 13 s in
  let s := cc_quarter 2 6 10 14 s in let s := cc_quarter 3 7 11 15 s in
  let s := cc_quarter 0 5 10 15 s in let s := cc_quarter 1 6 11 12 s in
  let s := cc_quarter 2 7 8 13 s in cc_quarter 3 4 9 14 s.

Fixpoint iterate {A} (n : nat) (f : A -> A) (x : A) : A :=
  match n with O => x | S n' => iterate n' f (f x) end.

(** The 64-byte block with the given counter and the all-zero nonce. *)
Definition chacha_block (key : bytes) (ctr : Z) : bytes :=
  let s := [0x61707865; 0x3320646e; 0x79622d32; 0x6b206574] ++ le_words 4 8 (fit 32 key) ++ [w32 ctr; 0; 0; 0] in
  let f := iterate 10 cc_double_round s in
  flat_map (fun p => le_bytes 4 (w32 (fst p + snd p))) (List.combine s f).

(** Key stream byte [i], counted from block 1 (block 0 makes the Poly1305 key). *)
Definition keystream_real (key : bytes) (i : nat) : byte :=
  nth (Nat.modulo i 64) (chacha_block key (1 + Z.of_nat (Nat.div i 64))) x00.

Definition poly_p : Z := 2 ^ 130 - 5.
Fixpoint poly_acc (fuel : nat) (r acc : Z) (msg : bytes) : Z :=
  match fuel with
  | O => acc
  | S fuel' =>
      match msg with
      | [] => acc
      | _ => let block := firstn 16 msg in
             let n := le_val block + 2 ^ (8 * Z.of_nat (length block)) in
             poly_acc fuel' r (((acc + n) * r) mod poly_p) (skipn 16 msg)
      end
  end.
Definition poly1305 (otk msg : bytes) : bytes :=
  let r := Z.land (le_val (firstn 16 otk)) 0x0ffffffc0ffffffc0ffffffc0fffffff in
  let s := le_val (firstn 16 (skipn 16 otk)) in
  le_bytes 16 (poly_acc (S (length msg)) r 0 msg + s).

(** The AEAD tag of a ciphertext with no associated data. *)
Definition tag_real (key ct : bytes) : bytes :=
  let pad := repeat x00 (Nat.modulo (16 - Nat.modulo (length ct) 16) 16) in
  poly1305 (firstn 32 (chacha_block key 0)) (ct ++ pad ++ le_bytes 8 0 ++ le_bytes 8 (Z.of_nat (length ct))).
