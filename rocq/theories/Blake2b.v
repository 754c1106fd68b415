(** BLAKE2b (RFC 7693), unkeyed, with a digest length and a 16-byte personalisation: the crate
    blake2b_simd, which /repo uses in src/keys.rs:892-908, src/note_encryption.rs:29-49,
    src/bundle/commitments.rs and, through zcash_spec, for every PRF^expand.  Not in /repo. *)
From Coq Require Import String ZArith List Bool.
From Coq Require Import Init.Byte.
From Verif Require Import Prelude.
Import ListNotations.
Open Scope Z_scope.

Definition w64 (x : Z) : Z := Z.land x 0xffffffffffffffff.
Definition rotr64 (x : Z) (n : Z) : Z := w64 (Z.lor (Z.shiftr x n) (Z.shiftl x (64 - n))).

Definition b2_iv : list Z :=
  [0x6a09e667f3bcc908; 0xbb67ae8584caa73b; 0x3c6ef372fe94f82b; 0xa54ff53a5f1d36f1;
   0x510e527fade682d1; 0x9b05688c2b3e6c1f; 0x1f83d9abfb41bd6b; 0x5be0cd19137e2179].

Definition b2_sigma : list (list nat) :=
  [[0;1;2;3;4;5;6;7;8;9;10;11;12;13;14;15]; [14;10;4;8;9;15;13;6;1;12;0;2;11;7;5;3];
   [11;8;12;0;5;2;15;13;10;14;3;6;7;1;9;4]; [7;9;3;1;13;12;11;14;2;6;5;10;4;0;15;8];
   [9;0;5;7;2;4;10;15;14;1;11;12;6;8;3;13]; [2;12;6;10;0;11;8;3;4;13;7;5;15;14;1;9];
   [12;5;1;15;14;13;4;10;0;7;6;3;9;2;8;11]; [13;11;7;14;12;1;3;9;5;0;15;4;8;6;2;10];
   [6;15;14;9;11;3;0;8;12;2;13;7;1;4;10;5]; [10;2;8;4;7;6;1;5;15;11;9;14;3;12;13;0];
   [0;1;2;3;4;5;6;7;8;9;10;11;12;13;14;15]; [14;10;4;8;9;15;13;6;1;12;0;2;11;7;5;3]]%nat.

Definition set_nth {A} (n : nat) (x : A) (l : list A) : list A := firstn n l ++ x :: skipn (S n) l.
Definition at_ (n : nat) (l : list Z) : Z := nth n l 0.

(** The mixing function G. *)
Definition b2_G (a b c d : nat) (x y : Z) (v : list Z) : list Z :=
  let va := w64 (at_ a v + at_ b v + x) in
  let vd := rotr64 (Z.lxor (at_ d v) va) 32 in
  let vc := w64 (at_ c v + vd) in
  let vb := rotr64 (Z.lxor (at_ b v) vc) 24 in
  let va' := w64 (va + vb + y) in
  let vd' := rotr64 (Z.lxor vd va') 16 in
  let vc' := w64 (vc + vd') in
  let vb' := rotr64 (Z.lxor vb vc') 63 in
  set_nth a va' (set_nth b vb' (set_nth c vc' (set_nth d vd' v))).

Definition b2_round (m : list Z) (v : list Z) (s : list nat) : list Z :=
  let g k := at_ (nth k s 0%nat) m in
  let v := b2_G 0 4 8 12 (g 0%nat) (g 1%nat) v in
  let v := b2_G 1 5 9 13 (g 2%nat) (g 3%nat) v in
  let v := b2_G 2 6 10 14 (g 4%nat) (g 5%nat) v in
  let v := b2_G 3 7 11 15 (g 6%nat) (g 7%nat) v in
  let v := b2_G 0 5 10 15 (g 8%nat) (g 9%nat) v in
  let v := b2_G 1 6 11 12 (g 10%nat) (g 11%nat) v in
  let v := b2_G 2 7 8 13 (g 12%nat) (g 13%nat) v in
  b2_G 3 4 9 14 (g 14%nat) (g 15%nat) v.

(** [n] little-endian words of [k] bytes. *)
Fixpoint le_words (k n : nat) (l : bytes) : list Z :=
  match n with O => [] | S n' => le_val (firstn k l) :: le_words k n' (skipn k l) end.

(** Compression: chaining value, block, byte counter, last-block flag. *)
Definition b2_F (h : list Z) (block : bytes) (t : Z) (last : bool) : list Z :=
  let v := h ++ b2_iv in
  let v := set_nth 12 (Z.lxor (at_ 12 v) (w64 t)) v in
  let v := set_nth 13 (Z.lxor (at_ 13 v) (Z.shiftr t 64)) v in
  let v := if last then set_nth 14 (Z.lxor (at_ 14 v) 0xffffffffffffffff) v else v in
  let v := fold_left (b2_round (le_words 8 16 block)) b2_sigma v in
  map (fun i => Z.lxor (at_ i h) (Z.lxor (at_ i v) (at_ (i + 8) v))) (seq 0 8).

Fixpoint b2_blocks (fuel : nat) (h : list Z) (t : Z) (msg : bytes) : list Z :=
  match fuel with
  | O => h
  | S fuel' =>
      if Nat.leb (length msg) 128
      then b2_F h (fit 128 msg) (t + Z.of_nat (length msg)) true
      else b2_blocks fuel' (b2_F h (firstn 128 msg) (t + 128) false) (t + 128) (skipn 128 msg)
  end.

(** blake2b_simd::Params::new().hash_length(n).personal(pers).hash(msg). *)
Definition blake2b_real (n : nat) (pers msg : bytes) : bytes :=
  let param := [Z.lor (Z.of_nat n) 0x01010000; 0; 0; 0; 0; 0; le_val (firstn 8 pers); le_val (firstn 8 (skipn 8 pers))] in
  let h0 := map (fun p => Z.lxor (fst p) (snd p)) (List.combine b2_iv param) in
  firstn n (flat_map (le_bytes 8) (b2_blocks (S (length msg)) h0 0 msg)).
