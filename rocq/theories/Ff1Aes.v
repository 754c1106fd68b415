(** AES-256 (FIPS 197) and the round function of FF1 (NIST SP 800-38G) for radix 2, 88 numerals and
    an empty tweak: crates aes and fpe 0.6, used by src/keys.rs:481-499.  Not in /repo. *)
From Coq Require Import String ZArith List Bool.
From Coq Require Import Init.Byte.
From Verif Require Import Prelude Blake2b.
Import ListNotations.
Open Scope Z_scope.

(** Multiplication by x and multiplication in GF(2^8). *)
Definition xtime (b : Z) : Z :=
  let s := Z.shiftl b 1 in if Z.testbit b 7 then Z.lxor (Z.land s 255) 0x1b else s.
Fixpoint gf_mul_loop (n : nat) (a b acc : Z) : Z :=
  match n with
  | O => acc
  | S n' => gf_mul_loop n' (xtime a) (Z.shiftr b 1) (if Z.odd b then Z.lxor acc a else acc)
  end.
Definition gf_mul (a b : Z) : Z := gf_mul_loop 8 a b 0.
(** b^254, the inverse (0 for 0). *)
Definition gf_inv (b : Z) : Z :=
  let b2 := gf_mul b b in let b4 := gf_mul b2 b2 in let b8 := gf_mul b4 b4 in
  let b16 := gf_mul b8 b8 in let b32 := gf_mul b16 b16 in let b64 := gf_mul b32 b32 in
  let b128 := gf_mul b64 b64 in
  gf_mul b128 (gf_mul b64 (gf_mul b32 (gf_mul b16 (gf_mul b8 (gf_mul b4 b2))))).
Definition rotl8 (b n : Z) : Z := Z.land (Z.lor (Z.shiftl b n) (Z.shiftr b (8 - n))) 255.
Definition sub_byte (b : Z) : Z :=
  let i := gf_inv b in
  Z.lxor (Z.lxor (Z.lxor (Z.lxor (Z.lxor i (rotl8 i 1)) (rotl8 i 2)) (rotl8 i 3)) (rotl8 i 4)) 0x63.

Fixpoint xor_words (a b : list Z) : list Z :=
  match a, b with x :: a', y :: b' => Z.lxor x y :: xor_words a' b' | _, _ => [] end.

(** Key expansion: words of four bytes, [i] the index of the next word, [w] reversed. *)
Fixpoint expand_loop (n : nat) (i : nat) (rcon : Z) (w : list (list Z)) : list (list Z) :=
  match n with
  | O => rev w
  | S n' =>
      let prev := nth 0 w [] in
      let old := nth 7 w [] in
      match Nat.modulo i 8 with
      | 0%nat =>
          let t := map sub_byte (skipn 1 prev ++ firstn 1 prev) in
          let t := match t with x :: r => Z.lxor x rcon :: r | [] => [] end in
          expand_loop n' (S i) (xtime rcon) (xor_words old t :: w)
      | 4%nat => expand_loop n' (S i) rcon (xor_words old (map sub_byte prev) :: w)
      | _ => expand_loop n' (S i) rcon (xor_words old prev :: w)
      end
  end.
Fixpoint chunks {A} (k n : nat) (l : list A) : list (list A) :=
  match n with O => [] | S n' => firstn k l :: chunks k n' (skipn k l) end.
Definition round_keys (key : list Z) : list (list Z) :=
  let w := expand_loop 52 8 1 (rev (chunks 4 8 key)) in
  map (@List.concat Z) (chunks 4 15 w).

(** The state is 16 bytes, column by column. *)
Definition shift_rows (s : list Z) : list Z :=
  map (fun i => at_ i s) [0;5;10;15;4;9;14;3;8;13;2;7;12;1;6;11]%nat.
Definition mix_column (c : list Z) : list Z :=
  match c with
  | [a; b; c; d] =>
      let m2 := xtime in let m3 x := Z.lxor (xtime x) x in
      [Z.lxor (Z.lxor (m2 a) (m3 b)) (Z.lxor c d); Z.lxor (Z.lxor a (m2 b)) (Z.lxor (m3 c) d);
       Z.lxor (Z.lxor a b) (Z.lxor (m2 c) (m3 d)); Z.lxor (Z.lxor (m3 a) b) (Z.lxor c (m2 d))]
  | _ => c
  end.
Definition mix_columns (s : list Z) : list Z := flat_map mix_column (chunks 4 4 s).

Fixpoint aes_rounds (s : list Z) (ks : list (list Z)) : list Z :=
  match ks with
  | [] => s
  | [k] => xor_words (shift_rows (map sub_byte s)) k
  | k :: ks' => aes_rounds (xor_words (mix_columns (shift_rows (map sub_byte s))) k) ks'
  end.
Definition aes256 (key block : list Z) : list Z :=
  match round_keys key with
  | k0 :: ks => aes_rounds (xor_words block k0) ks
  | [] => block
  end.

(** Big-endian value and bytes. *)
Fixpoint be_val (acc : Z) (l : list Z) : Z :=
  match l with [] => acc | b :: l' => be_val (256 * acc + b) l' end.
Fixpoint be_bytes (n : nat) (v : Z) : list Z :=
  match n with O => [] | S n' => be_bytes n' (v / 256) ++ [v mod 256] end.

(** The FF1 round function: AES-CBC-MAC of P || Q, first 12 bytes, as a number.  P = 01 02 01 00 00 02 0a
    2c 00000058 00000000; Q = nine zero bytes, the round number, NUM(B) on 6 bytes. *)
Definition ff1_real (key : bytes) (i : nat) (b : Z) : Z :=
  let k := map Z_of_byte (fit 32 key) in
  let P := [1; 2; 1; 0; 0; 2; 10; 44; 0; 0; 0; 88; 0; 0; 0; 0] in
  let Q := repeat 0 9 ++ [Z.of_nat i] ++ be_bytes 6 b in
  be_val 0 (firstn 12 (aes256 k (xor_words (aes256 k P) Q))).
