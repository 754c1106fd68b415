(** The functions of the Zcash protocol specification (sections 4.2.3, 4.16, 5.4.1.3, 5.4.1.6, 5.4.1.9, 5.4.7, 5.4.8, 5.6) and
    of ZIP 244 that the crate implements, written from those documents (C78). Only the curve, the group hash, BLAKE2b
    and Poseidon are shared with the model; bit and byte strings are defined here again. Of Note.v
    and Action.v only the fields of an action are used. *)
From Coq Require Import String ZArith List Bool.
From Coq Require Import Init.Byte.
From Verif Require Import Prelude Fields Curve Oracles Note Action.
Import ListNotations.
Open Scope Z_scope.

(** * Integers, bits and bytes (5.1) *)
Definition I2LEBSP (n : nat) (v : Z) : list bool := map (fun i => Z.testbit v (Z.of_nat i)) (seq 0 n).
Definition LEBS2IP (l : list bool) : Z := fold_right (fun (b : bool) a => (if b then 1 else 0) + 2 * a) 0 l.
Definition I2LEOSP (n : nat) (v : Z) : bytes := map (fun i => byte_of_Z (v / 256 ^ Z.of_nat i)) (seq 0 n).
Definition LEOS2IP (l : bytes) : Z := fold_right (fun b a => Z_of_byte b + 256 * a) 0 l.

Section Spec.
  Context {C : Curve} {OR : @Oracles C}.
  Notation GroupHash := hash_to_curve.

  (** Encodings of points (5.4.9.6): x, and the parity of y in bit 255; the identity, whose coordinates are given as 0,
      is all zeroes. *)
  Definition repr_value (P : point) : Z := pt_x P + (if Z.odd (pt_y P) then 2 ^ 255 else 0).
  Definition repr_bits (P : point) : list bool := I2LEBSP 256 (repr_value P).
  Definition repr_bytes (P : point) : bytes := I2LEOSP 32 (repr_value P).

  (** * Sinsemilla (5.4.1.9) *)
  Definition SinsemillaQ (D : string) : point := GroupHash "z.cash:SinsemillaQ" (bytes_of_string D).
  Definition SinsemillaS (j : Z) : point := GroupHash "z.cash:SinsemillaS" (I2LEOSP 4 j).

  (** Incomplete addition; None is bottom. *)
  Definition incomplete (P Q : option point) : option point :=
    match P, Q with
    | Some P, Some Q => if pt_eqb P pt_id || pt_eqb Q pt_id || (pt_x P =? pt_x Q) then None else Some (pt_add P Q)
    | _, _ => None
    end.

  (** The i-th 10-bit piece of the message; missing bits of the last one count as zero. *)
  Definition piece (M : list bool) (i : nat) : Z := LEBS2IP (firstn 10 (skipn (10 * i) M)).
  Definition SinsemillaHashToPoint (D : string) (M : list bool) : option point :=
    fold_left (fun Acc i => incomplete (incomplete Acc (Some (SinsemillaS (piece M i)))) Acc)
      (seq 0 ((length M + 9) / 10)) (Some (SinsemillaQ D)).
  Definition SinsemillaHash (D : string) (M : list bool) : option Z :=
    match SinsemillaHashToPoint D M with Some P => Some (pt_x P) | None => None end.
  Definition SinsemillaCommit (r : Z) (D : string) (M : list bool) : option point :=
    match SinsemillaHashToPoint (D ++ "-M") M with
    | Some P => Some (pt_add P (pt_mul r (GroupHash (D ++ "-r") [])))
    | None => None
    end.
  Definition SinsemillaShortCommit (r : Z) (D : string) (M : list bool) : option Z :=
    match SinsemillaCommit r D M with Some P => Some (pt_x P) | None => None end.

  (** * The tree (5.4.1.3, 4.9): layer 0 is the root, layer 32 the leaves *)
  Definition MerkleCRH (layer : nat) (left right : Z) : Z :=
    match SinsemillaHash "z.cash:Orchard-MerkleCRH"
            (I2LEBSP 10 (32 - 1 - Z.of_nat layer) ++ I2LEBSP 255 left ++ I2LEBSP 255 right) with
    | Some h => h
    | None => 0
    end.
  (** The root above [node], the [pos]-th of the layer below [layer], given the siblings on the way. *)
  Fixpoint root_above (layer : nat) (pos node : Z) (siblings : list Z) {struct siblings} : Z :=
    match siblings with
    | [] => node
    | s :: rest =>
        let parent := if Z.even pos then MerkleCRH layer node s else MerkleCRH layer s node in
        root_above (layer - 1) (pos / 2) parent rest
    end.

  (** * Commitments and nullifiers (5.4.8.3, 5.4.8.4, 4.16) *)
  Definition NoteCommit (rcm : Z) (g_d pk_d : list bool) (v rho psi : Z) : option point :=
    SinsemillaCommit rcm "z.cash:Orchard-NoteCommit" (g_d ++ pk_d ++ I2LEBSP 64 v ++ I2LEBSP 255 rho ++ I2LEBSP 255 psi).
  Definition CommitIvk (rivk ak nk : Z) : option Z :=
    SinsemillaShortCommit rivk "z.cash:Orchard-CommitIvk" (I2LEBSP 255 ak ++ I2LEBSP 255 nk).
  Definition ValueCommit (rcv v : Z) : point :=
    pt_add (pt_mul v (GroupHash "z.cash:Orchard-cv" (bytes_of_string "v")))
           (pt_mul rcv (GroupHash "z.cash:Orchard-cv" (bytes_of_string "r"))).
  Definition DeriveNullifier (nk rho psi : Z) (cm : point) : Z :=
    pt_x (pt_add (pt_mul ((o_poseidon nk rho mod pmod + psi) mod pmod) (GroupHash "z.cash:Orchard" (bytes_of_string "K"))) cm).

  (** * Key components (4.2.3) *)
  Definition PRFexpand (k t : bytes) : bytes := blake2b 64 "Zcash_ExpandSeed" (k ++ t).
  Definition ToBase (b : bytes) : Z := LEOS2IP b mod pmod.
  Definition ToScalar (b : bytes) : Z := LEOS2IP b mod qmod.
  Definition SpendAuthBase : point := GroupHash "z.cash:Orchard" (bytes_of_string "G").
  Definition spec_ask (sk : bytes) : Z :=
    let a := ToScalar (PRFexpand sk [x06]) in
    if Z.odd (pt_y (pt_mul a SpendAuthBase)) then qmod - a else a.
  Definition spec_ak (sk : bytes) : point := pt_mul (spec_ask sk) SpendAuthBase.
  Definition spec_nk (sk : bytes) : Z := ToBase (PRFexpand sk [x07]).
  Definition spec_rivk (sk : bytes) : Z := ToScalar (PRFexpand sk [x08]).
  Definition spec_dk_ovk (ak : point) (nk rivk : Z) : bytes :=
    PRFexpand (I2LEOSP 32 rivk) (x82 :: repr_bytes ak ++ I2LEOSP 32 nk).
  Definition spec_dk ak nk rivk : bytes := firstn 32 (spec_dk_ovk ak nk rivk).
  Definition spec_ovk ak nk rivk : bytes := skipn 32 (spec_dk_ovk ak nk rivk).
  Definition spec_rivk_internal (ak : point) (nk rivk : Z) : Z :=
    ToScalar (PRFexpand (I2LEOSP 32 rivk) (x83 :: repr_bytes ak ++ I2LEOSP 32 nk)).
  Definition BindingBase : point := GroupHash "z.cash:Orchard-cv" (bytes_of_string "r").

  (** * RedPallas (5.4.7): [P] is the base of the key, [T] the 80 random bytes of the signer *)
  Definition HStar (B : bytes) : Z := ToScalar (blake2b 64 "Zcash_RedPallasH" B).
  Definition red_sign (P : point) (sk : Z) (T M : bytes) : bytes * bytes :=
    let vk := repr_bytes (pt_mul sk P) in
    let r := HStar (T ++ vk ++ M) in
    let R := repr_bytes (pt_mul r P) in
    (R, I2LEOSP 32 ((r + HStar (R ++ vk ++ M) * sk) mod qmod)).
  Definition red_valid (P vk : point) (M R_ S_ : bytes) : Prop :=
    exists R S, R_ = repr_bytes R /\ S_ = I2LEOSP 32 S /\ 0 <= S < qmod /\
      pt_mul S P = pt_add R (pt_mul (HStar (R_ ++ repr_bytes vk ++ M)) vk).

  Definition DiversifyHash (d : bytes) : point :=
    let P := GroupHash "z.cash:Orchard-gd" d in
    if pt_eqb P pt_id then GroupHash "z.cash:Orchard-gd" [] else P.

  (** FF1 (NIST SP 800-38G, algorithm 7) in radix 2 on 88 numerals, with an empty tweak; the numerals come most
      significant first. The round function is shared with the model. *)
  Definition NUM (X : list bool) : Z := fold_left (fun a (b : bool) => 2 * a + (if b then 1 else 0)) X 0.
  Definition STR (m : nat) (x : Z) : list bool := map (fun i => Z.testbit x (Z.of_nat (m - 1 - i))) (seq 0 m).
  Definition ff1_round (key : bytes) (AB : list bool * list bool) (i : nat) : list bool * list bool :=
    let (A, B) := AB in (B, STR 44 ((NUM A + o_ff1 key i (NUM B)) mod 2 ^ 44)).
  Definition FF1 (key : bytes) (X : list bool) : list bool :=
    let (A, B) := fold_left (ff1_round key) (seq 0 10) (firstn 44 X, skipn 44 X) in A ++ B.
  (** The diversifier with a given index (4.2.3). *)
  Definition spec_diversifier (dk index : bytes) : bytes := I2LEOSP 11 (LEBS2IP (FF1 dk (I2LEBSP 88 (LEOS2IP index)))).

  (** The secrets of a note (4.7.3). *)
  Definition spec_psi (rseed : bytes) (rho : Z) : Z := ToBase (PRFexpand rseed (x09 :: I2LEOSP 32 rho)).
  Definition spec_rcm (rseed : bytes) (rho : Z) : Z := ToScalar (PRFexpand rseed (x05 :: I2LEOSP 32 rho)).

  (** * Transaction digests (ZIP 244, T.4 and A.3) *)
  Record wire_action := mk_wire {
    wa_cv : bytes; wa_nullifier : bytes; wa_rk : bytes; wa_cmx : bytes; wa_epk : bytes; wa_enc : bytes; wa_out : bytes;
    wa_sig : bytes
  }.
  (** An action as it is serialised in a transaction, given the bytes of its signature. *)
  Definition on_wire {A} (sig : A -> bytes) (a : action A) : wire_action :=
    mk_wire (repr_bytes (a_cv a)) (I2LEOSP 32 (a_nf a)) (repr_bytes (a_rk a)) (I2LEOSP 32 (a_cmx a))
      (ct_epk (a_ct a)) (ct_enc (a_ct a)) (ct_out (a_ct a)) (sig (a_auth a)).
  Definition bytes_from (a b : nat) (l : bytes) : bytes := firstn (b - a) (skipn a l).
  Definition orchard_digest (acts : list wire_action) (flags : byte) (value_balance anchor : bytes) : bytes :=
    blake2b 32 "ZTxIdOrchardHash"
      (blake2b 32 "ZTxIdOrcActCHash"
         (concat (map (fun a => wa_nullifier a ++ wa_cmx a ++ wa_epk a ++ bytes_from 0 52 (wa_enc a)) acts)) ++
       blake2b 32 "ZTxIdOrcActMHash" (concat (map (fun a => bytes_from 52 564 (wa_enc a)) acts)) ++
       blake2b 32 "ZTxIdOrcActNHash"
         (concat (map (fun a => wa_cv a ++ wa_rk a ++ bytes_from 564 580 (wa_enc a) ++ wa_out a) acts)) ++
       flags :: value_balance ++ anchor).
  Definition orchard_auth_digest (proof : bytes) (acts : list wire_action) (binding_sig : bytes) : bytes :=
    blake2b 32 "ZTxAuthOrchaHash" (proof ++ concat (map wa_sig acts) ++ binding_sig).
End Spec.
