(** src/keys.rs, src/address.rs and the point/scalar helpers of src/spec.rs. *)
From Coq Require Import String ZArith List Bool.
From Coq Require Import Init.Byte.
From Verif Require Import Prelude Fields Curve Oracles Sinsemilla RedPallas.
Import ListNotations.
Open Scope Z_scope.

Inductive scope := External | Internal.

(** address.rs:18-22 Address: diversifier (11 bytes) and pk_d. *)
Record address {C : Curve} := mk_address { ad_d : bytes; ad_pk_d : point }.
Arguments mk_address {C}.

(** keys.rs:306-311 FullViewingKey. *)
Record fvk {C : Curve} := mk_fvk { fvk_ak : point; fvk_nk : Z; fvk_rivk : Z }.
Arguments mk_fvk {C}.

(** keys.rs:615-619 IncomingViewingKey (KeyAgreementPrivateKey is its scalar, 551-552). *)
Record ivk := mk_ivk { ivk_dk : bytes; ivk_ivk : Z }.

Section Keys.
  Context {C : Curve} {OR : @Oracles C}.

  (** spec.rs:38-41 NonIdentityPallasPoint::from_bytes. *)
  Definition nonid_from_bytes (b : bytes) : option point :=
    let? P := pt_decode b in if pt_is_id P then None else Some P.

  (** spec.rs:77-79, 69-71 NonZeroPallasBase::from_base / from_bytes. *)
  Definition nonzero (x : Z) : option Z := if x =? 0 then None else Some x.
  Definition nonzero_base_from_bytes (b : bytes) : option Z := optbind (base_from_repr b) nonzero.

  (** spec.rs:115-121 NonZeroPallasScalar::from_bytes / from_scalar. *)
  Definition nonzero_scalar_from_bytes (b : bytes) : option Z :=
    optbind (scalar_from_repr b) nonzero.

  (** spec.rs:102-106 From<NonZeroPallasBase> for NonZeroPallasScalar, with 128-131 guaranteed. *)
  Definition scalar_of_nonzero_base (x : Z) : outcome Z :=
    let! s := mod_r_p x in
    let! _ := assert_ "NonZeroPallasScalar::guaranteed" (negb (s =? 0)) in
    Ret s.

  (** spec.rs:201-215 commit_ivk. *)
  Definition commit_ivk_msg (ak nk : Z) : list bool := base_bits ak ++ base_bits nk.
  Definition commit_ivk (ak nk rivk : Z) : option Z :=
    sins_short_commit "z.cash:Orchard-CommitIvk" (commit_ivk_msg ak nk) rivk.

  (** spec.rs:220-226 diversify_hash. *)
  Definition diversify_hash (d : bytes) : point :=
    let g := hash_to_curve "z.cash:Orchard-gd" d in
    if pt_is_id g then hash_to_curve "z.cash:Orchard-gd" [] else g.

  (** spec.rs:241-259 ka_orchard / ka_orchard_prepared. *)
  Definition ka_orchard (sk : Z) (b : point) : point := pt_mul sk b.

  (** * Spending keys *)

  (** keys.rs:123-125 SpendAuthorizingKey::derive_inner. *)
  Definition ask_inner (sk : bytes) : Z := to_scalar (prf_expand sk dom_orchard_ask []).

  (** Bit 255 of a 32-byte encoding: [b[31] >> 7]. *)
  Definition sign_bit (b : bytes) : Z := Z_of_byte (nth 31 b x00) / 128.

  (** keys.rs:135-149 From<&SpendingKey> for SpendAuthorizingKey. *)
  Definition ask_from_sk (sk : bytes) : outcome Z :=
    let ask := ask_inner sk in
    let! _ := assert_ "ask != 0" (negb (ask =? 0)) in
    let! ret := unwrap "ask try_into" (signing_key_from_bytes (to_repr ask)) in
    if sign_bit (vk_to_bytes (vk_of SpendAuth ret)) =? 1
    then unwrap "-ask try_into" (signing_key_from_bytes (to_repr ((- ask) mod qmod)))
    else Ret ret.

  (** keys.rs:161-165 From<&SpendAuthorizingKey> for SpendValidatingKey. *)
  Definition ak_of_ask (ask : Z) : point := vk_of SpendAuth ask.

  (** keys.rs:173-177 equality of SpendValidatingKey: on bytes. *)
  Definition ak_eqb (a b : point) : bool := vk_eqb a b.

  (** keys.rs:190-196 SpendValidatingKey::to_bytes. *)
  Definition ak_to_bytes (ak : point) : outcome bytes :=
    let b := vk_to_bytes ak in
    let! _ := assert_ "ak sign bit" (Z.land (Z_of_byte (nth 31 b x00)) 128 =? 0) in
    Ret b.

  (** keys.rs:202-217 SpendValidatingKey::from_bytes. *)
  Definition ak_from_bytes (b : bytes) : option point :=
    if Nat.eqb (length b) 32 then
      if negb (bytes_eqb b (repeat x00 32)) && (Z.land (Z_of_byte (nth 31 b x00)) 128 =? 0)
      then vk_from_bytes b
      else None
    else None.

  (** keys.rs:236-240, 252-260 NullifierDerivingKey. *)
  Definition nk_from_sk (sk : bytes) : Z := to_base (prf_expand sk dom_orchard_nk []).
  Definition nk_from_bytes (b : bytes) : option Z :=
    if Nat.eqb (length b) 32 then base_from_repr b else None.

  (** keys.rs:271-275, 287-295 CommitIvkRandomness. *)
  Definition rivk_from_sk (sk : bytes) : Z := to_scalar (prf_expand sk dom_orchard_rivk []).
  Definition rivk_from_bytes (b : bytes) : option Z :=
    if Nat.eqb (length b) 32 then scalar_from_repr b else None.

  (** * Full viewing keys *)

  (** keys.rs:313-321 From<&SpendingKey> for FullViewingKey. *)
  Definition fvk_from_sk (sk : bytes) : outcome fvk :=
    let! ask := ask_from_sk sk in
    Ret (mk_fvk (ak_of_ask ask) (nk_from_sk sk) (rivk_from_sk sk)).

  (** keys.rs:341-353 rivk(scope). *)
  Definition fvk_rivk_scope (f : fvk) (s : scope) : outcome Z :=
    match s with
    | External => Ret (fvk_rivk f)
    | Internal =>
        let! akb := ak_to_bytes (fvk_ak f) in
        Ret (to_scalar (prf_expand (to_repr (fvk_rivk f)) dom_orchard_rivk_internal
                          [akb; to_repr (fvk_nk f)]))
    end.

  (** keys.rs:358-366 derive_dk_ovk. *)
  Definition derive_dk_ovk (f : fvk) : bytes * bytes :=
    let r := prf_expand (to_repr (fvk_rivk f)) dom_orchard_dk_ovk
               [vk_to_bytes (fvk_ak f); to_repr (fvk_nk f)] in
    (slice 0 32 r, slice 32 64 r).

  (** keys.rs:446-452 derive_internal. *)
  Definition fvk_derive_internal (f : fvk) : outcome fvk :=
    let! r := fvk_rivk_scope f Internal in
    Ret (mk_fvk (fvk_ak f) (fvk_nk f) r).

  (** keys.rs:573-593 KeyAgreementPrivateKey::derive_inner. The point parse at line 574
      is of the bytes cached for the point itself, so it is the identity here. *)
  Definition ivk_derive_inner (f : fvk) : option Z :=
    optbind (commit_ivk (extract_p (fvk_ak f)) (fvk_nk f) (fvk_rivk f)) nonzero.

  (** keys.rs:560-564 KeyAgreementPrivateKey::from_fvk. *)
  Definition kapk_from_fvk (f : fvk) : outcome Z :=
    let! x := unwrap "ivk = 0 or bottom" (ivk_derive_inner f) in
    scalar_of_nonzero_base x.

  (** keys.rs:70-85 SpendingKey::from_bytes. The full viewing key is derived (line 78) before
      the ask = 0 case is turned into None (line 81-84). *)
  Definition sk_from_bytes (sk : bytes) : outcome (option bytes) :=
    let ask := ask_inner sk in
    let! f := fvk_from_sk sk in
    let external_ivk := ivk_derive_inner f in
    let! fi := fvk_derive_internal f in
    let internal_ivk := ivk_derive_inner fi in
    Ret (if (ask =? 0) || negb (is_some external_ivk) || negb (is_some internal_ivk)
         then None else Some sk).

  (** keys.rs:56-65 SpendingKey::random (rejection loop, fuelled). *)
  Fixpoint sk_random (fuel : nat) (r : rng) : outcome (bytes * rng) :=
    match fuel with
    | O => OutOfFuel
    | S fuel' =>
        let (b, r') := rng_bytes 32 r in
        let! sk := sk_from_bytes b in
        match sk with
        | Some s => Ret (s, r')
        | None => sk_random fuel' r'
        end
    end.

  (** keys.rs:416-422 FullViewingKey::to_bytes. *)
  Definition fvk_to_bytes (f : fvk) : bytes :=
    vk_to_bytes (fvk_ak f) ++ to_repr (fvk_nk f) ++ to_repr (fvk_rivk f).

  (** keys.rs:427-440 FullViewingKey::from_bytes. *)
  Definition fvk_from_bytes (b : bytes) : outcome (option fvk) :=
    match ak_from_bytes (slice 0 32 b), nk_from_bytes (slice 32 64 b), rivk_from_bytes (slice 64 96 b) with
    | Some ak, Some nk, Some rivk =>
        let f := mk_fvk ak nk rivk in
        match ivk_derive_inner f with
        | None => Ret None
        | Some _ =>
            let! fi := fvk_derive_internal f in
            match ivk_derive_inner fi with
            | None => Ret None
            | Some _ => Ret (Some f)
            end
        end
    | _, _, _ => Ret None
    end.

  (** keys.rs:401-411 FullViewingKey::read on the first 96 bytes of a reader: too few bytes
      is an I/O error, and so is an invalid key. *)
  Definition fvk_read (input : bytes) : outcome (option (fvk * bytes)) :=
    if Nat.ltb (length input) 96 then Ret None
    else
      let! f := fvk_from_bytes (firstn 96 input) in
      Ret (match f with Some f' => Some (f', skipn 96 input) | None => None end).

  (** * Diversifiers: keys.rs:476-531. FF1-AES256, radix 2, 88 numerals: ten Feistel rounds on
      two 44-bit halves. The round function is the oracle. *)
  Definition ff1_half : Z := 2 ^ 44.
  Definition ff1_F (key : bytes) (i : nat) (b : Z) : Z := o_ff1 key i b.

  Fixpoint ff1_enc_rounds (key : bytes) (i n : nat) (ab : Z * Z) : Z * Z :=
    match n with
    | O => ab
    | S n' => let (a, b) := ab in
              ff1_enc_rounds key (S i) n' (b, (a + ff1_F key i b) mod ff1_half)
    end.

  (** Rounds [n-1] down to 0. *)
  Fixpoint ff1_dec_rounds (key : bytes) (n : nat) (ab : Z * Z) : Z * Z :=
    match n with
    | O => ab
    | S n' => let (a, b) := ab in
              ff1_dec_rounds key n' ((b - ff1_F key n' a) mod ff1_half, a)
    end.

  (** BinaryNumeralString::from_bytes_le reads each byte from its least significant bit, and FF1
      reads a numeral string from its most significant numeral, so a half is the reverse of
      44 bits of the little-endian value. *)
  Definition rev_bits (n : nat) (v : Z) : Z := bits_val (rev (le_bits n v)).
  Definition ff1_split (v : Z) : Z * Z := (rev_bits 44 (v mod ff1_half), rev_bits 44 (v / ff1_half)).
  Definition ff1_join (ab : Z * Z) : Z := rev_bits 44 (fst ab) + ff1_half * rev_bits 44 (snd ab).

  (** keys.rs:481-490 DiversifierKey::get. *)
  Definition dk_get (dk : bytes) (j : bytes) : bytes :=
    le_bytes 11 (ff1_join (ff1_enc_rounds dk 0 10 (ff1_split (le_val j)))).

  (** keys.rs:493-499 DiversifierKey::diversifier_index. *)
  Definition dk_index (dk : bytes) (d : bytes) : bytes :=
    le_bytes 11 (ff1_join (ff1_dec_rounds dk 10 (ff1_split (le_val d)))).

  (** zip32::DiversifierIndex::from(u32). *)
  Definition div_index_of_u32 (j : Z) : bytes := le_bytes 11 j.

  (** * Incoming viewing keys *)

  (** keys.rs:755-758 DiversifiedTransmissionKey::derive. *)
  Definition pk_d_derive (k : Z) (d : bytes) : point := ka_orchard k (diversify_hash d).

  (** keys.rs:596-600 KeyAgreementPrivateKey::address. *)
  Definition kapk_address (k : Z) (d : bytes) : address := mk_address d (pk_d_derive k d).

  (** keys.rs:623-628 IncomingViewingKey::from_fvk. *)
  Definition ivk_from_fvk (f : fvk) : outcome ivk :=
    let! k := kapk_from_fvk f in
    Ret (mk_ivk (fst (derive_dk_ovk f)) k).

  (** keys.rs:455-468 to_ivk / to_ovk. *)
  Definition fvk_to_ivk (f : fvk) (s : scope) : outcome ivk :=
    match s with
    | External => ivk_from_fvk f
    | Internal => let! fi := fvk_derive_internal f in ivk_from_fvk fi
    end.
  Definition fvk_to_ovk (f : fvk) (s : scope) : outcome bytes :=
    match s with
    | External => Ret (snd (derive_dk_ovk f))
    | Internal => let! fi := fvk_derive_internal f in Ret (snd (derive_dk_ovk fi))
    end.

  (** keys.rs:635-640, 643-650 IncomingViewingKey::to_bytes / from_bytes. *)
  Definition ivk_to_bytes (k : ivk) : bytes := ivk_dk k ++ to_repr (ivk_ivk k).
  Definition ivk_from_bytes (b : bytes) : outcome (option ivk) :=
    match nonzero_base_from_bytes (slice 32 64 b) with
    | None => Ret None
    | Some x => let! s := scalar_of_nonzero_base x in
                Ret (Some (mk_ivk (slice 0 32 b) s))
    end.

  (** keys.rs:670-672, 665-667 IncomingViewingKey::address / address_at. *)
  Definition ivk_address (k : ivk) (d : bytes) : address := kapk_address (ivk_ivk k) d.
  Definition ivk_address_at (k : ivk) (j : bytes) : address := ivk_address k (dk_get (ivk_dk k) j).

  (** derived PartialEq of Address (address.rs:18). *)
  Definition address_eqb (a b : address) : bool :=
    bytes_eqb (ad_d a) (ad_d b) && pt_eqb (ad_pk_d a) (ad_pk_d b).

  (** keys.rs:655-662 IncomingViewingKey::diversifier_index. *)
  Definition ivk_diversifier_index (k : ivk) (a : address) : option bytes :=
    let j := dk_index (ivk_dk k) (ad_d a) in
    if address_eqb (ivk_address_at k j) a then Some j else None.

  (** keys.rs:369-381 FullViewingKey::address_at / address. *)
  Definition fvk_address_at (f : fvk) (j : bytes) (s : scope) : outcome address :=
    let! k := fvk_to_ivk f s in Ret (ivk_address_at k j).
  Definition fvk_address (f : fvk) (d : bytes) (s : scope) : outcome address :=
    match s with
    | External => let! k := kapk_from_fvk f in Ret (kapk_address k d)
    | Internal => let! fi := fvk_derive_internal f in
                  let! k := kapk_from_fvk fi in Ret (kapk_address k d)
    end.

  (** keys.rs:385-389 scope_for_address: the first scope whose key recognises the address. *)
  Definition fvk_scope_for_address (f : fvk) (a : address) : outcome (option scope) :=
    let! ke := fvk_to_ivk f External in
    if is_some (ivk_diversifier_index ke a) then Ret (Some External)
    else
      let! ki := fvk_to_ivk f Internal in
      if is_some (ivk_diversifier_index ki a) then Ret (Some Internal) else Ret None.

  (** * Addresses: src/address.rs *)

  (** address.rs:38-40 g_d. *)
  Definition ad_g_d (a : address) : point := diversify_hash (ad_d a).

  (** address.rs:49-54, 59-64; keys.rs:761-768. *)
  Definition address_to_bytes (a : address) : bytes := ad_d a ++ pt_encode (ad_pk_d a).
  Definition address_from_bytes (b : bytes) : option address :=
    let? pk_d := nonid_from_bytes (slice 11 43 b) in
    Some (mk_address (slice 0 11 b) pk_d).

  (** * Ephemeral keys and key agreement: keys.rs:789-909 *)

  (** keys.rs:799-801 EphemeralSecretKey::from_bytes; 826-832 EphemeralPublicKey codec. *)
  Definition esk_from_bytes (b : bytes) : option Z := nonzero_scalar_from_bytes b.
  Definition epk_from_bytes (b : bytes) : option point := nonid_from_bytes b.
  Definition epk_to_bytes (P : point) : bytes := pt_encode P.
  (** keys.rs:803-809 derive_public / agree; 834-836 and 848-850 agree from the other side. *)
  Definition esk_derive_public (esk : Z) (g_d : point) : point := ka_orchard esk g_d.
  Definition esk_agree (esk : Z) (pk_d : point) : point := ka_orchard esk pk_d.
  Definition epk_agree (epk : point) (k : Z) : point := ka_orchard k epk.

  (** keys.rs:892-908 kdf_orchard. *)
  Definition kdf_orchard (secret : point) (epk_bytes : bytes) : bytes :=
    blake2b 32 "Zcash_OrchardKDF" (pt_encode secret ++ epk_bytes).

  (** keys.rs:869-887 SharedSecret::batch_to_affine: collect the present secrets, normalise
      them all (the identity on group elements), then put them back in position. *)
  Fixpoint filter_some {A} (l : list (option A)) : list A :=
    match l with
    | [] => []
    | Some a :: l' => a :: filter_some l'
    | None :: l' => filter_some l'
    end.
  Fixpoint reinsert {A} (l : list (option A)) (it : list A) : list (option A) :=
    match l with
    | [] => []
    | None :: l' => None :: reinsert l' it
    | Some _ :: l' =>
        match it with
        | [] => None :: reinsert l' []
        | a :: it' => Some a :: reinsert l' it'
        end
    end.
  Definition batch_normalize (l : list point) : list point := map (fun P => P) l.
  Definition batch_to_affine (secrets : list (option point)) : list (option point) :=
    reinsert secrets (batch_normalize (filter_some secrets)).
End Keys.
