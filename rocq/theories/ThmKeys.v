(** Properties C30-C33 and C35-C38 (src/keys.rs, src/address.rs). *)
From Coq Require Import String ZArith List Bool Lia.
From Coq Require Import Init.Byte.
From Verif Require Import Prelude Fields Curve Oracles Sinsemilla RedPallas Keys CurveFacts
  KeysSpec KeysFacts SkFacts Toy ToyFacts ToyKeys.
Import ListNotations.
Open Scope Z_scope.

(** C30: a spending key accepted by from_bytes is the given bytes; its full viewing key exists,
    has a serialisable ak, and every derivation in both scopes returns. *)
Theorem C30_spending_key_usable :
  forall (C : Curve) (OR : @Oracles C) (L : CurveLaws C) (sk sk' : bytes),
  sk_from_bytes sk = Ret (Some sk') ->
  sk' = sk /\ exists f, fvk_from_sk sk = Ret f /\
    pt_y (fvk_ak f) mod 2 = 0 /\ ak_to_bytes (fvk_ak f) = Ret (pt_encode (fvk_ak f)) /\
    is_base (fvk_nk f) /\ is_scalar (fvk_rivk f) /\
    forall s, (exists k, fvk_to_ivk f s = Ret k /\ ivk_ok k) /\
              (exists o, fvk_to_ovk f s = Ret o /\ length o = 32%nat) /\
              (forall j, exists a, fvk_address_at f j s = Ret a) /\
              (forall d, exists a, fvk_address f d s = Ret a).
Proof. exact @sk_usable. Qed.
Print Assumptions C30_spending_key_usable.

Example C30_example : exists sk, length sk = 32%nat /\ sk_from_bytes sk = Ret (Some sk).
Proof. exists toy_sk. split; [reflexivity|exact toy_sk_ok]. Qed.

(** Exactly the bytes whose full viewing key is a valid one ([fvk_ok], KeysSpec.v) are accepted; the others whose full
    viewing key can be derived at all (see C31) are refused. *)
Theorem C30_spending_keys_accepted_exactly :
  forall (C : Curve) (OR : @Oracles C) (L : CurveLaws C) (sk : bytes), basepoint SpendAuth <> pt_id ->
  (sk_from_bytes sk = Ret (Some sk) <-> exists f, fvk_from_sk sk = Ret f /\ fvk_ok f) /\
  (sk_from_bytes sk = Ret None <-> exists f, fvk_from_sk sk = Ret f /\ ~ fvk_ok f).
Proof. exact @sk_accepted_exactly. Qed.
Print Assumptions C30_spending_keys_accepted_exactly.

(** C31: the claim "from_bytes never panics" is false. For some hash function and some 32
    bytes it panics, and in general it panics exactly when the derived ask is zero. *)
Theorem C31_from_bytes_no_panic_refuted :
  exists (C : Curve) (OR : @Oracles C) (sk : bytes),
    CurveLaws C /\ length sk = 32%nat /\ exists why, sk_from_bytes sk = Panic why.
Proof. exact sk_from_bytes_can_panic. Qed.
Print Assumptions C31_from_bytes_no_panic_refuted.

Theorem C31_from_bytes_panics_iff_ask_zero :
  forall (C : Curve) (OR : @Oracles C) (L : CurveLaws C) (sk : bytes),
  (to_scalar (prf_expand sk dom_orchard_ask []) = 0 <-> exists why, sk_from_bytes sk = Panic why) /\
  (to_scalar (prf_expand sk dom_orchard_ask []) <> 0 <->
     sk_from_bytes sk = Ret None \/ sk_from_bytes sk = Ret (Some sk)).
Proof. exact @sk_from_bytes_panic_iff. Qed.
Print Assumptions C31_from_bytes_panics_iff_ask_zero.

(** C32: the 96-byte codec of full viewing keys. [fvk_ok] (KeysSpec.v) says what a full viewing
    key is. *)
Theorem C32_fvk_codec :
  forall (C : Curve) (OR : @Oracles C) (L : CurveLaws C),
  (forall f, fvk_ok f -> length (fvk_to_bytes f) = 96%nat /\ fvk_from_bytes (fvk_to_bytes f) = Ret (Some f)) /\
  (forall b f, length b = 96%nat -> fvk_from_bytes b = Ret (Some f) -> fvk_ok f /\ fvk_to_bytes f = b) /\
  (forall b, length b = 96%nat -> exists o, fvk_from_bytes b = Ret o) /\
  (forall b f r, fvk_read b = Ret (Some (f, r)) -> fvk_ok f /\ b = fvk_to_bytes f ++ r) /\
  (forall f r, fvk_ok f -> fvk_read (fvk_to_bytes f ++ r) = Ret (Some (f, r))).
Proof. exact @fvk_codec. Qed.
Print Assumptions C32_fvk_codec.

Theorem C32_valid_fvk_never_panics :
  forall (C : Curve) (OR : @Oracles C) (L : CurveLaws C) (f : fvk), fvk_ok f ->
  forall s, (exists k, fvk_to_ivk f s = Ret k /\ ivk_ok k) /\
            (exists o, fvk_to_ovk f s = Ret o /\ length o = 32%nat) /\
            (forall j, exists a, fvk_address_at f j s = Ret a) /\
            (forall d, exists a, fvk_address f d s = Ret a) /\
            (forall a, exists o, fvk_scope_for_address f a = Ret o).
Proof. exact @fvk_ok_usable. Qed.
Print Assumptions C32_valid_fvk_never_panics.

(** The keys derived from accepted spending keys are among them, when the generator of the
    spend authorization group is not the identity. *)
Theorem C32_sk_gives_valid_fvk :
  forall (C : Curve) (OR : @Oracles C) (L : CurveLaws C) (sk sk' : bytes) (f : fvk),
  basepoint SpendAuth <> pt_id ->
  sk_from_bytes sk = Ret (Some sk') -> fvk_from_sk sk = Ret f -> fvk_ok f.
Proof. exact @sk_fvk_ok. Qed.
Print Assumptions C32_sk_gives_valid_fvk.

Example C32_example : exists f, fvk_from_sk toy_sk = Ret f /\ fvk_ok f.
Proof. exact toy_fvk_ok_ex. Qed.

(** C33: incoming viewing keys and addresses. *)
Theorem C33_ivk_codec :
  (forall k, ivk_ok k -> length (ivk_to_bytes k) = 64%nat /\ ivk_from_bytes (ivk_to_bytes k) = Ret (Some k)) /\
  (forall b k, length b = 64%nat -> ivk_from_bytes b = Ret (Some k) -> ivk_ok k /\ ivk_to_bytes k = b) /\
  (forall b, length b = 64%nat -> exists o, ivk_from_bytes b = Ret o).
Proof. exact @ivk_codec. Qed.
Print Assumptions C33_ivk_codec.

Theorem C33_address_codec :
  forall (C : Curve) (L : CurveLaws C),
  (forall a, address_ok a -> length (address_to_bytes a) = 43%nat /\ address_from_bytes (address_to_bytes a) = Some a) /\
  (forall b a, length b = 43%nat -> address_from_bytes b = Some a -> address_ok a /\ address_to_bytes a = b).
Proof. exact @address_codec. Qed.
Print Assumptions C33_address_codec.

(** Every address of an incoming viewing key is a valid address. *)
Theorem C33_derived_addresses_valid :
  forall (C : Curve) (OR : @Oracles C) (L : CurveLaws C) (k : ivk),
  gd_fallback_ok -> ivk_ok k ->
  (forall d, length d = 11%nat -> address_ok (ivk_address k d)) /\
  (forall j, length j = 11%nat -> address_ok (ivk_address_at k j)).
Proof. exact @ivk_addresses_ok. Qed.
Print Assumptions C33_derived_addresses_valid.

Example C33_example : exists k, gd_fallback_ok /\ fvk_to_ivk toy_fvk Internal = Ret k /\ ivk_ok k.
Proof. exact toy_ivk_ex. Qed.

(** C35: diversifier_index inverts address_at, in both directions. *)
Theorem C35_diversifier_index :
  forall (C : Curve) (OR : @Oracles C) (L : CurveLaws C) (k : ivk) (a : address) (j : bytes),
  ivk_diversifier_index k a = Some j <-> (length j = 11%nat /\ a = ivk_address_at k j).
Proof. exact @index_iff. Qed.
Print Assumptions C35_diversifier_index.

Theorem C35_distinct_indices_distinct_addresses :
  forall (C : Curve) (OR : @Oracles C) (L : CurveLaws C) (k : ivk) (i j : bytes),
  length i = 11%nat -> length j = 11%nat -> ivk_address_at k i = ivk_address_at k j -> i = j.
Proof. exact @address_at_inj. Qed.
Print Assumptions C35_distinct_indices_distinct_addresses.

Theorem C35_every_diversifier_has_an_index :
  forall (C : Curve) (OR : @Oracles C) (L : CurveLaws C) (k : ivk) (d : bytes), length d = 11%nat ->
  exists j, ivk_diversifier_index k (ivk_address k d) = Some j /\ length j = 11%nat.
Proof. exact @index_of_address. Qed.
Print Assumptions C35_every_diversifier_has_an_index.

(** A 32-bit number is the index whose little-endian value it is, so different numbers give different addresses. *)
Theorem C35_numbered_indices :
  forall (C : Curve) (OR : @Oracles C) (L : CurveLaws C) (k : ivk) (i j : Z), 0 <= i < 2 ^ 32 -> 0 <= j < 2 ^ 32 ->
  length (div_index_of_u32 i) = 11%nat /\ le_val (div_index_of_u32 i) = i /\
  (ivk_address_at k (div_index_of_u32 i) = ivk_address_at k (div_index_of_u32 j) <-> i = j).
Proof. exact @numbered_indices. Qed.
Print Assumptions C35_numbered_indices.

Example C35_example :
  let k := mk_ivk (repeat x05 32) 77 in
  ivk_diversifier_index k (ivk_address_at k (div_index_of_u32 300)) = Some (div_index_of_u32 300).
Proof. apply (index_of_address_at toy_laws). reflexivity. Qed.

(** C36: "derived in scope s" means: the address of some 11-byte index in that scope. *)
Theorem C36_scope_for_address :
  forall (C : Curve) (OR : @Oracles C) (L : CurveLaws C) (f : fvk) (a : address), fvk_ok f ->
  let in_scope s := exists j, length j = 11%nat /\ fvk_address_at f j s = Ret a in
  exists o, fvk_scope_for_address f a = Ret o /\
  match o with
  | Some External => in_scope External
  | Some Internal => in_scope Internal /\ ~ in_scope External
  | None => ~ in_scope External /\ ~ in_scope Internal
  end.
Proof. exact @scope_spec. Qed.
Print Assumptions C36_scope_for_address.

Example C36_example : exists f a, fvk_ok f /\ fvk_address_at f (div_index_of_u32 3) Internal = Ret a.
Proof. exact toy_internal_address_ex. Qed.

(** C37: the signing key is normalised so that ak has an even y, and randomising the signing
    key matches randomising the validating key. *)
Theorem C37_ask_normalised :
  forall (C : Curve) (OR : @Oracles C) (L : CurveLaws C) (sk : bytes) (ask : Z),
  ask_from_sk sk = Ret ask ->
  let a := to_scalar (prf_expand sk dom_orchard_ask []) in
  a <> 0 /\ is_scalar ask /\ ask <> 0 /\ (ask = a \/ ask = qmod - a) /\
  pt_y (pt_mul ask (basepoint SpendAuth)) mod 2 = 0.
Proof. exact @ask_from_sk_inv. Qed.
Print Assumptions C37_ask_normalised.

Theorem C37_fvk_has_the_same_ak :
  forall (C : Curve) (OR : @Oracles C) (sk : bytes) (f : fvk),
  fvk_from_sk sk = Ret f ->
  exists ask, ask_from_sk sk = Ret ask /\ fvk_ak f = pt_mul ask (basepoint SpendAuth).
Proof. exact @fvk_from_sk_ak. Qed.
Print Assumptions C37_fvk_has_the_same_ak.

Theorem C37_randomised_signature_verifies :
  forall (C : Curve) (OR : @Oracles C) (L : CurveLaws C) (ask alpha : Z) (msg : bytes) (r : rng),
  vk_of SpendAuth (sk_randomize ask alpha) = vk_randomize (ak_of_ask ask) alpha /\
  verify SpendAuth (vk_randomize (ak_of_ask ask) alpha) msg
         (fst (sign SpendAuth (sk_randomize ask alpha) msg r)) = true.
Proof. exact @randomize_ok. Qed.
Print Assumptions C37_randomised_signature_verifies.

(** verify accepts exactly the Schnorr equation on canonically encoded R and s. *)
Theorem C37_verify_is_schnorr :
  forall (C : Curve) (OR : @Oracles C) (L : CurveLaws C) t (vk : point) (msg : bytes) (s : signature),
  verify t vk msg s = true <->
  exists R sc, pt_decode (sig_r s) = Some R /\ scalar_from_repr (sig_s s) = Some sc /\
    pt_mul sc (basepoint t) = pt_add R (pt_mul (hstar (sig_r s ++ pt_encode vk ++ msg)) vk).
Proof. exact @verify_spec. Qed.
Print Assumptions C37_verify_is_schnorr.

Example C37_example : exists ask, ask_from_sk toy_sk = Ret ask.
Proof. exact toy_ask_ex. Qed.

(** C38 *)
Theorem C38_key_agreement :
  forall (C : Curve) (OR : @Oracles C) (L : CurveLaws C) (k : ivk) (d : bytes) (esk : Z),
  gd_fallback_ok -> ivk_ok k -> is_scalar esk -> esk <> 0 ->
  let pk_d := ad_pk_d (ivk_address k d) in
  let epk := esk_derive_public esk (diversify_hash d) in
  esk_agree esk pk_d = epk_agree epk (ivk_ivk k) /\
  esk_agree esk pk_d <> pt_id /\ epk <> pt_id /\ pk_d <> pt_id.
Proof. exact @key_agreement. Qed.
Print Assumptions C38_key_agreement.

Example C38_example : gd_fallback_ok /\ ivk_ok (mk_ivk (repeat x05 32) 77).
Proof. split; [exact toy_gd|]. split; [reflexivity|]. cbn. pose proof pmod_gt_4. vm_compute. split; reflexivity. Qed.
