(** src/note_encryption.rs and the generic functions of zcash_note_encryption 0.4 it plugs into. *)
From Coq Require Import String ZArith List Bool.
From Coq Require Import Init.Byte.
From Verif Require Import Prelude Fields Curve Oracles Sinsemilla RedPallas Value Keys Note Action.
Import ListNotations.
Open Scope Z_scope.

(** Sizes of zcash_note_encryption. *)
Definition compact_note_size : nat := 52.
Definition note_plaintext_size : nat := 564.
Definition out_plaintext_size : nat := 64.
Definition enc_ciphertext_size : nat := 580.
Definition out_ciphertext_size : nat := 80.

(** note_encryption.rs:271-276 CompactAction. *)
Record compact_action := mk_compact {
  c_nf : Z;
  c_cmx : Z;
  c_epk : bytes;
  c_enc : bytes
}.

Section NoteEnc.
  Context {C : Curve} {OR : @Oracles C}.

  (** ChaCha20Poly1305 with zero nonce and no associated data: ciphertext then tag. *)
  Definition aead_encrypt (key pt : bytes) : bytes :=
    let ct := xor_bytes pt (keystream key (length pt)) in ct ++ poly_tag key ct.

  (** decrypt_in_place_detached on [n] ciphertext bytes followed by the tag. *)
  Definition aead_decrypt (n : nat) (key ct : bytes) : option bytes :=
    let body := firstn n ct in
    if bytes_eqb (skipn n ct) (poly_tag key body)
    then Some (xor_bytes body (keystream key n)) else None.

  (** The ChaCha20 stream from block 1, used for compact ciphertexts (no tag). *)
  Definition stream_decrypt (key ct : bytes) : bytes :=
    xor_bytes ct (keystream key (length ct)).

  (** note_encryption.rs:29-49 prf_ock_orchard. *)
  Definition prf_ock (ovk : bytes) (cv : point) (cmx_bytes epk : bytes) : bytes :=
    blake2b 32 "Zcash_Orchardock" (ovk ++ cv_to_bytes cv ++ cmx_bytes ++ epk).

  (** note_encryption.rs:162-170 note_plaintext_bytes. *)
  Definition note_plaintext_bytes (n : note) (memo : bytes) : bytes :=
    [x02] ++ ad_d (n_recipient n) ++ note_value_to_bytes (n_value n) ++ n_rseed n ++ memo.

  (** note_encryption.rs:181-189 outgoing_plaintext_bytes. *)
  Definition outgoing_plaintext_bytes (n : note) (esk : Z) : bytes :=
    pt_encode (ad_pk_d (n_recipient n)) ++ to_repr esk.

  (** note_encryption.rs:51-79 orchard_parse_note_plaintext_without_memo; the domain is its rho. *)
  Definition parse_note_plaintext (rho : Z) (pt : bytes) (get_pk_d : bytes -> point)
    : outcome (option (note * address)) :=
    let! _ := assert_ "plaintext.len() >= COMPACT_NOTE_SIZE"
                (Nat.leb compact_note_size (length pt)) in
    Ret (if negb (Byte.eqb (nth 0 pt x00) x02) then None
         else
           let d := slice 1 12 pt in
           let v := note_value_from_bytes (slice 12 20 pt) in
           let? rseed := rseed_from_bytes (slice 20 52 pt) rho in
           let recipient := mk_address d (get_pk_d d) in
           let? n := note_from_parts recipient v rho rseed in
           Some (n, recipient)).

  (** note_encryption.rs:203-211 and 213-219. *)
  Definition parse_ivk (rho : Z) (k : Z) (pt : bytes) :=
    parse_note_plaintext rho pt (fun d => pk_d_derive k d).
  Definition parse_ovk (rho : Z) (pk_d : point) (pt : bytes) :=
    parse_note_plaintext rho pt (fun _ => pk_d).

  (** note_encryption.rs:199-201 cmstar, as bytes. *)
  Definition cmstar_bytes (n : note) : outcome bytes :=
    let! cm := commitment n in Ret (cmx_to_bytes (cmx_of cm)).

  (** note_encryption.rs:137-142 ka_derive_public. *)
  Definition ka_derive_public (n : note) (esk : Z) : point :=
    esk_derive_public esk (ad_g_d (n_recipient n)).

  (** zcash_note_encryption check_note_validity (derive_esk is always Some here,
      note_encryption.rs:125-127). *)
  Definition check_note_validity (n : note) (epk cmx_bytes : bytes) : outcome bool :=
    let! cb := cmstar_bytes n in
    if bytes_eqb cb cmx_bytes then
      let! esk := note_esk n in
      Ret (bytes_eqb (epk_to_bytes (ka_derive_public n esk)) epk)
    else Ret false.

  (** zcash_note_encryption parse_note_plaintext_without_memo_ivk. *)
  Definition parse_and_check_ivk (rho k : Z) (epk cmx_bytes pt : bytes)
    : outcome (option (note * address)) :=
    let! p := parse_ivk rho k pt in
    match p with
    | None => Ret None
    | Some (n, to) =>
        let! ok := check_note_validity n epk cmx_bytes in
        Ret (if ok then Some (n, to) else None)
    end.

  (** note_encryption.rs:221-225 extract_memo. *)
  Definition extract_memo (pt : bytes) : bytes := slice 52 564 pt.

  (** note_encryption.rs:144-160 key agreement from the recipient's side and kdf. *)
  Definition dec_key (k : Z) (epk : point) (epk_bytes : bytes) : bytes :=
    kdf_orchard (epk_agree epk k) epk_bytes.
  Definition enc_key (esk : Z) (pk_d : point) (epk_bytes : bytes) : bytes :=
    kdf_orchard (esk_agree esk pk_d) epk_bytes.

  (** zcash_note_encryption try_note_decryption_inner, given the symmetric key. *)
  Definition try_note_decryption_inner (rho k : Z) (epk_bytes cmx_bytes enc key : bytes)
    : outcome (option (note * address * bytes)) :=
    match aead_decrypt note_plaintext_size key enc with
    | None => Ret None
    | Some pt =>
        let! p := parse_and_check_ivk rho k epk_bytes cmx_bytes pt in
        Ret (match p with
             | None => None
             | Some (n, to) => Some (n, to, extract_memo pt)
             end)
    end.

  (** try_note_decryption on the fields of a shielded output. *)
  Definition try_note_decryption_raw (rho k : Z) (epk_bytes cmx_bytes enc : bytes)
    : outcome (option (note * address * bytes)) :=
    match epk_from_bytes epk_bytes with
    | None => Ret None
    | Some epk =>
        try_note_decryption_inner rho k epk_bytes cmx_bytes enc (dec_key k epk epk_bytes)
    end.

  (** note_encryption.rs:97-101 for_action, 255-267 ShieldedOutput for Action. *)
  Definition try_note_decryption {A} (k : ivk) (a : action A)
    : outcome (option (note * address * bytes)) :=
    try_note_decryption_raw (a_rho a) (ivk_ivk k) (ct_epk (a_ct a)) (cmx_to_bytes (a_cmx a))
      (ct_enc (a_ct a)).

  (** zcash_note_encryption try_compact_note_decryption_inner. *)
  Definition try_compact_decryption_inner (rho k : Z) (epk_bytes cmx_bytes enc key : bytes)
    : outcome (option (note * address)) :=
    parse_and_check_ivk rho k epk_bytes cmx_bytes (stream_decrypt key enc).

  Definition try_compact_decryption_raw (rho k : Z) (epk_bytes cmx_bytes enc : bytes)
    : outcome (option (note * address)) :=
    match epk_from_bytes epk_bytes with
    | None => Ret None
    | Some epk =>
        try_compact_decryption_inner rho k epk_bytes cmx_bytes enc (dec_key k epk epk_bytes)
    end.

  (** note_encryption.rs:103-106, 297-309, 338-340. *)
  Definition try_compact_note_decryption (k : ivk) (c : compact_action)
    : outcome (option (note * address)) :=
    try_compact_decryption_raw (rho_from_nf_old (c_nf c)) (ivk_ivk k) (c_epk c)
      (cmx_to_bytes (c_cmx c)) (c_enc c).

  (** note_encryption.rs:284-295 From<&Action> for CompactAction. *)
  Definition compact_of_action {A} (a : action A) : compact_action :=
    mk_compact (a_nf a) (a_cmx a) (ct_epk (a_ct a)) (slice 0 52 (ct_enc (a_ct a))).

  (** note_encryption.rs:227-234 extract_pk_d, extract_esk. *)
  Definition extract_pk_d (op : bytes) : option point := nonid_from_bytes (slice 0 32 op).
  Definition extract_esk (op : bytes) : option Z := esk_from_bytes (slice 32 64 op).

  (** zcash_note_encryption try_output_recovery_with_ock. *)
  Definition try_output_recovery_with_ock (rho : Z) (ock epk_bytes cmx_bytes enc out : bytes)
    : outcome (option (note * address * bytes)) :=
    match aead_decrypt out_plaintext_size ock out with
    | None => Ret None
    | Some op =>
        match extract_pk_d op, extract_esk op with
        | Some pk_d, Some esk =>
            let key := enc_key esk pk_d epk_bytes in
            match aead_decrypt note_plaintext_size key enc with
            | None => Ret None
            | Some pt =>
                let! p := parse_ovk rho pk_d pt in
                match p with
                | None => Ret None
                | Some (n, to) =>
                    let memo := extract_memo pt in
                    let! derived := note_esk n in
                    if negb (derived =? esk) then Ret None
                    else
                      let! ok := check_note_validity n epk_bytes cmx_bytes in
                      Ret (if ok then Some (n, to, memo) else None)
                end
            end
        | _, _ => Ret None
        end
    end.

  (** zcash_note_encryption try_output_recovery_with_ovk, applied to an action. *)
  Definition try_output_recovery {A} (ovk : bytes) (a : action A)
    : outcome (option (note * address * bytes)) :=
    let ock := prf_ock ovk (a_cv a) (cmx_to_bytes (a_cmx a)) (ct_epk (a_ct a)) in
    try_output_recovery_with_ock (a_rho a) ock (ct_epk (a_ct a)) (cmx_to_bytes (a_cmx a))
      (ct_enc (a_ct a)) (ct_out (a_ct a)).

  (** zcash_note_encryption NoteEncryption: the state kept between calls. *)
  Record encryptor := mk_encryptor {
    e_ovk : option bytes;
    e_note : note;
    e_memo : bytes;
    e_esk : Z;
    e_epk : point
  }.

  (** NoteEncryption::new. *)
  Definition encryptor_new (ovk : option bytes) (n : note) (memo : bytes) : outcome encryptor :=
    let! esk := note_esk n in
    Ret (mk_encryptor ovk n memo esk (ka_derive_public n esk)).

  (** encrypt_note_plaintext. *)
  Definition encrypt_note_plaintext (e : encryptor) : bytes :=
    let key := enc_key (e_esk e) (ad_pk_d (n_recipient (e_note e))) (epk_to_bytes (e_epk e)) in
    aead_encrypt key (note_plaintext_bytes (e_note e) (e_memo e)).

  (** encrypt_outgoing_plaintext. *)
  Definition encrypt_outgoing_plaintext (e : encryptor) (cv : point) (cmx : Z) (r : rng)
    : bytes * rng :=
    match e_ovk e with
    | Some ovk =>
        let ock := prf_ock ovk cv (cmx_to_bytes cmx) (epk_to_bytes (e_epk e)) in
        (aead_encrypt ock (outgoing_plaintext_bytes (e_note e) (e_esk e)), r)
    | None =>
        let (ock, r1) := rng_bytes 32 r in
        let (input, r2) := rng_bytes 64 r1 in
        (aead_encrypt ock input, r2)
    end.

  (** note_encryption.rs:237-250 batch_kdf: unzip, batch_to_affine, zip, map. *)
  Definition batch_kdf (items : list (option point * bytes)) : list (option bytes) :=
    let secrets := map fst items in
    let keys := map snd items in
    map (fun p => option_map (fun s => kdf_orchard s (snd p)) (fst p))
      (combine (batch_to_affine secrets) keys).
End NoteEnc.
