(** Proofs about NoteEnc.v: round trip, soundness, agreement of compact and full decryption. *)
From Coq Require Import String ZArith List Bool Lia.
From Coq Require Import Init.Byte.
From Verif Require Import Prelude Fields Curve Oracles Sinsemilla RedPallas Value Keys Note Action NoteEnc
  PreludeFacts CurveFacts CodecFacts FieldFacts Spec KeysSpec KeysFacts NoteSpec NoteFacts NoteEncSpec.
Import ListNotations.
Open Scope Z_scope.

#[local] Opaque commitment_inner prf_expand to_scalar to_base le_bytes le_val blake2b diversify_hash.

Lemma slice_firstn : forall a b n (l : bytes), (b <= n)%nat -> slice a b (firstn n l) = slice a b l.
Proof.
  intros a b n l H. unfold slice. rewrite skipn_firstn_comm, firstn_firstn. f_equal. lia.
Qed.
Lemma nth_firstn_0 : forall n (l : bytes) d, (0 < n)%nat -> nth 0 (firstn n l) d = nth 0 l d.
Proof. intros [|n] [|x l] d H; try lia; reflexivity. Qed.

Section NoteEnc.
  Context {C : Curve} {OR : @Oracles C}.
  Variable L : CurveLaws C.

  (** * The ciphers *)
  Lemma keystream_length : forall k n, length (keystream k n) = n.
  Proof. intros. unfold keystream. rewrite map_length, seq_length. reflexivity. Qed.
  Lemma keystream_firstn : forall k m n, (m <= n)%nat -> firstn m (keystream k n) = keystream k m.
  Proof.
    intros k m n H. unfold keystream. rewrite firstn_map. f_equal.
    replace n with (m + (n - m))%nat by lia. rewrite seq_app. apply firstn_app_len. apply seq_length.
  Qed.
  Lemma poly_tag_length : forall k c, length (poly_tag k c) = 16%nat.
  Proof. intros. apply fit_length. Qed.
  Lemma aead_length : forall k pt, length (aead_encrypt k pt) = (length pt + 16)%nat.
  Proof.
    intros. unfold aead_encrypt. rewrite app_length, xor_bytes_length, poly_tag_length; [reflexivity|].
    rewrite keystream_length. reflexivity.
  Qed.
  Lemma aead_roundtrip : forall n k pt, length pt = n -> aead_decrypt n k (aead_encrypt k pt) = Some pt.
  Proof.
    intros n k pt H. unfold aead_decrypt, aead_encrypt.
    assert (HL : length (xor_bytes pt (keystream k (length pt))) = n)
      by (rewrite xor_bytes_length; [exact H|rewrite keystream_length; reflexivity]).
    rewrite (firstn_app_len _ _ _ _ HL), (skipn_app_len _ _ _ _ HL), bytes_eqb_refl, H.
    rewrite xor_bytes_invol; [reflexivity|]. rewrite keystream_length. exact H.
  Qed.
  Lemma aead_decrypt_some : forall n k ct pt, aead_decrypt n k ct = Some pt ->
    pt = xor_bytes (firstn n ct) (keystream k n) /\ skipn n ct = poly_tag k (firstn n ct).
  Proof.
    intros n k ct pt H. unfold aead_decrypt in H.
    destruct (bytes_eqb (skipn n ct) (poly_tag k (firstn n ct))) eqn:E; [|discriminate H].
    apply bytes_eqb_eq in E. injection H as <-. split; [reflexivity|exact E].
  Qed.

  (** * Plaintexts *)
  Definition header (n : note) : bytes :=
    [x02] ++ ad_d (n_recipient n) ++ note_value_to_bytes (n_value n) ++ n_rseed n.

  Lemma plaintext_header : forall n memo, note_plaintext_bytes n memo = header n ++ memo.
  Proof. intros. unfold note_plaintext_bytes, header. rewrite <- !app_assoc. reflexivity. Qed.
  Lemma header_length : forall n, note_ok n -> length (header n) = 52%nat.
  Proof.
    intros n [[A _] _ _ R]. unfold header, note_value_to_bytes. rewrite !app_length, A, R, le_bytes_length. reflexivity.
  Qed.

  (** Parsing reads only the first 52 bytes. *)
  Lemma parse_prefix : forall rho pt get, (52 <= length pt)%nat ->
    parse_note_plaintext rho (firstn 52 pt) get = parse_note_plaintext rho pt get.
  Proof.
    intros rho pt get H. unfold parse_note_plaintext, compact_note_size.
    rewrite firstn_length, Nat.min_l by exact H.
    rewrite (proj2 (Nat.leb_le 52 (length pt)) H). cbn [Nat.leb assert_ obind].
    rewrite nth_firstn_0 by lia. rewrite !slice_firstn by lia. reflexivity.
  Qed.

  Lemma parse_header : forall n esk cm get, note_ok n -> note_esk n = Ret esk -> commitment n = Ret cm ->
    get (ad_d (n_recipient n)) = ad_pk_d (n_recipient n) ->
    parse_note_plaintext (n_rho n) (header n) get = Ret (Some (n, n_recipient n)).
  Proof.
    intros [[d pk] v rho rs] esk cm get K HE HC HG. pose proof (header_length _ K) as HL.
    destruct K as [[A _] V _ R]. cbn [n_recipient n_value n_rho n_rseed ad_d ad_pk_d] in *.
    unfold parse_note_plaintext, compact_note_size. rewrite HL. cbn [Nat.leb assert_ obind].
    unfold header. cbn [n_recipient n_value n_rho n_rseed ad_d].
    cbn [app nth]. change (Byte.eqb x02 x02) with true. cbn [negb].
    change (x02 :: d ++ note_value_to_bytes v ++ rs) with ([x02] ++ d ++ note_value_to_bytes v ++ rs).
    assert (HV : length (note_value_to_bytes v) = 8%nat) by apply le_bytes_length.
    rewrite (slice_app_r [x02] _ 1 1 12) by (reflexivity || lia).
    rewrite (slice_app_r [x02] _ 1 12 20) by (reflexivity || lia).
    rewrite (slice_app_r [x02] _ 1 20 52) by (reflexivity || lia).
    change (1 - 1)%nat with 0%nat. change (12 - 1)%nat with 11%nat. change (20 - 1)%nat with 19%nat. change (52 - 1)%nat with 51%nat.
    rewrite (slice_app_l d _ 11 A).
    rewrite (slice_app_r d _ 11 11 19 A) by lia. rewrite (slice_app_r d _ 11 19 51 A) by lia.
    change (11 - 11)%nat with 0%nat. change (19 - 11)%nat with 8%nat. change (51 - 11)%nat with 40%nat.
    rewrite (slice_app_l _ rs 8 HV). rewrite (slice_app_r _ rs 8 8 40 HV) by lia.
    change (8 - 8)%nat with 0%nat. change (40 - 8)%nat with 32%nat. rewrite (slice_full rs 32 R).
    assert (ER : rseed_from_bytes rs rho = Some rs).
    { unfold note_esk, rseed_esk in HE. cbn [n_rseed n_rho] in HE. unfold rseed_from_bytes.
      destruct (rseed_esk_inner rs rho); [reflexivity|discriminate HE]. }
    rewrite ER. cbn [optbind]. rewrite HG.
    assert (EV : note_value_from_bytes (note_value_to_bytes v) = v).
    { unfold note_value_from_bytes, note_value_to_bytes. apply le_val_le_bytes. unfold is_u64 in V. 
      change (256 ^ Z.of_nat 8) with (2 ^ 64). lia. }
    rewrite EV. unfold note_from_parts.
    unfold commitment in HC. destruct (commitment_inner (mk_note (mk_address d pk) v rho rs)); [|discriminate HC].
    reflexivity.
  Qed.

  (** * Validity check *)
  Lemma check_valid : forall n cm esk, commitment n = Ret cm -> note_esk n = Ret esk ->
    check_note_validity n (epk_to_bytes (ka_derive_public n esk)) (cmx_to_bytes (cmx_of cm)) = Ret true.
  Proof.
    intros n cm esk HC HE. unfold check_note_validity, cmstar_bytes. rewrite HC. cbn [obind].
    rewrite bytes_eqb_refl, HE. cbn [obind]. rewrite bytes_eqb_refl. reflexivity.
  Qed.

  (** What a successful parse returns. *)
  Lemma parse_some : forall rho pt get r, parse_note_plaintext rho pt get = Ret r -> (52 <= length pt)%nat /\
    forall n to, r = Some (n, to) ->
    to = n_recipient n /\ n_rho n = rho /\ ad_d to = slice 1 12 pt /\ ad_pk_d to = get (slice 1 12 pt) /\
    n_value n = note_value_from_bytes (slice 12 20 pt) /\ n_rseed n = slice 20 52 pt /\
    (exists cm, commitment n = Ret cm) /\ (exists esk, note_esk n = Ret esk /\ is_scalar esk /\ esk <> 0).
  Proof.
    intros rho pt get r H. unfold parse_note_plaintext, compact_note_size in H.
    destruct (Nat.leb 52 (length pt)) eqn:EL; cbn [assert_ obind] in H; [|discriminate H].
    apply Nat.leb_le in EL. split; [exact EL|]. intros n to ->.
    injection H as H.
    destruct (negb (Byte.eqb (nth 0 pt x00) x02)); [discriminate H|].
    destruct (rseed_from_bytes (slice 20 52 pt) rho) as [rs|] eqn:ER; cbn [optbind] in H; [|discriminate H].
    match type of H with context [optbind ?f _] => destruct f as [n'|] eqn:EN end; cbn [optbind] in H; [|discriminate H].
    assert (n' = n) by congruence. subst n'.
    assert (TO : to = mk_address (slice 1 12 pt) (get (slice 1 12 pt))) by congruence. clear H.
    destruct (rseed_from_bytes_spec _ _ _ ER) as [-> EE].
    destruct (from_parts_spec _ _ _ _ _ EN) as [-> EC]. subst to.
    cbn [n_recipient n_rho n_value n_rseed ad_d ad_pk_d].
    split; [reflexivity|]. split; [reflexivity|]. split; [reflexivity|]. split; [reflexivity|]. split; [reflexivity|].
    split; [reflexivity|]. split; [exact EC|]. exact EE.
  Qed.
  Lemma parse_total : forall rho pt get, (52 <= length pt)%nat -> exists r, parse_note_plaintext rho pt get = Ret r.
  Proof.
    intros rho pt get H. unfold parse_note_plaintext, compact_note_size.
    rewrite (proj2 (Nat.leb_le _ _) H). cbn [assert_ obind]. eexists. reflexivity.
  Qed.

  Lemma check_total : forall n epk cb cm esk, commitment n = Ret cm -> note_esk n = Ret esk ->
    exists b, check_note_validity n epk cb = Ret b /\
      (b = true -> cb = cmx_to_bytes (cmx_of cm) /\ epk = epk_to_bytes (ka_derive_public n esk)).
  Proof.
    intros n epk cb cm esk HC HE. unfold check_note_validity, cmstar_bytes. rewrite HC. cbn [obind].
    destruct (bytes_eqb (cmx_to_bytes (cmx_of cm)) cb) eqn:E1.
    - rewrite HE. cbn [obind]. eexists. split; [reflexivity|]. intro E2.
      apply bytes_eqb_eq in E1, E2. split; congruence.
    - exists false. split; [reflexivity|discriminate].
  Qed.

  Lemma cmx_bytes_inj : forall x cm, is_base x -> cmx_to_bytes x = cmx_to_bytes (cmx_of cm) -> pt_x cm = x.
  Proof.
    intros x cm R H. symmetry. apply to_repr_inj_base; [exact R|apply (x_range L)|exact H].
  Qed.

  Lemma from_bytes_u64 : forall b, length b = 8%nat -> is_u64 (note_value_from_bytes b).
  Proof.
    intros b H. unfold note_value_from_bytes, is_u64. pose proof (le_val_range b) as R. rewrite H in R.
    change (256 ^ Z.of_nat 8) with (2 ^ 64) in R. exact R.
  Qed.

  (** The inner step shared by full and compact decryption never panics, and what it accepts
      matches the action data. *)
  Lemma parse_and_check_total : forall rho k epk cb pt, (52 <= length pt)%nat ->
    exists r, parse_and_check_ivk rho k epk cb pt = Ret r.
  Proof.
    intros rho k epk cb pt H. unfold parse_and_check_ivk, parse_ivk.
    destruct (parse_total rho pt (fun d => pk_d_derive k d) H) as [r E]. rewrite E. cbn [obind].
    destruct r as [[n to]|]; [|eexists; reflexivity].
    destruct (parse_some _ _ _ _ E) as [_ P]. destruct (P n to eq_refl) as (_ & _ & _ & _ & _ & _ & [cm HC] & [esk [HE _]]).
    destruct (check_total n epk cb cm esk HC HE) as (b & EB & _). rewrite EB. cbn [obind]. eexists. reflexivity.
  Qed.

  Lemma parse_and_check_some : forall rho k epk x pt n to, gd_fallback_ok -> 0 < k < qmod -> is_base rho -> is_base x ->
    parse_and_check_ivk rho k epk (cmx_to_bytes x) pt = Ret (Some (n, to)) ->
    note_ok n /\ note_matches n rho x epk /\ to = n_recipient n /\ ad_pk_d to = pt_mul k (diversify_hash (ad_d to)).
  Proof.
    intros rho k epk x pt n to GD HK HR HX H. unfold parse_and_check_ivk, parse_ivk in H.
    destruct (parse_note_plaintext rho pt (fun d => pk_d_derive k d)) as [[[n' to']|]|w|] eqn:E; cbn [obind] in H; try discriminate H.
    destruct (parse_some _ _ _ _ E) as [LP P]. destruct (P n' to' eq_refl) as (T & R & D & PK & V & RS & [cm HC] & [esk [HE [HS HN]]]).
    destruct (check_total n' epk (cmx_to_bytes x) cm esk HC HE) as (b & EB & BT). rewrite EB in H. cbn [obind] in H.
    destruct b; [|discriminate H]. assert (n' = n) by congruence. assert (to' = to) by congruence. clear H. subst n to. rename n' into n, to' into to.
    destruct (BT eq_refl) as [B1 B2].
    assert (PK' : ad_pk_d to = pt_mul k (diversify_hash (ad_d to))) by (rewrite PK, D; reflexivity).
    split; [|split; [|split; [exact T|exact PK']]].
    - constructor.
      + rewrite <- T. split.
        * rewrite D. rewrite slice_length by lia. reflexivity.
        * rewrite PK'. apply (mul_nonid L); [exact HK|]. apply (diversify_hash_nonid L). exact GD.
      + rewrite V. apply from_bytes_u64. rewrite slice_length by lia. reflexivity.
      + rewrite R. exact HR.
      + rewrite RS. rewrite slice_length by lia. reflexivity.
    - split; [exact R|]. split.
      + exists cm. split; [exact HC|]. apply cmx_bytes_inj; assumption.
      + exists esk. split; [exact HE|]. split; [exact HS|]. split; [exact HN|]. exact B2.
  Qed.

  Lemma decrypted_length : forall n k ct pt, length ct = (n + 16)%nat -> aead_decrypt n k ct = Some pt -> length pt = n.
  Proof.
    intros n k ct pt HL H. apply aead_decrypt_some in H as [-> _].
    rewrite xor_bytes_length; rewrite firstn_length; [lia|]. rewrite keystream_length. lia.
  Qed.

  (** * C27 *)
  Lemma full_sound : forall A (k : ivk) (a : action A), gd_fallback_ok -> ivk_ok k -> ct_ok (a_ct a) ->
    is_base (a_nf a) -> is_base (a_cmx a) ->
    exists r, try_note_decryption k a = Ret r /\
    forall n to memo, r = Some (n, to, memo) ->
      note_ok n /\ note_matches n (a_nf a) (a_cmx a) (ct_epk (a_ct a)) /\ to = n_recipient n /\
      owned_by k to /\ length memo = 512%nat.
  Proof.
    intros A k a GD [_ HK] CT HN HX. unfold try_note_decryption, try_note_decryption_raw.
    destruct (epk_from_bytes (ct_epk (a_ct a))) as [epk|]; [|eexists; split; [reflexivity|discriminate]].
    unfold try_note_decryption_inner, note_plaintext_size.
    destruct (aead_decrypt 564 _ (ct_enc (a_ct a))) as [pt|] eqn:EA; [|eexists; split; [reflexivity|discriminate]].
    assert (PL : length pt = 564%nat) by (exact (decrypted_length 564 _ _ _ (co_enc _ CT) EA)).
    destruct (parse_and_check_total (a_rho a) (ivk_ivk k) (ct_epk (a_ct a)) (cmx_to_bytes (a_cmx a)) pt ltac:(lia)) as [r E].
    rewrite E. cbn [obind]. eexists. split; [reflexivity|]. intros n to memo HR.
    destruct r as [[n' to']|]; [|discriminate HR].
    assert (n' = n) by congruence. assert (to' = to) by congruence. assert (M : memo = extract_memo pt) by congruence. subst n' to'.
    assert (HK' : 0 < ivk_ivk k < qmod) by (pose proof pmod_lt_qmod; lia).
    destruct (parse_and_check_some _ _ _ _ _ _ _ GD HK' HN HX E) as (K1 & K2 & K3 & K4).
    split; [exact K1|]. split; [exact K2|]. split; [exact K3|]. split; [exact K4|].
    rewrite M. unfold extract_memo. rewrite slice_length by lia. reflexivity.
  Qed.

  Lemma compact_sound : forall (k : ivk) (c : compact_action), gd_fallback_ok -> ivk_ok k ->
    length (c_enc c) = 52%nat -> is_base (c_nf c) -> is_base (c_cmx c) ->
    exists r, try_compact_note_decryption k c = Ret r /\
    forall n to, r = Some (n, to) ->
      note_ok n /\ note_matches n (c_nf c) (c_cmx c) (c_epk c) /\ to = n_recipient n /\ owned_by k to.
  Proof.
    intros k c GD [_ HK] CL HN HX. unfold try_compact_note_decryption, try_compact_decryption_raw.
    destruct (epk_from_bytes (c_epk c)) as [epk|]; [|eexists; split; [reflexivity|discriminate]].
    unfold try_compact_decryption_inner.
    set (pt := stream_decrypt _ _).
    assert (PL : length pt = 52%nat).
    { unfold pt, stream_decrypt. rewrite xor_bytes_length; [exact CL|]. rewrite keystream_length. reflexivity. }
    destruct (parse_and_check_total (rho_from_nf_old (c_nf c)) (ivk_ivk k) (c_epk c) (cmx_to_bytes (c_cmx c)) pt ltac:(lia)) as [r E].
    exists r. split; [exact E|]. intros n to ->.
    assert (HK' : 0 < ivk_ivk k < qmod) by (pose proof pmod_lt_qmod; lia).
    exact (parse_and_check_some _ _ _ _ _ _ _ GD HK' HN HX E).
  Qed.

  Lemma nonid_from_bytes_some : forall b P, nonid_from_bytes b = Some P -> P <> pt_id.
  Proof.
    intros b P H. unfold nonid_from_bytes in H. destruct (pt_decode b) as [Q|]; cbn [optbind] in H; [|discriminate H].
    destruct (pt_is_id Q) eqn:E; [discriminate H|]. injection H as <-. apply (is_id_false L). exact E.
  Qed.

  Lemma recovery_sound : forall A (ovk : bytes) (a : action A), ct_ok (a_ct a) ->
    is_base (a_nf a) -> is_base (a_cmx a) ->
    exists r, try_output_recovery ovk a = Ret r /\
    forall n to memo, r = Some (n, to, memo) ->
      note_ok n /\ note_matches n (a_nf a) (a_cmx a) (ct_epk (a_ct a)) /\ to = n_recipient n /\ length memo = 512%nat.
  Proof.
    intros A ovk a CT HN HX. unfold try_output_recovery, try_output_recovery_with_ock, out_plaintext_size, note_plaintext_size.
    destruct (aead_decrypt 64 _ (ct_out (a_ct a))) as [op|] eqn:EO; [|eexists; split; [reflexivity|discriminate]].
    destruct (extract_pk_d op) as [pk|] eqn:EP; [|eexists; split; [reflexivity|discriminate]].
    destruct (extract_esk op) as [esk|] eqn:EE; [|eexists; split; [reflexivity|discriminate]].
    destruct (aead_decrypt 564 _ (ct_enc (a_ct a))) as [pt|] eqn:EA; [|eexists; split; [reflexivity|discriminate]].
    assert (PL : length pt = 564%nat) by (exact (decrypted_length 564 _ _ _ (co_enc _ CT) EA)).
    unfold parse_ovk.
    destruct (parse_total (a_rho a) pt (fun _ => pk) ltac:(lia)) as [r E]. rewrite E. cbn [obind].
    destruct r as [[n to]|]; [|eexists; split; [reflexivity|discriminate]].
    destruct (parse_some _ _ _ _ E) as [LP P]. destruct (P n to eq_refl) as (T & R & D & PK & V & RS & [cm HC] & [esk' [HE [HS HNZ]]]).
    rewrite HE. cbn [obind]. destruct (negb (esk' =? esk)); [eexists; split; [reflexivity|discriminate]|].
    destruct (check_total n (ct_epk (a_ct a)) (cmx_to_bytes (a_cmx a)) cm esk' HC HE) as (b & EB & BT).
    rewrite EB. cbn [obind]. eexists. split; [reflexivity|]. intros n0 to0 memo HR.
    destruct b; [|discriminate HR]. destruct (BT eq_refl) as [B1 B2].
    assert (n = n0) by congruence. assert (to = to0) by congruence. assert (M : memo = extract_memo pt) by congruence. subst n0 to0.
    split; [|split; [|split; [exact T|]]].
    - constructor.
      + rewrite <- T. split; [rewrite D, slice_length by lia; reflexivity|]. rewrite PK.
        apply (nonid_from_bytes_some _ _ EP).
      + rewrite V. apply from_bytes_u64. rewrite slice_length by lia. reflexivity.
      + rewrite R. exact HN.
      + rewrite RS. rewrite slice_length by lia. reflexivity.
    - split; [exact R|]. split.
      + exists cm. split; [exact HC|]. apply cmx_bytes_inj; assumption.
      + exists esk'. split; [exact HE|]. split; [exact HS|]. split; [exact HNZ|]. exact B2.
    - rewrite M. unfold extract_memo. rewrite slice_length by lia. reflexivity.
  Qed.

  (** * C28 *)
  Lemma compact_agrees : forall A (k : ivk) (a : action A), ct_ok (a_ct a) ->
    (forall n to memo, try_note_decryption k a = Ret (Some (n, to, memo)) ->
       try_compact_note_decryption k (compact_of_action a) = Ret (Some (n, to))) /\
    (forall n to epk, try_compact_note_decryption k (compact_of_action a) = Ret (Some (n, to)) ->
       epk_from_bytes (ct_epk (a_ct a)) = Some epk ->
       let key := dec_key (ivk_ivk k) epk (ct_epk (a_ct a)) in
       (skipn 564 (ct_enc (a_ct a)) = poly_tag key (firstn 564 (ct_enc (a_ct a))) ->
        exists memo, try_note_decryption k a = Ret (Some (n, to, memo)))).
  Proof.
    intros A k a CT.
    assert (KEY : forall rho k' epk cb key ct pt, length ct = 580%nat ->
      aead_decrypt 564 key ct = Some pt ->
      parse_and_check_ivk rho k' epk cb (stream_decrypt key (slice 0 52 ct)) = parse_and_check_ivk rho k' epk cb pt).
    { intros rho k' epk cb key ct pt HL H. apply aead_decrypt_some in H as [-> _].
      assert (X : stream_decrypt key (slice 0 52 ct) = firstn 52 (xor_bytes (firstn 564 ct) (keystream key 564))).
      { unfold stream_decrypt. rewrite slice_length by lia. change (52 - 0)%nat with 52%nat.
        rewrite xor_bytes_firstn, firstn_firstn, keystream_firstn by lia.
        unfold slice. cbn [skipn]. reflexivity. }
      rewrite X. unfold parse_and_check_ivk, parse_ivk. rewrite parse_prefix; [reflexivity|].
      rewrite xor_bytes_length; rewrite firstn_length; [lia|]. rewrite keystream_length. lia. }
    unfold try_note_decryption, try_note_decryption_raw, try_compact_note_decryption, try_compact_decryption_raw,
      try_note_decryption_inner, try_compact_decryption_inner, compact_of_action, a_rho, note_plaintext_size.
    cbn [c_nf c_cmx c_epk c_enc].
    destruct (epk_from_bytes (ct_epk (a_ct a))) as [epk|]; [|split; [intros n to memo H; discriminate H|intros n to epk H E; discriminate E]].
    split.
    - intros n to memo H. destruct (aead_decrypt 564 _ (ct_enc (a_ct a))) as [pt|] eqn:EA; [|discriminate H].
      rewrite (KEY _ _ _ _ _ _ _ (co_enc _ CT) EA).
      destruct (parse_and_check_ivk _ _ _ _ pt) as [[[n' to']|]|w|]; cbn [obind] in H; try discriminate H.
      congruence.
    - intros n to epk' H E T. assert (epk' = epk) by congruence. subst epk'.
      set (key := dec_key (ivk_ivk k) epk (ct_epk (a_ct a))) in *.
      destruct (aead_decrypt 564 key (ct_enc (a_ct a))) as [pt|] eqn:EA.
      + rewrite (KEY _ _ _ _ _ _ _ (co_enc _ CT) EA) in H. rewrite H. cbn [obind]. eexists. reflexivity.
      + unfold aead_decrypt in EA. rewrite T, bytes_eqb_refl in EA. discriminate EA.
  Qed.

  (** * C26 *)
  Lemma esk_ret : forall n esk, note_esk n = Ret esk -> is_scalar esk /\ esk <> 0.
  Proof.
    intros n esk H. unfold note_esk, rseed_esk in H. destruct (rseed_esk_inner _ _) as [x|] eqn:E; [|discriminate H].
    cbn [unwrap] in H. assert (x = esk) by congruence. subst x. apply (esk_inner_some _ _ _ E).
  Qed.

  Lemma encrypts_roundtrip : forall A (ovk : option bytes) n memo r (a : action A),
    gd_fallback_ok -> note_ok n -> length memo = 512%nat -> encrypts ovk n memo r a ->
    ct_ok (a_ct a) /\
    (forall k, ivk_ok k -> owned_by k (n_recipient n) ->
       try_note_decryption k a = Ret (Some (n, n_recipient n, memo)) /\
       try_compact_note_decryption k (compact_of_action a) = Ret (Some (n, n_recipient n))) /\
    (forall o, ovk = Some o -> try_output_recovery o a = Ret (Some (n, n_recipient n, memo))).
  Proof.
    intros A ovk n memo r a GD K ML (e & cm & HE & HC & NF & CX & E1 & E2 & E3).
    unfold encryptor_new in HE. destruct (note_esk n) as [esk|w|] eqn:ES; cbn [obind] in HE; try discriminate HE.
    injection HE as <-. cbn [e_epk] in E1.
    destruct (esk_ret _ _ ES) as [SR SN].
    assert (EB : (0 < esk < qmod)) by (unfold is_scalar in SR; lia).
    unfold encrypt_note_plaintext in E2. cbn [e_esk e_note e_epk e_memo] in E2.
    assert (PL : length (note_plaintext_bytes n memo) = 564%nat).
    { rewrite plaintext_header, app_length, (header_length _ K), ML. reflexivity. }
    assert (OL : length (outgoing_plaintext_bytes n esk) = 64%nat).
    { unfold outgoing_plaintext_bytes. rewrite app_length, encode_length, to_repr_length. reflexivity. }
    assert (CT : ct_ok (a_ct a)).
    { constructor.
      - rewrite E1. apply encode_length.
      - rewrite E2, aead_length, PL. reflexivity.
      - rewrite E3. unfold encrypt_outgoing_plaintext. cbn [e_ovk e_note e_esk e_epk]. destruct ovk as [o|].
        + cbn [fst]. rewrite aead_length, OL. reflexivity.
        + pose proof (rng_bytes_length 32 r) as L1. destruct (rng_bytes 32 r) as [ock r1].
          pose proof (rng_bytes_length 64 r1) as L2. destruct (rng_bytes 64 r1) as [inp r2]. cbn [fst] in *.
          rewrite aead_length, L2. reflexivity. }
    assert (GN : diversify_hash (ad_d (n_recipient n)) <> pt_id) by (apply (diversify_hash_nonid L); exact GD).
    assert (EN : ka_derive_public n esk <> pt_id).
    { unfold ka_derive_public, esk_derive_public, ka_orchard, ad_g_d. apply (mul_nonid L); assumption. }
    assert (ED : epk_from_bytes (ct_epk (a_ct a)) = Some (ka_derive_public n esk)).
    { rewrite E1. unfold epk_from_bytes, epk_to_bytes. apply (proj1 (nonid_codec C L)). exact EN. }
    assert (PP : forall get, get (ad_d (n_recipient n)) = ad_pk_d (n_recipient n) ->
      parse_note_plaintext (a_rho a) (note_plaintext_bytes n memo) get = Ret (Some (n, n_recipient n))).
    { intros get HG. unfold a_rho, rho_from_nf_old. rewrite NF. rewrite <- parse_prefix by lia.
      rewrite plaintext_header, (firstn_app_len _ _ _ _ (header_length _ K)). apply (parse_header n esk cm); assumption. }
    assert (MM : extract_memo (note_plaintext_bytes n memo) = memo).
    { rewrite plaintext_header. unfold extract_memo. rewrite (slice_app_r _ _ 52 52 564 (header_length _ K)) by lia.
      change (52 - 52)%nat with 0%nat. change (564 - 52)%nat with 512%nat. apply slice_full. exact ML. }
    assert (CK : check_note_validity n (ct_epk (a_ct a)) (cmx_to_bytes (a_cmx a)) = Ret true).
    { rewrite E1, CX. apply check_valid; assumption. }
    split; [exact CT|]. split.
    - intros k [_ KR] OW.
      assert (FULL : try_note_decryption k a = Ret (Some (n, n_recipient n, memo))).
      { unfold try_note_decryption, try_note_decryption_raw. rewrite ED.
        assert (KE : dec_key (ivk_ivk k) (ka_derive_public n esk) (ct_epk (a_ct a)) =
                     enc_key esk (ad_pk_d (n_recipient n)) (epk_to_bytes (ka_derive_public n esk))).
        { rewrite E1. unfold dec_key, enc_key. f_equal. unfold owned_by in OW. rewrite OW.
          unfold epk_agree, esk_agree, ka_orchard, ka_derive_public, esk_derive_public, ka_orchard, ad_g_d.
          apply (mul_comm_scalar L). }
        rewrite KE. unfold try_note_decryption_inner, note_plaintext_size. rewrite E2, (aead_roundtrip 564 _ _ PL).
        unfold parse_and_check_ivk, parse_ivk. rewrite (PP (fun d => pk_d_derive (ivk_ivk k) d)) by (symmetry; exact OW).
        cbn [obind]. rewrite CK. cbn [obind]. rewrite MM. reflexivity. }
      split; [exact FULL|]. apply (proj1 (compact_agrees A k a CT) _ _ _ FULL).
    - intros o ->. unfold try_output_recovery, try_output_recovery_with_ock.
      rewrite E3. unfold encrypt_outgoing_plaintext. cbn [e_ovk e_note e_esk e_epk fst].
      rewrite E1. rewrite (aead_roundtrip _ _ _ OL).
      unfold extract_pk_d, extract_esk, outgoing_plaintext_bytes.
      rewrite (slice_app_l _ _ 32 (encode_length _)).
      rewrite (proj2 (proj1 (nonid_codec C L) _ (proj2 (no_recipient _ K)))).
      rewrite (slice_app_r _ _ 32 32 64 (encode_length _)) by lia. change (32 - 32)%nat with 0%nat. change (64 - 32)%nat with 32%nat.
      rewrite (slice_full _ _ (to_repr_length esk)).
      unfold esk_from_bytes, nonzero_scalar_from_bytes. rewrite (scalar_from_to _ SR). cbn [optbind].
      unfold nonzero. rewrite (proj2 (Z.eqb_neq esk 0) SN). unfold note_plaintext_size.
      rewrite E2, (aead_roundtrip 564 _ _ PL). unfold parse_ovk. rewrite (PP (fun _ => ad_pk_d (n_recipient n)) eq_refl).
      cbn [obind]. rewrite ES. cbn [obind]. rewrite Z.eqb_refl. cbn [negb].
      rewrite <- E1, CK. cbn [obind]. rewrite MM. reflexivity.
  Qed.
End NoteEnc.
