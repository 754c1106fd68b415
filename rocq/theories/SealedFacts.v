(** Proofs for C91. *)
From Coq Require Import String ZArith List Bool Lia.
From Coq Require Import Init.Byte.
From Verif Require Import Prelude Fields Curve Oracles Sinsemilla RedPallas Value Keys Note Action NoteEnc KeysSpec NoteSpec NoteEncSpec
  PrfSpec EncKeySpec BundleSpec ReadersSpec SealedSpec
  PreludeFacts CurveFacts CodecFacts KeysFacts NoteFacts NoteEncFacts BundleFacts EncKeyFacts ReadersFacts.
Import ListNotations.
Open Scope Z_scope.

Lemma firstn_slices : forall (pt : bytes), (52 <= length pt)%nat ->
  firstn 52 pt = nth 0 pt x00 :: slice 1 12 pt ++ slice 12 20 pt ++ slice 20 52 pt.
Proof.
  intros pt H. unfold slice. destruct pt as [|b pt]; [cbn [length] in H; lia|].
  cbn [nth]. change (firstn 52 (b :: pt)) with (b :: firstn 51 pt). f_equal.
  change (skipn 1 (b :: pt)) with pt. change (skipn 12 (b :: pt)) with (skipn 11 pt).
  change (skipn 20 (b :: pt)) with (skipn 19 pt). change (12 - 1)%nat with 11%nat. change (20 - 12)%nat with 8%nat. change (52 - 20)%nat with 32%nat.
  assert (X : forall a c (l : bytes), firstn (a + c) l = firstn a l ++ firstn c (skipn a l)).
  { intros a c l. revert a. induction l as [|x l IH]; intros [|a]; cbn [Nat.add firstn skipn app]; rewrite ?firstn_nil; try reflexivity.
    rewrite IH. reflexivity. }
  assert (Y : skipn 19 pt = skipn 8 (skipn 11 pt)).
  { clear H. assert (Z : forall a c (l : bytes), skipn (c + a) l = skipn c (skipn a l)).
    { intros a c l. revert a. induction l as [|x l IH]; intros [|a]; rewrite ?skipn_nil, ?Nat.add_0_r; try reflexivity.
      rewrite Nat.add_succ_r. cbn [skipn]. apply IH. }
    exact (Z 11%nat 8%nat pt). }
  rewrite Y. rewrite <- (X 8%nat 32%nat (skipn 11 pt)). exact (X 11%nat 40%nat pt).
Qed.

Section Sealed.
  Context {C : Curve} {OR : @Oracles C} (L : CurveLaws C).

  Lemma plaintext_is : forall n memo, plaintext n memo = header n ++ memo.
  Proof. intros. unfold plaintext, header. cbn [app]. rewrite <- !app_assoc. reflexivity. Qed.

  (** What parses as a note is the header of that note. *)
  Lemma parse_is_header : forall rho pt get n to, parse_note_plaintext rho pt get = Ret (Some (n, to)) ->
    firstn 52 pt = header n.
  Proof.
    intros rho pt get n to H. destruct (parse_some _ _ _ _ H) as [PL P].
    destruct (P n to eq_refl) as (T & _ & D & _ & V & RS & _).
    rewrite (firstn_slices pt PL). unfold header. rewrite <- T, D, V, RS.
    assert (EV : note_value_to_bytes (note_value_from_bytes (slice 12 20 pt)) = slice 12 20 pt).
    { unfold note_value_to_bytes, note_value_from_bytes. apply le_bytes_le_val. rewrite slice_length by lia. reflexivity. }
    rewrite EV. cbn [app]. f_equal.
    unfold parse_note_plaintext, compact_note_size in H.
    rewrite (proj2 (Nat.leb_le 52 (length pt)) PL) in H. cbn [assert_ obind] in H.
    destruct (Byte.eqb (nth 0 pt x00) x02) eqn:EB; [|discriminate H].
    apply (proj1 (Byte.byte_dec_bl _ _ EB)) || exact (Byte.byte_dec_bl _ _ EB).
  Qed.

  (** A ciphertext that opens is the encryption of what it opens to. *)
  Lemma aead_decrypt_is : forall n k ct pt, length ct = (n + 16)%nat -> aead_decrypt n k ct = Some pt ->
    ct = aead_encrypt k pt.
  Proof.
    intros n k ct pt HL H. pose proof (decrypted_length _ _ _ _ HL H) as PL.
    apply aead_decrypt_some in H as [-> T]. unfold aead_encrypt. rewrite PL.
    rewrite xor_bytes_invol by (rewrite keystream_length, firstn_length; lia).
    rewrite <- T. symmetry. apply firstn_skipn.
  Qed.

  Lemma opened_plaintext : forall rho pt get n to, length pt = 564%nat ->
    parse_note_plaintext rho pt get = Ret (Some (n, to)) -> pt = plaintext n (extract_memo pt).
  Proof.
    intros rho pt get n to PL H. rewrite plaintext_is, <- (parse_is_header _ _ _ _ _ H).
    unfold extract_memo, slice. change (564 - 52)%nat with 512%nat.
    rewrite (firstn_all2 (skipn 52 pt)) by (rewrite skipn_length; lia). symmetry. apply firstn_skipn.
  Qed.

  #[local] Opaque parse_note_plaintext check_note_validity commitment note_esk blake2b pt_encode qmod pmod.

  Lemma parse_of_check : forall rho k epk cb pt n to, parse_and_check_ivk rho k epk cb pt = Ret (Some (n, to)) ->
    parse_note_plaintext rho pt (fun d => pk_d_derive k d) = Ret (Some (n, to)).
  Proof.
    intros rho k epk cb pt n to H. unfold parse_and_check_ivk, parse_ivk in H.
    destruct (parse_note_plaintext rho pt _) as [[[n' to']|]|w|]; cbn [obind] in H; try discriminate H.
    destruct (check_note_validity _ _ _) as [[]|w|]; cbn [obind] in H; try discriminate H. congruence.
  Qed.

  (** The key agreed on from the recipient's side is the key of the note. *)
  Lemma agreed_key : forall k n rho cmx epkb epk, note_matches n rho cmx epkb -> owned_by k (n_recipient n) ->
    epk_from_bytes epkb = Some epk -> dec_key (ivk_ivk k) epk epkb = note_key n (secret_of n).
  Proof.
    intros k n rho cmx epkb epk (_ & _ & esk & HE & _ & _ & EPK) O EB.
    destruct (esk_is_secret _ _ HE) as (SE & _). rewrite <- SE.
    assert (Q : epk = pt_mul esk (diversify_hash (ad_d (n_recipient n)))).
    { unfold epk_from_bytes, nonid_from_bytes in EB. rewrite EPK, (decode_encode L) in EB. cbn [optbind] in EB.
      destruct (pt_is_id _) in EB; [discriminate EB|]. injection EB as <-. reflexivity. }
    unfold dec_key, note_key, note_key_input, ephemeral, kdf_orchard, epk_agree, ka_orchard.
    unfold owned_by in O. rewrite O, EPK, Q. rewrite <- !(mul_mul L), (Z.mul_comm (ivk_ivk k)). reflexivity.
  Qed.

  Lemma sealed_encrypts : forall A (a : action A) ovk n memo r, sealed a n memo -> sealed_for_sender ovk a n ->
    encrypts (Some ovk) n memo r a.
  Proof.
    intros A a ovk n memo r (K & ML & (R & (cm & HC & X) & esk & HE & _ & _ & EPK) & EN) OUT.
    destruct (esk_is_secret _ _ HE) as (SE & _).
    exists (mk_encryptor (Some ovk) n memo esk (ka_derive_public n esk)), cm.
    split; [unfold encryptor_new; rewrite HE; reflexivity|]. split; [exact HC|]. split; [symmetry; exact R|]. split; [symmetry; exact X|].
    split; [exact EPK|]. split.
    - rewrite EN, <- SE. reflexivity.
    - unfold sealed_for_sender in OUT. rewrite OUT, <- SE. unfold encrypt_outgoing_plaintext. cbn [e_ovk e_note e_esk e_epk fst].
      unfold out_key, out_key_input. rewrite EPK. reflexivity.
  Qed.

  Lemma encrypts_sealed : forall A (a : action A) ovk n memo r, note_ok n -> length memo = 512%nat ->
    encrypts (Some ovk) n memo r a -> sealed a n memo /\ sealed_for_sender ovk a n.
  Proof.
    intros A a ovk n memo r K ML H. destruct (ciphertext_keys _ _ _ _ _ _ H) as (E1 & E2 & E3).
    split; [|exact (E3 ovk eq_refl)]. split; [exact K|]. split; [exact ML|]. split; [|exact E2].
    destruct H as (e & cm & HE & HC & NF & CX & _).
    unfold encryptor_new in HE. destruct (note_esk n) as [esk|w|] eqn:ES; cbn [obind] in HE; try discriminate HE.
    destruct (esk_is_secret _ _ ES) as (SE & SR & SN).
    split; [symmetry; exact NF|]. split; [exists cm; split; [exact HC|symmetry; exact CX]|].
    exists esk. split; [exact ES|]. split; [exact SR|]. split; [exact SN|]. rewrite E1, SE. reflexivity.
  Qed.

  (** A sealed note is read with any key that owns its recipient. *)
  Lemma sealed_parse : forall n memo get, note_ok n -> (exists cm, commitment n = Ret cm) -> (exists esk, note_esk n = Ret esk) ->
    length memo = 512%nat -> get (ad_d (n_recipient n)) = ad_pk_d (n_recipient n) ->
    parse_note_plaintext (n_rho n) (plaintext n memo) get = Ret (Some (n, n_recipient n)).
  Proof.
    intros n memo get K [cm HC] [esk HE] ML HG.
    rewrite <- parse_prefix by (rewrite plaintext_is, app_length, (header_length _ K); lia).
    rewrite plaintext_is, (firstn_app_len _ _ _ _ (header_length _ K)). apply (parse_header n esk cm); assumption.
  Qed.
  Lemma sealed_memo : forall n memo, note_ok n -> length memo = 512%nat -> extract_memo (plaintext n memo) = memo.
  Proof.
    intros n memo K ML. rewrite plaintext_is. unfold extract_memo. rewrite (slice_app_r _ _ 52 52 564 (header_length _ K)) by lia.
    change (52 - 52)%nat with 0%nat. change (564 - 52)%nat with 512%nat. apply slice_full. exact ML.
  Qed.
  Lemma plaintext_length : forall n memo, note_ok n -> length memo = 512%nat -> length (plaintext n memo) = 564%nat.
  Proof. intros n memo K ML. rewrite plaintext_is, app_length, (header_length _ K), ML. reflexivity. Qed.
  Lemma matches_check : forall n rho cmx epk, note_matches n rho cmx epk ->
    check_note_validity n epk (cmx_to_bytes cmx) = Ret true.
  Proof. intros n rho cmx epk (_ & (cm & HC & <-) & esk & HE & _ & _ & ->). apply (check_valid n cm esk HC HE). Qed.
  Lemma matches_epk : forall n rho cmx epk, gd_fallback_ok -> note_matches n rho cmx epk ->
    exists P, epk_from_bytes epk = Some P.
  Proof.
    intros n rho cmx epk GD (_ & _ & esk & _ & SR & SN & ->). eexists. unfold epk_from_bytes. apply (proj1 (nonid_codec C L)).
    apply (mul_nonid L); [unfold is_scalar in SR; lia|]. apply (diversify_hash_nonid L). exact GD.
  Qed.

  Lemma sealed_read : forall A (k : ivk) (a : action A) n memo, gd_fallback_ok -> sealed a n memo -> owned_by k (n_recipient n) ->
    try_note_decryption k a = Ret (Some (n, n_recipient n, memo)).
  Proof.
    intros A k a n memo GD (K & ML & M & EN) O.
    unfold try_note_decryption, try_note_decryption_raw. destruct (matches_epk _ _ _ _ GD M) as [epk EB]. rewrite EB.
    rewrite (agreed_key _ _ _ _ _ _ M O EB). unfold try_note_decryption_inner, note_plaintext_size.
    rewrite EN, (aead_roundtrip 564 _ _ (plaintext_length _ _ K ML)). unfold parse_and_check_ivk, parse_ivk.
    pose proof M as (R & (cm & HC & _) & esk & HE & _). unfold a_rho, rho_from_nf_old. rewrite <- R.
    rewrite (sealed_parse n memo _ K) by (eauto || (symmetry; exact O)). cbn [obind].
    rewrite (matches_check _ _ _ _ M). cbn [obind]. rewrite (sealed_memo _ _ K ML). reflexivity.
  Qed.

  Lemma read_exactly : forall A (k : ivk) (a : action A) n to memo, gd_fallback_ok -> ivk_ok k -> action_ok a ->
    (try_note_decryption k a = Ret (Some (n, to, memo)) <->
     sealed a n memo /\ to = n_recipient n /\ owned_by k to).
  Proof.
    intros A k a n to memo GD K [HN HX HC]. split.
    - intro D. destruct (full_sound L _ k a GD K HC HN HX) as (r & E & S). rewrite D in E. injection E as <-.
      destruct (S n to memo eq_refl) as (N & M & T & O & ML). split; [|split; [exact T|exact O]].
      split; [exact N|]. split; [exact ML|]. split; [exact M|]. rewrite T in O.
      unfold try_note_decryption, try_note_decryption_raw in D.
      destruct (epk_from_bytes (ct_epk (a_ct a))) as [epk|] eqn:EB; [|discriminate D].
      rewrite (agreed_key _ _ _ _ _ _ M O EB) in D.
      unfold try_note_decryption_inner, note_plaintext_size in D.
      destruct (aead_decrypt 564 _ (ct_enc (a_ct a))) as [pt|] eqn:EA; [|discriminate D].
      pose proof (decrypted_length 564 _ _ _ (co_enc _ HC) EA) as PL.
      destruct (parse_and_check_ivk _ _ _ _ pt) as [[[n0 to0]|]|w|] eqn:EP; cbn [obind] in D; try discriminate D.
      assert (n0 = n) by congruence. assert (MM : memo = extract_memo pt) by congruence. subst n0.
      rewrite MM, <- (opened_plaintext _ _ _ _ _ PL (parse_of_check _ _ _ _ _ _ _ EP)).
      exact (aead_decrypt_is 564 _ _ _ (co_enc _ HC) EA).
    - intros (S & T & O). subst to. exact (sealed_read _ k a n memo GD S O).
  Qed.

  (** The compact form. *)
  Lemma compact_read_exactly : forall (k : ivk) (c : compact_action) n to, gd_fallback_ok -> ivk_ok k ->
    length (c_enc c) = 52%nat -> is_base (c_nf c) -> is_base (c_cmx c) ->
    (try_compact_note_decryption k c = Ret (Some (n, to)) <->
     compact_sealed c n /\ to = n_recipient n /\ owned_by k to).
  Proof.
    intros k c n to GD K CL HN HX. split.
    - intro D. destruct (compact_sound L k c GD K CL HN HX) as (r & E & S). rewrite D in E. injection E as <-.
      destruct (S n to eq_refl) as (N & M & T & O). split; [|split; [exact T|exact O]].
      split; [exact N|]. split; [exact M|]. rewrite T in O.
      unfold try_compact_note_decryption, try_compact_decryption_raw in D.
      destruct (epk_from_bytes (c_epk c)) as [epk|] eqn:EB; [|discriminate D].
      rewrite (agreed_key _ _ _ _ _ _ M O EB) in D. unfold try_compact_decryption_inner in D.
      apply parse_of_check, parse_is_header in D. unfold stream_decrypt in D. rewrite CL in D.
      rewrite firstn_all2 in D by (rewrite xor_bytes_length; [lia|rewrite keystream_length; exact CL]).
      rewrite plaintext_is, app_nil_r, <- D. rewrite xor_bytes_invol; [reflexivity|]. rewrite keystream_length. exact CL.
    - intros ((N & M & EN) & T & O). subst to.
      unfold try_compact_note_decryption, try_compact_decryption_raw. destruct (matches_epk _ _ _ _ GD M) as [epk EB]. rewrite EB.
      rewrite (agreed_key _ _ _ _ _ _ M O EB). unfold try_compact_decryption_inner, stream_decrypt. rewrite CL, EN.
      rewrite plaintext_is, app_nil_r. rewrite xor_bytes_invol by (rewrite keystream_length; exact (header_length _ N)).
      unfold parse_and_check_ivk, parse_ivk. pose proof M as (R & (cm & HC & _) & esk & HE & _).
      unfold rho_from_nf_old. rewrite <- R.
      rewrite (parse_header n esk cm _ N HE HC) by (symmetry; exact O). cbn [obind].
      rewrite (matches_check _ _ _ _ M). reflexivity.
  Qed.

  (** The sender. *)
  Lemma recover_exactly : forall A (ovk : bytes) (a : action A) n to memo, gd_fallback_ok -> action_ok a ->
    (try_output_recovery ovk a = Ret (Some (n, to, memo)) <->
     sealed a n memo /\ to = n_recipient n /\ sealed_for_sender ovk a n).
  Proof.
    intros A ovk a n to memo GD [HN HX HC]. split.
    - intro D. destruct (recovery_sound L _ ovk a HC HN HX) as (r & E & S). rewrite D in E. injection E as <-.
      destruct (S n to memo eq_refl) as (N & M & T & ML).
      rewrite (recovery_key _ ovk a) in D.
      unfold try_output_recovery_with_ock, out_plaintext_size, note_plaintext_size in D.
      destruct (aead_decrypt 64 _ (ct_out (a_ct a))) as [op|] eqn:EO; [|discriminate D].
      destruct (extract_pk_d op) as [pk|] eqn:EPK; [|discriminate D].
      destruct (extract_esk op) as [esk|] eqn:EES; [|discriminate D].
      destruct (aead_decrypt 564 _ (ct_enc (a_ct a))) as [pt|] eqn:EA; [|discriminate D].
      unfold parse_ovk in D.
      destruct (parse_note_plaintext (a_nf a) pt (fun _ => pk)) as [[[n0 to0]|]|w|] eqn:EPN; cbn [obind] in D; try discriminate D.
      destruct (note_esk n0) as [esk'|w|] eqn:HE; cbn [obind] in D; try discriminate D.
      destruct (esk' =? esk) eqn:EQ; cbn [negb] in D; [|discriminate D]. apply Z.eqb_eq in EQ. subst esk'.
      destruct (check_note_validity n0 _ _) as [[]|w|]; cbn [obind] in D; try discriminate D.
      assert (n0 = n) by congruence. assert (to0 = to) by congruence. assert (M0 : memo = extract_memo pt) by congruence. subst n0 to0.
      destruct (parse_some _ _ _ _ EPN) as [_ P]. destruct (P n to eq_refl) as (_ & _ & _ & PK & _).
      destruct (esk_is_secret _ _ HE) as (SE & _).
      pose proof (decrypted_length 564 _ _ _ (co_enc _ HC) EA) as PL.
      pose proof (decrypted_length 64 _ _ _ (co_out _ HC) EO) as OL.
      assert (EPKB : ct_epk (a_ct a) = pt_encode (ephemeral n (secret_of n))).
      { destruct M as (_ & _ & e & HE' & _ & _ & X). rewrite HE in HE'. injection HE' as <-. rewrite X, SE. reflexivity. }
      split; [|split; [exact T|]].
      + split; [exact N|]. split; [exact ML|]. split; [exact M|].
        rewrite M0, <- (opened_plaintext _ _ _ _ _ PL EPN).
        assert (KE : enc_key esk pk (ct_epk (a_ct a)) = note_key n (secret_of n)).
        { unfold enc_key, note_key, note_key_input, kdf_orchard, esk_agree, ka_orchard. rewrite <- T, PK, EPKB, SE. reflexivity. }
        rewrite KE in EA. exact (aead_decrypt_is 564 _ _ _ (co_enc _ HC) EA).
      + unfold sealed_for_sender. rewrite (aead_decrypt_is 64 _ _ _ (co_out _ HC) EO). f_equal.
        unfold out_plaintext. rewrite <- T, PK, <- SE.
        unfold extract_pk_d in EPK. unfold extract_esk, esk_from_bytes, nonzero_scalar_from_bytes in EES.
        destruct (scalar_from_repr (slice 32 64 op)) as [e|] eqn:ESC; cbn [optbind] in EES; [|discriminate EES].
        apply nonzero_some in EES as [-> _].
        apply scalar_to_from in ESC as [_ ESC]; [|rewrite slice_length by lia; reflexivity]. rewrite ESC.
        apply (proj2 (nonid_codec C L)) in EPK; [|rewrite slice_length by lia; reflexivity].
        assert (EPK' : pt_encode pk = slice 0 32 op) by apply EPK. rewrite EPK'.
        unfold slice. change (32 - 0)%nat with 32%nat. change (64 - 32)%nat with 32%nat. cbn [skipn].
        rewrite (firstn_all2 (skipn 32 op)) by (rewrite skipn_length; lia). symmetry. apply firstn_skipn.
    - intros ((K & ML & M & EN) & T & OUT). subst to. rewrite (recovery_key _ ovk a).
      pose proof M as (R & (cm & HC' & _) & esk & HE & SR & SN & EPK). destruct (esk_is_secret _ _ HE) as (SE & _).
      unfold try_output_recovery_with_ock, out_plaintext_size, note_plaintext_size.
      rewrite OUT, aead_roundtrip by (unfold out_plaintext; rewrite app_length, encode_length, to_repr_length; reflexivity).
      rewrite <- SE. unfold extract_pk_d, extract_esk, out_plaintext.
      rewrite (slice_app_l _ _ 32 (encode_length _)).
      rewrite (proj2 (proj1 (nonid_codec C L) _ (proj2 (no_recipient _ K)))).
      rewrite (slice_app_r _ _ 32 32 64 (encode_length _)) by lia. change (32 - 32)%nat with 0%nat. change (64 - 32)%nat with 32%nat.
      rewrite (slice_full _ _ (to_repr_length esk)).
      unfold esk_from_bytes, nonzero_scalar_from_bytes. rewrite (scalar_from_to _ SR). cbn [optbind].
      unfold nonzero. rewrite (proj2 (Z.eqb_neq esk 0) SN).
      assert (KE : enc_key esk (ad_pk_d (n_recipient n)) (ct_epk (a_ct a)) = note_key n (secret_of n)).
      { rewrite EPK. unfold enc_key, note_key, note_key_input, kdf_orchard, esk_agree, ka_orchard, ephemeral. rewrite SE. reflexivity. }
      rewrite KE, EN, (aead_roundtrip 564 _ _ (plaintext_length _ _ K ML)). unfold parse_ovk. rewrite <- R.
      rewrite (sealed_parse n memo _ K) by eauto. cbn [obind]. rewrite HE. cbn [obind]. rewrite Z.eqb_refl. cbn [negb].
      change (to_repr (a_cmx a)) with (cmx_to_bytes (a_cmx a)).
      rewrite (matches_check _ _ _ _ M). cbn [obind]. rewrite (sealed_memo _ _ K ML). reflexivity.
  Qed.

  Lemma recover_iff_encrypted : forall A (ovk : bytes) (a : action A) n memo (r : rng), gd_fallback_ok -> action_ok a ->
    note_ok n -> length memo = 512%nat ->
    (try_output_recovery ovk a = Ret (Some (n, n_recipient n, memo)) <-> encrypts (Some ovk) n memo r a).
  Proof.
    intros A ovk a n memo r GD AO K ML. rewrite (recover_exactly _ ovk a n _ memo GD AO). split.
    - intros (S & _ & O). exact (sealed_encrypts _ _ _ _ _ _ S O).
    - intro H. destruct (encrypts_sealed _ _ _ _ _ _ K ML H) as [S O]. split; [exact S|]. split; [reflexivity|exact O].
  Qed.

  (** Everything public about an output but its value commitment, rk and outgoing ciphertext follows from what is read. *)
  Lemma one_ciphertext : forall A A' (k k' : ivk) (a : action A) (a' : action A') n to to' memo,
    gd_fallback_ok -> ivk_ok k -> ivk_ok k' -> action_ok a -> action_ok a' ->
    try_note_decryption k a = Ret (Some (n, to, memo)) -> try_note_decryption k' a' = Ret (Some (n, to', memo)) ->
    a_nf a = a_nf a' /\ a_cmx a = a_cmx a' /\ ct_epk (a_ct a) = ct_epk (a_ct a') /\ ct_enc (a_ct a) = ct_enc (a_ct a').
  Proof.
    intros A A' k k' a a' n to to' memo GD K K' O O' D D'.
    apply (read_exactly _ k a n to memo GD K O) in D as ((_ & _ & (R & (cm & HC & X) & e & HE & _ & _ & E) & EN) & _).
    apply (read_exactly _ k' a' n to' memo GD K' O') in D' as ((_ & _ & (R' & (cm' & HC' & X') & e' & HE' & _ & _ & E') & EN') & _).
    split; [congruence|]. split; [congruence|]. split; [|congruence].
    rewrite E, E'. rewrite HE in HE'. injection HE' as <-. reflexivity.
  Qed.
End Sealed.
