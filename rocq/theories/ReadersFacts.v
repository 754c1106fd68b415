(** Readers of an output agree (C83); a signature belongs to one message (C84). *)
From Coq Require Import String ZArith List Bool Lia.
From Coq Require Import Init.Byte.
From Verif Require Import Prelude Fields Curve Oracles Sinsemilla RedPallas Value Keys Note Action NoteEnc Bundle
  KeysSpec SinsSpec NoteSpec NoteEncSpec BundleSpec ReadersSpec
  PreludeFacts FieldFacts CurveFacts KeysFacts NoteFacts NoteEncFacts BundleFacts SchnorrFacts.
Import ListNotations.
Open Scope Z_scope.

Section Readers.
  Context {C : Curve} {OR : @Oracles C} (L : CurveLaws C).
  #[local] Opaque commitment note_esk blake2b aead_decrypt hstar pt_encode qmod pmod.

  (** What both full readers know: the note, and the plaintext under the key of the note itself. *)
  Lemma reads_inv : forall A (a : action A) n to memo, gd_fallback_ok -> action_ok a -> reads a (n, to, memo) ->
    note_ok n /\ note_matches n (a_nf a) (a_cmx a) (ct_epk (a_ct a)) /\ to = n_recipient n /\
    exists esk pt, note_esk n = Ret esk /\
      aead_decrypt 564 (kdf_orchard (pt_mul esk (ad_pk_d (n_recipient n))) (ct_epk (a_ct a))) (ct_enc (a_ct a)) = Some pt /\
      memo = extract_memo pt.
  Proof.
    intros A a n to memo GD [HN HX HC] R.
    remember (n, to, memo) as p eqn:EP. destruct R as [k p K D|ovk p D]; subst p.
    - destruct (full_sound L _ k a GD K HC HN HX) as (r & E & S). rewrite D in E. injection E as <-.
      destruct (S n to memo eq_refl) as (N & M & T & O & _). split; [exact N|]. split; [exact M|]. split; [exact T|].
      destruct M as (_ & _ & esk & HE & RE & NE & EPK). exists esk.
      unfold try_note_decryption, try_note_decryption_raw in D.
      destruct (epk_from_bytes (ct_epk (a_ct a))) as [epk|] eqn:EB; [|discriminate D].
      assert (Q : epk = pt_mul esk (diversify_hash (ad_d (n_recipient n)))).
      { unfold epk_from_bytes, nonid_from_bytes in EB. rewrite EPK, (decode_encode L) in EB. cbn [optbind] in EB.
        destruct (pt_is_id _) in EB; [discriminate EB|]. injection EB as <-. reflexivity. }
      unfold try_note_decryption_inner, note_plaintext_size in D.
      destruct (aead_decrypt 564 _ (ct_enc (a_ct a))) as [pt|] eqn:EA; [|discriminate D].
      exists pt. split; [exact HE|]. split.
      + rewrite <- EA. unfold dec_key, epk_agree, ka_orchard. unfold owned_by in O. rewrite T in O. rewrite O, Q.
        rewrite <- !(mul_mul L), (Z.mul_comm (ivk_ivk k)). reflexivity.
      + destruct (parse_and_check_ivk _ _ _ _ pt) as [[[n0 to0]|]|w|]; cbn [obind] in D; try discriminate D.
        congruence.
    - destruct (recovery_sound L _ ovk a HC HN HX) as (r & E & S). rewrite D in E. injection E as <-.
      destruct (S n to memo eq_refl) as (N & M & T & _). split; [exact N|]. split; [exact M|]. split; [exact T|].
      unfold try_output_recovery, try_output_recovery_with_ock, out_plaintext_size, note_plaintext_size in D.
      destruct (aead_decrypt 64 _ (ct_out (a_ct a))) as [op|]; [|discriminate D].
      destruct (extract_pk_d op) as [pk|]; [|discriminate D].
      destruct (extract_esk op) as [esk|]; [|discriminate D].
      destruct (aead_decrypt 564 _ (ct_enc (a_ct a))) as [pt|] eqn:EA; [|discriminate D].
      unfold parse_ovk in D.
      destruct (parse_note_plaintext (a_rho a) pt (fun _ => pk)) as [[[n0 to0]|]|w|] eqn:EPN; cbn [obind] in D; try discriminate D.
      destruct (note_esk n0) as [esk'|w|] eqn:HE; cbn [obind] in D; try discriminate D.
      destruct (esk' =? esk) eqn:EQ; cbn [negb] in D; [|discriminate D]. apply Z.eqb_eq in EQ. subst esk'.
      destruct (check_note_validity n0 _ _) as [[]|w|]; cbn [obind] in D; try discriminate D.
      assert (n0 = n) by congruence. assert (to0 = to) by congruence. assert (M0 : memo = extract_memo pt) by congruence. subst n0 to0.
      destruct (parse_some _ _ _ _ EPN) as [_ P]. destruct (P n to eq_refl) as (_ & _ & _ & PK & _).
      exists esk, pt. split; [exact HE|]. split; [|exact M0].
      rewrite <- T, PK. exact EA.
  Qed.

  (** Two notes an action can be about. *)
  Lemma matches_agree : forall n n' rho cmx epk, note_ok n -> note_ok n' ->
    note_matches n rho cmx epk -> note_matches n' rho cmx epk -> n = n' \/ ambiguous n n'.
  Proof.
    intros n n' rho cmx epk K K' (R & (cm & HC & X) & _) (R' & (cm' & HC' & X') & _).
    destruct (same_cmx L n n' cm cm' K K' HC HC' (eq_trans X (eq_sym X'))) as [[E RC]|E]; [|right; left; exact E].
    unfold note_contents in E. injection E as E1 E2 E3 E4 E5.
    destruct (list_eq_dec Byte.byte_eq_dec (ad_d (n_recipient n)) (ad_d (n_recipient n'))) as [D|D];
      [|right; right; left; split; assumption].
    destruct (list_eq_dec Byte.byte_eq_dec (n_rseed n) (n_rseed n')) as [S|S];
      [|right; right; right; split; [exact S|split; [exact E4|split; assumption]]].
    left. destruct n as [[d pk] v rho0 rs], n' as [[d' pk'] v' rho0' rs']. cbn [n_recipient n_value n_rho n_rseed ad_d ad_pk_d] in *.
    subst. reflexivity.
  Qed.

  Lemma readers_agree : forall A (a : action A) n to memo n' to' memo', gd_fallback_ok -> action_ok a ->
    reads a (n, to, memo) -> reads a (n', to', memo') ->
    (n, to, memo) = (n', to', memo') \/ ambiguous n n'.
  Proof.
    intros A a n to memo n' to' memo' GD AO R R'.
    destruct (reads_inv _ _ _ _ _ GD AO R) as (K & M & T & esk & pt & HE & EA & MM).
    destruct (reads_inv _ _ _ _ _ GD AO R') as (K' & M' & T' & esk' & pt' & HE' & EA' & MM').
    destruct (matches_agree _ _ _ _ _ K K' M M') as [E|E]; [left|right; exact E].
    subst n'. rewrite HE in HE'. injection HE' as <-. rewrite EA in EA'. injection EA' as <-. subst. reflexivity.
  Qed.

  Lemma reads_note_inv : forall A (a : action A) n to, gd_fallback_ok -> action_ok a -> reads_note a (n, to) ->
    note_ok n /\ note_matches n (a_nf a) (a_cmx a) (ct_epk (a_ct a)) /\ to = n_recipient n.
  Proof.
    intros A a n to GD AO R. remember (n, to) as q eqn:EQ. destruct R as [[[n0 to0] memo] R|k p K D].
    - cbn [fst] in EQ. injection EQ as -> ->. destruct (reads_inv _ _ _ _ _ GD AO R) as (K & M & T & _). auto.
    - subst p. destruct AO as [HN HX HC].
      destruct (compact_sound L k (compact_of_action a) GD K) as (r & E & S); [|exact HN|exact HX|].
      { cbn [compact_of_action c_enc]. apply slice_length; [lia|]. rewrite (co_enc _ HC). lia. }
      rewrite D in E. injection E as <-. destruct (S n to eq_refl) as (N & M & T & _). auto.
  Qed.

  Lemma note_readers_agree : forall A (a : action A) n to n' to', gd_fallback_ok -> action_ok a ->
    reads_note a (n, to) -> reads_note a (n', to') -> (n, to) = (n', to') \/ ambiguous n n'.
  Proof.
    intros A a n to n' to' GD AO R R'.
    destruct (reads_note_inv _ _ _ _ GD AO R) as (K & M & T). destruct (reads_note_inv _ _ _ _ GD AO R') as (K' & M' & T').
    destruct (matches_agree _ _ _ _ _ K K' M M') as [E|E]; [left|right; exact E]. subst. reflexivity.
  Qed.

  (** Only one incoming viewing key reads an output. *)
  Lemma one_reader : forall A (a : action A) k k' n to n' to', gd_fallback_ok -> action_ok a -> ivk_ok k -> ivk_ok k' ->
    try_compact_note_decryption k (compact_of_action a) = Ret (Some (n, to)) ->
    try_compact_note_decryption k' (compact_of_action a) = Ret (Some (n', to')) ->
    ivk_ivk k = ivk_ivk k' \/ ambiguous n n'.
  Proof.
    intros A a k k' n to n' to' GD AO K K' D D'.
    assert (LE : length (c_enc (compact_of_action a)) = 52%nat).
    { cbn [compact_of_action c_enc]. apply slice_length; [lia|]. rewrite (co_enc _ (ao_ct _ AO)). lia. }
    destruct (compact_sound L k (compact_of_action a) GD K LE (ao_nf _ AO) (ao_cmx _ AO)) as (r & E & S).
    destruct (compact_sound L k' (compact_of_action a) GD K' LE (ao_nf _ AO) (ao_cmx _ AO)) as (r' & E' & S').
    rewrite D in E. rewrite D' in E'. injection E as <-. injection E' as <-.
    destruct (S n to eq_refl) as (N & M & T & O). destruct (S' n' to' eq_refl) as (N' & M' & T' & O').
    destruct (matches_agree _ _ _ _ _ N N' M M') as [Q|Q]; [left|right; exact Q]. subst n' to to'.
    unfold owned_by in O, O'. rewrite O in O'. apply (mul_inj L) in O'; [|apply (diversify_hash_nonid L); exact GD].
    destruct K as [_ K], K' as [_ K']. pose proof pmod_lt_qmod. rewrite !Z.mod_small in O' by lia. exact O'.
  Qed.

  (** * C84 *)
  Lemma one_message : forall t vk m m' s, vk <> pt_id -> verify t vk m s = true -> verify t vk m' s = true ->
    m = m' \/ challenge_collision vk s m m'.
  Proof.
    intros t vk m m' s V H H'. destruct (list_eq_dec Byte.byte_eq_dec m m') as [E|E]; [left; exact E|right].
    unfold challenge_collision. split.
    - intro X. apply app_inv_head in X. apply app_inv_head in X. contradiction.
    - apply (verify_spec L) in H as (R & sc & D & S & EQ). apply (verify_spec L) in H' as (R' & sc' & D' & S' & EQ').
      assert (R' = R) by congruence. assert (sc' = sc) by congruence. subst R' sc'. rewrite EQ in EQ'.
      unfold vk_to_bytes in EQ'.
      apply (f_equal (pt_add (pt_neg R))) in EQ'. rewrite !(add_assoc L), !(add_neg_l L), !(add_id_l L) in EQ'.
      apply (mul_inj L _ _ _ V) in EQ'. rewrite !Z.mod_small in EQ' by apply hstar_range. exact EQ'.
  Qed.

  Lemma spend_signature_stays : forall V (into : V -> Z) (b b' : bundle authorized signature V) hv a a' sh sh',
    bundle_valid hv into b sh -> bundle_valid hv into b' sh' ->
    In a (b_actions b) -> In a' (b_actions b') -> a_rk a = a_rk a' -> a_auth a = a_auth a' -> a_rk a <> pt_id ->
    sh = sh' \/ challenge_collision (a_rk a) (a_auth a) sh sh'.
  Proof.
    intros V into b b' hv a a' sh sh' (H & _) (H' & _) I I' RK AU NZ.
    pose proof (H _ I) as S. pose proof (H' _ I') as S'. rewrite <- RK, <- AU in S'.
    exact (one_message _ _ _ _ _ NZ S S').
  Qed.

  Lemma binding_signature_stays : forall V (into : V -> Z) (b b' : bundle authorized signature V) hv bvk sh sh',
    bundle_valid hv into b sh -> bundle_valid hv into b' sh' ->
    binding_validating_key into b = Ret bvk -> binding_validating_key into b' = Ret bvk -> bvk <> pt_id ->
    au_binding_sig (b_auth b) = au_binding_sig (b_auth b') ->
    sh = sh' \/ challenge_collision bvk (au_binding_sig (b_auth b)) sh sh'.
  Proof.
    intros V into b b' hv bvk sh sh' (_ & (k & E & S) & _) (_ & (k' & E' & S') & _) B B' NZ AU.
    assert (k = bvk) by congruence. assert (k' = bvk) by congruence. subst k k'. rewrite <- AU in S'.
    exact (one_message _ _ _ _ _ NZ S S').
  Qed.

  (** With the sighash computed from the bundle commitment. *)
  Lemma signatures_fix_effects : forall V (into : V -> Z) (b b' : bundle authorized signature V) hv a a' (msg : bytes -> bytes),
    (forall v w, into v = into w -> v = w) -> bundle_ok into b -> bundle_ok into b' ->
    bundle_valid hv into b (msg (bundle_commitment into b)) -> bundle_valid hv into b' (msg (bundle_commitment into b')) ->
    In a (b_actions b) -> In a' (b_actions b') -> a_rk a = a_rk a' -> a_auth a = a_auth a' -> a_rk a <> pt_id ->
    effects b = effects b' \/ txid_collision into b b' \/
    challenge_collision (a_rk a) (a_auth a) (msg (bundle_commitment into b)) (msg (bundle_commitment into b')) \/
    (bundle_commitment into b <> bundle_commitment into b' /\ msg (bundle_commitment into b) = msg (bundle_commitment into b')).
  Proof.
    intros V into b b' hv a a' msg INJ K K' H H' I I' RK AU NZ.
    destruct (list_eq_dec Byte.byte_eq_dec (bundle_commitment into b) (bundle_commitment into b')) as [E|E].
    - destruct (commitment_binds L _ _ _ _ _ into b b' INJ K K' E) as [Q|Q]; [left; exact Q|right; left; exact Q].
    - destruct (spend_signature_stays _ _ _ _ _ _ _ _ _ H H' I I' RK AU NZ) as [Q|Q]; right; right; [right; split; assumption|left; exact Q].
  Qed.
End Readers.
