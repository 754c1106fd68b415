(** Proofs for C77. *)
From Coq Require Import String ZArith List Bool Lia.
From Coq Require Import Init.Byte.
From Verif Require Import Prelude Fields Curve Oracles Sinsemilla RedPallas Value Keys Note Action NoteEnc KeysSpec NoteSpec NoteEncSpec PrfSpec EncKeySpec
  PreludeFacts CurveFacts CodecFacts KeysFacts NoteFacts NoteEncFacts BundleFacts.
Import ListNotations.
Open Scope Z_scope.

Section Facts.
  Context {C : Curve} {OR : @Oracles C} (L : CurveLaws C).

  Lemma esk_is_secret : forall n esk, note_esk n = Ret esk -> esk = secret_of n /\ is_scalar esk /\ esk <> 0.
  Proof.
    intros n esk H. unfold note_esk, rseed_esk, rseed_esk_inner in H.
    destruct (nonzero _) as [y|] eqn:E; [|discriminate H]. injection H as ->. apply nonzero_some in E as [-> NZ].
    split; [|split; [apply to_scalar_range|exact NZ]].
    unfold secret_of, prf64, prf_expand, prf_expand_input. cbn [prf_use_input List.concat app]. rewrite app_nil_r. reflexivity.
  Qed.

  Lemma ciphertext_keys : forall A (ovk : option bytes) n memo r (a : action A), encrypts ovk n memo r a ->
    ct_epk (a_ct a) = pt_encode (ephemeral n (secret_of n)) /\
    ct_enc (a_ct a) = aead_encrypt (note_key n (secret_of n)) (plaintext n memo) /\
    (forall o, ovk = Some o -> ct_out (a_ct a) = aead_encrypt (out_key o a) (out_plaintext n (secret_of n))).
  Proof.
    intros A ovk n memo r a (e & cm & HE & HC & NF & CX & E1 & E2 & E3).
    unfold encryptor_new in HE. destruct (note_esk n) as [esk|w|] eqn:ES; cbn [obind] in HE; try discriminate HE.
    injection HE as <-. destruct (esk_is_secret _ _ ES) as (SE & _). rewrite <- SE.
    cbn [e_epk] in E1. unfold encrypt_note_plaintext in E2. cbn [e_esk e_note e_epk e_memo] in E2.
    split; [exact E1|]. split; [exact E2|]. intros o ->. rewrite E3. unfold encrypt_outgoing_plaintext. cbn [e_ovk e_note e_esk e_epk fst].
    unfold out_key, out_key_input. rewrite E1. reflexivity.
  Qed.

  Lemma recovery_key : forall A (o : bytes) (a : action A),
    try_output_recovery o a =
    try_output_recovery_with_ock (a_nf a) (out_key o a) (ct_epk (a_ct a)) (to_repr (a_cmx a)) (ct_enc (a_ct a)) (ct_out (a_ct a)).
  Proof. reflexivity. Qed.

  Lemma out_keys : forall A A' (o o' : bytes) (a : action A) (a' : action A'),
    length o = 32%nat -> length o' = 32%nat -> is_base (a_cmx a) -> is_base (a_cmx a') ->
    out_key o a = out_key o' a' ->
    (o = o' /\ a_cv a = a_cv a' /\ a_cmx a = a_cmx a' /\ ct_epk (a_ct a) = ct_epk (a_ct a')) \/
    same_digest "Zcash_Orchardock" (out_key_input o a) (out_key_input o' a').
  Proof.
    intros A A' o o' a a' LO LO' B B' H.
    destruct (list_eq_dec Byte.byte_eq_dec (out_key_input o a) (out_key_input o' a')) as [E|N]; [|right; split; assumption].
    left. unfold out_key_input in E.
    apply app_inj_len in E as [E1 E]; [|rewrite LO, LO'; reflexivity].
    apply app_inj_len in E as [E2 E]; [|rewrite !encode_length; reflexivity].
    apply app_inj_len in E as [E3 E]; [|rewrite !to_repr_length; reflexivity].
    split; [exact E1|]. split; [exact (encode_inj L _ _ E2)|]. split; [|exact E]. apply to_repr_inj_base; assumption.
  Qed.

  Lemma note_keys : forall n n' esk esk', note_ok n -> note_ok n' -> gd_fallback_ok ->
    note_esk n = Ret esk -> note_esk n' = Ret esk' ->
    note_key n (secret_of n) = note_key n' (secret_of n') ->
    (n_rho n = n_rho n' /\ n_rseed n = n_rseed n' /\ ad_pk_d (n_recipient n) = ad_pk_d (n_recipient n') /\
     diversify_hash (ad_d (n_recipient n)) = diversify_hash (ad_d (n_recipient n'))) \/
    same_digest "Zcash_OrchardKDF" (note_key_input n (secret_of n)) (note_key_input n' (secret_of n')) \/
    same_secret n n' \/ base_relation n n'.
  Proof.
    intros n n' esk esk' K K' GD ES ES' H.
    destruct (esk_is_secret _ _ ES) as (SE & SR & SN). destruct (esk_is_secret _ _ ES') as (SE' & SR' & SN').
    rewrite SE in SR, SN. rewrite SE' in SR', SN'. clear SE SE' ES ES'.
    destruct (list_eq_dec Byte.byte_eq_dec (note_key_input n (secret_of n)) (note_key_input n' (secret_of n'))) as [E|N];
      [|right; left; split; assumption].
    unfold note_key_input in E. apply app_inj_len in E as [E1 E2]; [|rewrite !encode_length; reflexivity].
    apply (encode_inj L) in E1, E2. unfold ephemeral in E2.
    destruct (pt_eqb (diversify_hash (ad_d (n_recipient n))) (diversify_hash (ad_d (n_recipient n')))) eqn:G.
    - apply (pt_eqb_spec C L) in G. rewrite <- G in E2.
      apply (mul_inj L) in E2; [|apply (diversify_hash_nonid L); exact GD].
      rewrite !Z.mod_small in E2 by assumption.
      destruct (list_eq_dec Byte.byte_eq_dec (n_rseed n) (n_rseed n')) as [F|F];
        [destruct (Z.eq_dec (n_rho n) (n_rho n')) as [F'|F']|].
      + left. split; [exact F'|]. split; [exact F|]. split; [|exact G].
        rewrite <- E2 in E1. apply (mul_inj_point L (secret_of n)); [|exact E1].
        rewrite Z.mod_small by assumption. exact SN.
      + right; right; left. split; [congruence|exact E2].
      + right; right; left. split; [congruence|exact E2].
    - right; right; right. split; [|exact E2]. intro X. apply (pt_eqb_spec C L) in X. congruence.
  Qed.
End Facts.
