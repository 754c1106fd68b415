(** Proofs for C78: the model computes the functions of ProtocolSpec. *)
From Coq Require Import String ZArith List Bool Lia.
From Coq Require Import Init.Byte.
From Verif Require Import Prelude PreludeFacts Fields Curve CurveFacts Oracles Sinsemilla RedPallas Value Keys Note
  Tree TreeFacts Action NoteEnc Bundle KeysSpec CodecFacts SinsFacts KeysFacts Zip32 ProtocolSpec.
Import ListNotations.
Open Scope Z_scope.

Lemma i2lebsp_le_bits : forall n v, I2LEBSP n v = le_bits n v.
Proof. intros. unfold I2LEBSP. rewrite le_bits_testbit. reflexivity. Qed.

Lemma lebs2ip_bits_val : forall l, LEBS2IP l = bits_val l.
Proof.
  induction l as [|b l IH]; [reflexivity|]. unfold LEBS2IP in *. cbn [fold_right bits_val]. rewrite IH. destruct b; reflexivity.
Qed.

Lemma i2leosp_from : forall n s v, map (fun i => byte_of_Z (v / 256 ^ Z.of_nat i)) (seq s n) = le_bytes n (v / 256 ^ Z.of_nat s).
Proof.
  induction n as [|n IH]; intros; [reflexivity|]. cbn [seq map le_bytes]. rewrite IH. do 2 f_equal.
  rewrite pow256_S, Z.mul_comm, Z.div_div; [reflexivity|pose proof (pow256_pos s); lia|lia].
Qed.

Lemma i2leosp_le_bytes : forall n v, I2LEOSP n v = le_bytes n v.
Proof. intros. unfold I2LEOSP. rewrite i2leosp_from. f_equal. change (256 ^ Z.of_nat 0) with 1. apply Z.div_1_r. Qed.

Lemma leos2ip_le_val : forall l, LEOS2IP l = le_val l.
Proof. induction l as [|b l IH]; [reflexivity|]. unfold LEOS2IP in *. cbn [fold_right le_val]. rewrite IH. reflexivity. Qed.

Lemma bits_val_zeroes : forall n, bits_val (repeat false n) = 0.
Proof. induction n as [|n IH]; [reflexivity|]. cbn [repeat bits_val]. rewrite IH. reflexivity. Qed.

(** The value of a window of a zero-padded string is that of the window of the string. *)
Lemma window_pad : forall a k m n, bits_val (firstn k (skipn a (m ++ repeat false n))) = bits_val (firstn k (skipn a m)).
Proof.
  intros. rewrite skipn_app, firstn_app, bits_val_app.
  assert (E : forall b c d, bits_val (firstn b (skipn c (repeat false d))) = 0).
  { intros b c d. destruct (Nat.le_gt_cases c d) as [Hc|Hc].
    - replace d with (c + (d - c))%nat by lia. rewrite repeat_app, skipn_app_len by apply repeat_length.
      destruct (Nat.le_gt_cases b (d - c)) as [Hb|Hb].
      + replace (d - c)%nat with (b + (d - c - b))%nat by lia. rewrite repeat_app, firstn_app_len by apply repeat_length.
        apply bits_val_zeroes.
      + rewrite firstn_all2 by (rewrite repeat_length; lia). apply bits_val_zeroes.
    - rewrite skipn_all2 by (rewrite repeat_length; lia). rewrite firstn_nil. reflexivity. }
  rewrite E. lia.
Qed.

Lemma sins_words_map : forall n k m,
  map (fun i => bits_val (firstn 10 (skipn (10 * i) m))) (seq k n) = sins_words n (skipn (10 * k) m).
Proof.
  induction n as [|n IH]; intros; [reflexivity|]. cbn [seq map sins_words]. rewrite IH, skipn_skipn.
  do 3 f_equal. lia.
Qed.

Lemma msg_words_pieces : forall m, msg_words m = map (piece m) (seq 0 ((length m + 9) / 10)).
Proof.
  intros. unfold msg_words. destruct (pad_length m) as (n & E & En). rewrite E, <- En.
  replace (10 * n / 10)%nat with n by (rewrite Nat.mul_comm, Nat.div_mul by lia; reflexivity).
  transitivity (map (fun i => bits_val (firstn 10 (skipn (10 * i) (sins_pad m)))) (seq 0 n)).
  { symmetry. exact (sins_words_map n 0 (sins_pad m)). }
  apply map_ext. intros i. unfold piece, sins_pad. rewrite window_pad. symmetry. apply lebs2ip_bits_val.
Qed.

Lemma le_bytes_mod8 : forall v, le_bytes 8 (v mod 2 ^ 64) = le_bytes 8 v.
Proof.
  intros. apply le_val_inj; [rewrite !le_bytes_length; reflexivity|]. rewrite !le_val_le_bytes_mod.
  change (256 ^ Z.of_nat 8) with (2 ^ 64). rewrite Z.mod_mod by discriminate. reflexivity.
Qed.

Lemma slice_halves : forall l, length l = 64%nat -> slice 0 32 l ++ slice 32 64 l = l.
Proof.
  intros l H. rewrite (slice_app 0 32 64) by lia. apply slice_full. exact H.
Qed.

Lemma ToScalar_eq : forall b, ToScalar b = to_scalar b.
Proof. intros. reflexivity. Qed.
Lemma ToBase_eq : forall b, ToBase b = to_base b.
Proof. intros. reflexivity. Qed.

#[local] Opaque msg_words LEOS2IP LEBS2IP I2LEOSP I2LEBSP.

Section Facts.
  Context {C : Curve} {OR : @Oracles C}.

  Lemma spec_Q : forall D, SinsemillaQ D = sins_Q D. Proof. reflexivity. Qed.
  Lemma spec_S : forall j, SinsemillaS j = sins_S j.
  Proof. intros. unfold SinsemillaS. rewrite i2leosp_le_bytes. reflexivity. Qed.

  Lemma spec_step : forall acc w, incomplete (incomplete acc (Some (SinsemillaS w))) acc = sins_step acc w.
  Proof.
    intros. rewrite spec_S. destruct acc as [a|]; [|reflexivity].
    unfold sins_step, inc_add, pt_is_id. cbn [optbind incomplete].
    destruct (pt_eqb a pt_id || pt_eqb (sins_S w) pt_id || (pt_x a =? pt_x (sins_S w))); reflexivity.
  Qed.

  Lemma fold_spec : forall l m acc,
    fold_left (fun Acc i => incomplete (incomplete Acc (Some (SinsemillaS (piece m i)))) Acc) l acc =
    fold_left sins_step (map (piece m) l) acc.
  Proof. induction l as [|i l IH]; intros; [reflexivity|]. cbn [fold_left map]. rewrite spec_step. apply IH. Qed.

  Lemma spec_hash_to_point : forall D M, SinsemillaHashToPoint D M = sins_hash_to_point D M.
  Proof.
    intros. unfold SinsemillaHashToPoint, sins_hash_to_point, sins_hash_words. rewrite fold_spec, msg_words_pieces. reflexivity.
  Qed.
  Lemma spec_hash : forall D M, SinsemillaHash D M = sins_hash D M.
  Proof. intros. unfold SinsemillaHash, sins_hash. rewrite spec_hash_to_point. destruct (sins_hash_to_point D M); reflexivity. Qed.
  Lemma spec_commit : forall r D M, SinsemillaCommit r D M = sins_commit D M r.
  Proof. intros. unfold SinsemillaCommit, sins_commit. rewrite spec_hash_to_point. destruct (sins_hash_to_point _ M); reflexivity. Qed.
  Lemma spec_short : forall r D M, SinsemillaShortCommit r D M = sins_short_commit D M r.
  Proof. intros. unfold SinsemillaShortCommit, sins_short_commit. rewrite spec_commit. destruct (sins_commit D M r); reflexivity. Qed.

  #[local] Opaque sins_hash sins_commit sins_short_commit sins_hash_to_point.

  Lemma sinsemilla_is_spec :
    (forall D M, sins_hash_to_point D M = SinsemillaHashToPoint D M) /\
    (forall D M, sins_hash D M = SinsemillaHash D M) /\
    (forall D M r, sins_commit D M r = SinsemillaCommit r D M) /\
    (forall D M r, sins_short_commit D M r = SinsemillaShortCommit r D M).
  Proof.
    split; [intros; symmetry; apply spec_hash_to_point|]. split; [intros; symmetry; apply spec_hash|].
    split; [intros; symmetry; apply spec_commit|intros; symmetry; apply spec_short].
  Qed.

  Lemma combine_is_crh : forall l a b, (l < 32)%nat -> combine l a b = MerkleCRH (31 - l) a b.
  Proof.
    intros. unfold combine, MerkleCRH, merkle_msg. rewrite spec_hash, !i2lebsp_le_bits.
    replace (32 - 1 - Z.of_nat (31 - l)) with (Z.of_nat l) by lia. reflexivity.
  Qed.

  Lemma root_loop_above : forall sibs pos l node, 0 <= pos -> (l + length sibs <= 32)%nat ->
    root_loop pos l node sibs = root_above (31 - l) (pos / 2 ^ Z.of_nat l) node sibs.
  Proof.
    induction sibs as [|s sibs IH]; intros pos l nd Hp Hl; [reflexivity|].
    cbn [root_loop root_above length] in *. rewrite land_even, !(combine_is_crh l) by lia.
    rewrite IH by lia. replace (31 - S l)%nat with (31 - l - 1)%nat by lia.
    replace (pos / 2 ^ Z.of_nat (S l)) with (pos / 2 ^ Z.of_nat l / 2); [reflexivity|].
    rewrite pow2_S, Z.mul_comm, Z.div_div; [reflexivity|pose proof (pow2_pos l); lia|lia].
  Qed.

  Lemma merkle_is_spec :
    (forall l a b, (l < 32)%nat -> combine l a b = MerkleCRH (31 - l) a b) /\
    (forall pos path cmx, 0 <= pos -> length path = 32%nat -> mp_root (mk_path pos path) cmx = root_above 31 pos cmx path).
  Proof.
    split; [exact combine_is_crh|]. intros. unfold mp_root. cbn [mp_position mp_auth_path].
    rewrite root_loop_above by lia. f_equal. change (2 ^ Z.of_nat 0) with 1. apply Z.div_1_r.
  Qed.

  Lemma repr_value_eq : forall P, repr_value P = pt_x P + 2 ^ 255 * (pt_y P mod 2).
  Proof. intros. unfold repr_value. rewrite <- odd_mod2. destruct (Z.odd (pt_y P)); cbn [Z.b2z]; lia. Qed.
  Lemma repr_bytes_eq : forall P, repr_bytes P = pt_encode P.
  Proof. intros. unfold repr_bytes, pt_encode. rewrite i2leosp_le_bytes, repr_value_eq. reflexivity. Qed.
  Lemma repr_bits_eq : forall P, repr_bits P = bytes_bits (pt_encode P).
  Proof. intros. unfold repr_bits, pt_encode. rewrite bytes_bits_le_bytes, i2lebsp_le_bits, repr_value_eq. reflexivity. Qed.
  Lemma i2leosp_repr : forall x, I2LEOSP 32 x = to_repr x.
  Proof. intros. apply i2leosp_le_bytes. Qed.

  Lemma spec_note_commit : forall g p v rho psi rcm,
    NoteCommit rcm (repr_bits g) (repr_bits p) v rho psi = note_commitment_derive (pt_encode g) (pt_encode p) v rho psi rcm.
  Proof.
    intros. unfold NoteCommit, note_commitment_derive, note_commit_msg, note_value_bits, base_bits, l_orchard_base.
    rewrite spec_commit, !repr_bits_eq, !i2lebsp_le_bits, (bytes_bits_le_bytes 8). reflexivity.
  Qed.

  Lemma prf_spec : forall k d t, PRFexpand k (d :: t) = prf_expand k d [t].
  Proof. intros. unfold PRFexpand, prf_expand, prf_expand_input. cbn [List.concat app]. rewrite app_nil_r. reflexivity. Qed.
  Lemma prf_spec0 : forall k d, PRFexpand k [d] = prf_expand k d [].
  Proof. intros. unfold PRFexpand, prf_expand, prf_expand_input. cbn [List.concat app]. reflexivity. Qed.
  Lemma prf_spec2 : forall k d t u, PRFexpand k (d :: t ++ u) = prf_expand k d [t; u].
  Proof. intros. unfold PRFexpand, prf_expand, prf_expand_input. cbn [List.concat app]. rewrite app_nil_r. reflexivity. Qed.

  Lemma psi_eq : forall r rho, spec_psi r rho = rseed_psi r rho.
  Proof. intros. unfold spec_psi, rseed_psi, ToBase, to_base, rho_to_bytes. rewrite prf_spec, leos2ip_le_val, i2leosp_repr. reflexivity. Qed.
  Lemma rcm_eq : forall r rho, spec_rcm r rho = rseed_rcm r rho.
  Proof. intros. unfold spec_rcm, rseed_rcm, ToScalar, to_scalar, rho_to_bytes. rewrite prf_spec, leos2ip_le_val, i2leosp_repr. reflexivity. Qed.

  Lemma gd_eq : forall d, DiversifyHash d = diversify_hash d. Proof. reflexivity. Qed.

  Lemma nullifier_eq : forall nk rho psi cm, nf_derive nk rho psi cm = Ret (DeriveNullifier nk rho psi cm).
  Proof.
    intros. unfold nf_derive. rewrite mod_r_p_ret by (apply Z.mod_pos_bound; reflexivity). reflexivity.
  Qed.

  Lemma notes_are_spec :
    (forall n, commitment_inner n =
       NoteCommit (spec_rcm (n_rseed n) (n_rho n)) (repr_bits (DiversifyHash (ad_d (n_recipient n))))
         (repr_bits (ad_pk_d (n_recipient n))) (n_value n) (n_rho n) (spec_psi (n_rseed n) (n_rho n))) /\
    (forall n cm, commitment n = Ret cm <-> commitment_inner n = Some cm) /\
    (forall n f cm, commitment n = Ret cm ->
       note_nullifier n f = Ret (DeriveNullifier (fvk_nk f) (n_rho n) (spec_psi (n_rseed n) (n_rho n)) cm)).
  Proof.
    split; [|split].
    - intros. rewrite spec_note_commit, psi_eq, rcm_eq. reflexivity.
    - intros. unfold commitment. destruct (commitment_inner n); cbn [unwrap]; split; congruence.
    - intros n f cm H. unfold note_nullifier. rewrite H. cbn [obind]. rewrite nullifier_eq, psi_eq. reflexivity.
  Qed.

  Lemma num_rev : forall X a, fold_left (fun a (b : bool) => 2 * a + (if b then 1 else 0)) X a =
    bits_val (rev X) + 2 ^ Z.of_nat (length X) * a.
  Proof.
    induction X as [|b X IH]; intros; [cbn [fold_left rev bits_val length]; change (2 ^ Z.of_nat 0) with 1; lia|].
    cbn [fold_left rev length]. rewrite IH, bits_val_app, rev_length, pow2_S. destruct b; cbn [bits_val Z.b2z]; lia.
  Qed.
  Lemma num_eq : forall X, NUM X = bits_val (rev X).
  Proof. intros. unfold NUM. rewrite num_rev. lia. Qed.

  Lemma str_rev : forall m x, STR m x = rev (le_bits m x).
  Proof.
    intros m x. rewrite le_bits_testbit, <- map_rev. unfold STR.
    rewrite <- (map_map (fun i => (m - 1 - i)%nat) (fun i => Z.testbit x (Z.of_nat i))). f_equal.
    apply nth_ext with (d := 0%nat) (d' := 0%nat); [rewrite map_length, rev_length; reflexivity|].
    intros n Hn. rewrite map_length, seq_length in Hn.
    rewrite (nth_indep _ 0%nat (m - 1 - 0)%nat) by (rewrite map_length, seq_length; exact Hn).
    rewrite (map_nth (fun i => (m - 1 - i)%nat)), seq_nth by exact Hn.
    rewrite rev_nth by (rewrite seq_length; exact Hn). rewrite seq_length, seq_nth by lia. lia.
  Qed.

  Lemma rounds_eq : forall key n i A B, length A = 44%nat -> length B = 44%nat ->
    let AB := fold_left (ff1_round key) (seq i n) (A, B) in
    length (fst AB) = 44%nat /\ length (snd AB) = 44%nat /\
    ff1_enc_rounds key i n (NUM A, NUM B) = (NUM (fst AB), NUM (snd AB)).
  Proof.
    intros key. induction n as [|n IH]; intros i A B HA HB; cbn [seq fold_left].
    - cbn [fst snd]. split; [exact HA|]. split; [exact HB|reflexivity].
    - cbn [ff1_round ff1_enc_rounds]. 
      assert (HL : length (STR 44 ((NUM A + o_ff1 key i (NUM B)) mod 2 ^ 44)) = 44%nat)
        by (unfold STR; rewrite map_length; apply seq_length).
      destruct (IH (S i) B (STR 44 ((NUM A + o_ff1 key i (NUM B)) mod 2 ^ 44)) HB HL) as (H1 & H2 & H3).
      split; [exact H1|]. split; [exact H2|]. etransitivity; [|exact H3]. f_equal. f_equal.
      rewrite (num_eq (STR 44 _)), str_rev, rev_involutive, bits_val_le_bits; [reflexivity|].
      apply Z.mod_pos_bound. reflexivity.
  Qed.

  Lemma rev_bits_num : forall X, length X = 44%nat -> rev_bits 44 (NUM X) = bits_val X.
  Proof.
    intros X H. unfold rev_bits. rewrite num_eq, le_bits_bits_val by (rewrite rev_length; exact H).
    rewrite rev_involutive. reflexivity.
  Qed.

  Lemma diversifier_is_spec : forall dk j, length j = 11%nat -> dk_get dk j = spec_diversifier dk j.
  Proof.
    intros dk j Hj. unfold dk_get, spec_diversifier. rewrite i2leosp_le_bytes. f_equal.
    change (LEOS2IP j) with (le_val j). rewrite i2lebsp_le_bits. unfold FF1.
    set (X := le_bits 88 (le_val j)).
    assert (EX : X = le_bits 44 (le_val j) ++ le_bits 44 (le_val j / ff1_half)) by exact (le_bits_app 44 44 (le_val j)).
    assert (E1 : firstn 44 X = le_bits 44 (le_val j)) by (rewrite EX; apply firstn_app_len, le_bits_length).
    assert (E2 : skipn 44 X = le_bits 44 (le_val j / ff1_half)) by (rewrite EX; apply skipn_app_len, le_bits_length).
    rewrite E1, E2.
    assert (ES : ff1_split (le_val j) = (NUM (le_bits 44 (le_val j)), NUM (le_bits 44 (le_val j / ff1_half)))).
    { unfold ff1_split, rev_bits. rewrite !num_eq. f_equal. unfold ff1_half. change 44 with (Z.of_nat 44).
      rewrite le_bits_mod. reflexivity. }
    rewrite ES.
    destruct (rounds_eq dk 10 0 (le_bits 44 (le_val j)) (le_bits 44 (le_val j / ff1_half)) (le_bits_length _ _) (le_bits_length _ _))
      as (H1 & H2 & H3).
    rewrite H3. destruct (fold_left _ _ _) as [A B]. cbn [fst snd] in *.
    unfold ff1_join. cbn [fst snd]. rewrite !rev_bits_num by assumption.
    change (LEBS2IP (A ++ B)) with (bits_val (A ++ B)). rewrite bits_val_app, H1. reflexivity.
  Qed.

  Lemma digests_are_spec :
    (forall T S V (into : V -> Z) (sig : S -> bytes) (b : bundle T S V),
       Forall (fun a => length (ct_enc (a_ct a)) = 580%nat) (b_actions b) ->
       bundle_commitment into b =
       orchard_digest (map (on_wire sig) (b_actions b))
         (byte_of_Z ((if spends_enabled (b_flags b) then 1 else 0) + (if outputs_enabled (b_flags b) then 2 else 0)))
         (I2LEOSP 8 (into (b_value_balance b))) (I2LEOSP 32 (b_anchor b))) /\
    (forall V (b : bundle authorized signature V),
       let sig := fun s : signature => sig_r s ++ sig_s s in
       authorizing_commitment b =
       orchard_auth_digest (au_proof (b_auth b)) (map (on_wire sig) (b_actions b)) (sig (au_binding_sig (b_auth b)))) /\
    txid_empty = blake2b 32 "ZTxIdOrchardHash" [] /\ auth_empty = blake2b 32 "ZTxAuthOrchaHash" [].
  Proof.
    split; [|split; [|split; reflexivity]].
    - intros T S V into sig b HF. unfold bundle_commitment, orchard_digest. f_equal. unfold txid_data.
      rewrite i2leosp_repr, i2leosp_le_bytes, !map_map.
      f_equal; [|f_equal; [|f_equal; [|]]].
      + f_equal. unfold compact_data. rewrite flat_map_concat_map. f_equal. apply map_ext. intros a.
        unfold on_wire. cbn [wa_nullifier wa_cmx wa_epk wa_enc]. rewrite !i2leosp_repr. reflexivity.
      + f_equal. unfold memo_data. rewrite flat_map_concat_map. reflexivity.
      + f_equal. unfold noncompact_data. rewrite flat_map_concat_map. f_equal. apply map_ext_in. intros a Ha.
        unfold on_wire. cbn [wa_cv wa_rk wa_enc wa_out]. rewrite !repr_bytes_eq. unfold noncompact_part, cv_to_bytes, vk_to_bytes, bytes_from.
        rewrite Forall_forall in HF. pose proof (HF a Ha) as E.
        rewrite firstn_all2; [reflexivity|]. rewrite skipn_length, E. reflexivity.
      + rewrite le_bytes_mod8. cbn [app]. apply (f_equal (fun x => x :: _)). destruct (b_flags b) as [[] []]; reflexivity.
    - intros V b sig. unfold authorizing_commitment, orchard_auth_digest. f_equal. unfold auth_data. f_equal. f_equal.
      rewrite flat_map_concat_map, map_map. reflexivity.
  Qed.
End Facts.

Section Laws.
  Context {C : Curve} {OR : @Oracles C}.
  Variable L : CurveLaws C.

  Lemma value_is_spec : forall v rcv, Z.abs v < 2 ^ 64 -> derive_cv v rcv = Ret (ValueCommit rcv v).
  Proof.
    intros v rcv Hv. unfold derive_cv. rewrite (proj2 (Z.ltb_lt _ _) Hv). cbn [unwrap obind]. f_equal. unfold ValueCommit. f_equal.
    destruct (Z.ltb_spec v 0) as [Hn|Hn].
    - rewrite (mul_mod L). f_equal. lia.
    - f_equal. lia.
  Qed.

  Lemma ask_eq : forall sk a, ask_from_sk sk = Ret a -> a = spec_ask sk.
  Proof.
    intros sk a H. unfold spec_ask, ToScalar. rewrite prf_spec0, leos2ip_le_val.
    change (le_val (prf_expand sk x06 []) mod qmod) with (ask_inner sk).
    destruct (Z.eq_dec (ask_inner sk) 0) as [E|E]; [rewrite (ask_from_sk_panics sk E) in H; discriminate|].
    pose proof (ask_inner_range sk) as HR. unfold is_scalar in HR.
    unfold ask_from_sk in H. rewrite (proj2 (Z.eqb_neq _ _) E) in H. cbn [negb assert_ obind] in H.
    unfold signing_key_from_bytes in H. rewrite scalar_from_to in H by exact HR. cbn [unwrap obind] in H.
    unfold vk_to_bytes in H. rewrite (sign_bit_encode L) in H. unfold vk_of in H.
    change (basepoint SpendAuth) with SpendAuthBase in H. rewrite <- odd_mod2 in H.
    destruct (Z.odd (pt_y (pt_mul (ask_inner sk) SpendAuthBase))).
    - change (Z.b2z true =? 1) with true in H. cbn iota in H.
      assert (EM : (- ask_inner sk) mod qmod = qmod - ask_inner sk).
      { rewrite Z.mod_opp_l_nz; [|discriminate|]; rewrite Z.mod_small by exact HR; lia. }
      rewrite EM in H. rewrite scalar_from_to in H by (unfold is_scalar; lia). cbn [unwrap] in H. congruence.
    - change (Z.b2z false =? 1) with false in H. cbn iota in H. congruence.
  Qed.

  (** The rivk of a scope. *)
  Lemma rivk_scope_eq : forall f s r, fvk_rivk_scope f s = Ret r ->
    r = match s with External => fvk_rivk f | Internal => spec_rivk_internal (fvk_ak f) (fvk_nk f) (fvk_rivk f) end.
  Proof.
    intros f [] r H; cbn [fvk_rivk_scope] in H; [congruence|].
    unfold ak_to_bytes in H. destruct (Z.land _ 128 =? 0); cbn [assert_ obind] in H; [|discriminate H].
    apply (f_equal (fun o => match o with Ret x => x | _ => r end)) in H. cbn iota beta in H. rewrite <- H.
    unfold spec_rivk_internal. rewrite prf_spec2, !i2leosp_repr, repr_bytes_eq. symmetry. apply ToScalar_eq.
  Qed.

  Lemma dk_ovk_eq : forall f, derive_dk_ovk f =
    (spec_dk (fvk_ak f) (fvk_nk f) (fvk_rivk f), spec_ovk (fvk_ak f) (fvk_nk f) (fvk_rivk f)).
  Proof.
    intros f. unfold derive_dk_ovk, spec_dk, spec_ovk, spec_dk_ovk. rewrite prf_spec2, !i2leosp_repr, repr_bytes_eq.
    unfold vk_to_bytes. f_equal. unfold slice. apply firstn_all2. rewrite skipn_length, prf_expand_length. reflexivity.
  Qed.

  Lemma commit_ivk_eq : forall ak nk rivk, commit_ivk ak nk rivk = CommitIvk rivk ak nk.
  Proof.
    intros. unfold commit_ivk, CommitIvk, commit_ivk_msg, base_bits, l_orchard_base. rewrite spec_short, !i2lebsp_le_bits. reflexivity.
  Qed.

  Lemma ivk_from_fvk_eq : forall f k, ivk_from_fvk f = Ret k ->
    ivk_dk k = spec_dk (fvk_ak f) (fvk_nk f) (fvk_rivk f) /\
    CommitIvk (fvk_rivk f) (pt_x (fvk_ak f)) (fvk_nk f) = Some (ivk_ivk k).
  Proof.
    intros f k H. unfold ivk_from_fvk in H. destruct (kapk_from_fvk f) as [x| |] eqn:E; cbn [obind] in H; try discriminate H.
    rewrite dk_ovk_eq in H. cbn [fst] in H. apply (kapk_from_fvk_inv L) in E as [E _]. apply ivk_derive_inner_spec in E as [E _].
    rewrite commit_ivk_eq in E.
    assert (HK : k = mk_ivk (spec_dk (fvk_ak f) (fvk_nk f) (fvk_rivk f)) x) by congruence.
    rewrite HK. split; [reflexivity|exact E].
  Qed.

  Lemma derive_internal_eq : forall f fi, fvk_derive_internal f = Ret fi ->
    fi = mk_fvk (fvk_ak f) (fvk_nk f) (spec_rivk_internal (fvk_ak f) (fvk_nk f) (fvk_rivk f)).
  Proof.
    intros f fi H. unfold fvk_derive_internal in H. destruct (fvk_rivk_scope f Internal) as [r| |] eqn:E; cbn [obind] in H; try discriminate H.
    apply rivk_scope_eq in E. congruence.
  Qed.

  Lemma keys_are_spec :
    (forall sk f, fvk_from_sk sk = Ret f -> f = mk_fvk (spec_ak sk) (spec_nk sk) (spec_rivk sk)) /\
    (forall sk a, ask_from_sk sk = Ret a -> a = spec_ask sk) /\
    (forall f s, let rivk := match s with
                             | External => fvk_rivk f
                             | Internal => spec_rivk_internal (fvk_ak f) (fvk_nk f) (fvk_rivk f)
                             end in
       (forall k, fvk_to_ivk f s = Ret k ->
          ivk_dk k = spec_dk (fvk_ak f) (fvk_nk f) rivk /\ CommitIvk rivk (pt_x (fvk_ak f)) (fvk_nk f) = Some (ivk_ivk k)) /\
       (forall ovk, fvk_to_ovk f s = Ret ovk -> ovk = spec_ovk (fvk_ak f) (fvk_nk f) rivk)) /\
    (forall k d, ivk_address k d = mk_address d (pt_mul (ivk_ivk k) (DiversifyHash d))) /\
    (forall seed k, xsk_master seed = Ret (Ok k) ->
       x_sk k ++ x_chain_code k = blake2b 64 "ZcashIP32Orchard" seed /\ length (x_sk k) = 32%nat).
  Proof.
    split; [|split; [exact ask_eq|split; [|split]]].
    - intros sk f H. unfold fvk_from_sk in H. destruct (ask_from_sk sk) as [a| |] eqn:E; cbn [obind] in H; try discriminate H.
      apply ask_eq in E. subst a. unfold spec_nk, spec_rivk. rewrite !prf_spec0.
      apply (f_equal (fun o => match o with Ret x => x | _ => f end)) in H. cbn iota beta in H. rewrite <- H.
      unfold nk_from_sk, rivk_from_sk. reflexivity.
    - intros f s rivk. unfold rivk. clear rivk. destruct s; cbn [fvk_to_ivk fvk_to_ovk].
      + split; [intros k H; exact (ivk_from_fvk_eq f k H)|]. intros o H. rewrite dk_ovk_eq in H. cbn [snd] in H. congruence.
      + destruct (fvk_derive_internal f) as [fi| |] eqn:E; cbn [obind]; [|split; intros ? H; discriminate H|split; intros ? H; discriminate H].
        apply derive_internal_eq in E. split.
        * intros k H. apply ivk_from_fvk_eq in H. rewrite E in H. cbn [fvk_ak fvk_nk fvk_rivk] in H. exact H.
        * intros o H. rewrite dk_ovk_eq in H. cbn [snd] in H. rewrite E in H. cbn [fvk_ak fvk_nk fvk_rivk] in H. congruence.
    - reflexivity.
    - intros seed k H. unfold xsk_master in H. destruct (assert_ _ _); cbn [obind] in H; try discriminate H.
      destruct (sk_from_bytes _) as [[sk|]| |] eqn:E; cbn [obind] in H; try discriminate H.
      apply sk_from_bytes_some in E.
      assert (HK : k = mk_xsk 0 (repeat x00 4) None (slice 32 64 (blake2b 64 "ZcashIP32Orchard" seed)) sk) by congruence.
      rewrite HK, E. cbn [x_sk x_chain_code].
      assert (HL : length (blake2b 64 "ZcashIP32Orchard" seed) = 64%nat) by apply fit_length.
      split; [|rewrite slice_length by lia; reflexivity].
      exact (slice_halves _ HL).
  Qed.

  Lemma encodings_are_spec :
    (forall f, fvk_to_bytes f = repr_bytes (fvk_ak f) ++ I2LEOSP 32 (fvk_nk f) ++ I2LEOSP 32 (fvk_rivk f)) /\
    (forall k, ivk_to_bytes k = ivk_dk k ++ I2LEOSP 32 (ivk_ivk k)) /\
    (forall a, address_to_bytes a = ad_d a ++ repr_bytes (ad_pk_d a)) /\
    (forall cm, cmx_to_bytes (cmx_of cm) = I2LEOSP 32 (pt_x cm)) /\
    (forall nf, nf_to_bytes nf = I2LEOSP 32 nf) /\
    (forall anchor, anchor_to_bytes anchor = I2LEOSP 32 anchor) /\
    (forall cv, cv_to_bytes cv = repr_bytes cv) /\
    (forall rk, vk_to_bytes rk = repr_bytes rk) /\
    (forall epk, epk_to_bytes epk = repr_bytes epk).
  Proof.
    split; [|split; [|split; [|split; [|split; [|split; [|split; [|split]]]]]]]; intros;
      rewrite ?repr_bytes_eq, ?i2leosp_repr; reflexivity.
  Qed.

  Lemma signatures_are_spec : forall t,
    let P := match t with SpendAuth => SpendAuthBase | Binding => BindingBase end in
    (forall sk M r, let s := fst (sign t sk M r) in
       (sig_r s, sig_s s) = red_sign P sk (fst (rng_bytes 80 r)) M /\ snd (sign t sk M r) = snd (rng_bytes 80 r)) /\
    (forall vk M s, wf_sig s -> (verify t vk M s = true <-> red_valid P vk M (sig_r s) (sig_s s))) /\
    (forall sk, vk_of t sk = pt_mul sk P).
  Proof.
    intros t P. assert (EP : P = basepoint t) by (destruct t; reflexivity). split; [|split].
    - intros sk M r. unfold sign. destruct (rng_bytes 80 r) as [T r']. cbn [fst snd sig_r sig_s]. split; [|reflexivity].
      unfold red_sign. rewrite EP, !repr_bytes_eq, i2leosp_repr. reflexivity.
    - intros vk M s [LR LS]. rewrite (verify_spec L). unfold red_valid. rewrite EP. split.
      + intros (R & S & H1 & H2 & H3). apply (encode_decode L) in H1; [|exact LR]. apply scalar_to_from in H2; [|exact LS].
        destruct H2 as [H2 H4]. exists R, S. rewrite !repr_bytes_eq, i2leosp_repr.
        split; [symmetry; exact H1|]. split; [symmetry; assumption|]. split; [assumption|exact H3].
      + intros (R & S & H1 & H2 & H3 & H4). rewrite repr_bytes_eq in H1. rewrite i2leosp_repr in H2. exists R, S.
        split; [rewrite H1; apply (decode_encode L)|]. split; [rewrite H2; apply scalar_from_to; exact H3|].
        rewrite repr_bytes_eq in H4. exact H4.
    - intro sk. rewrite EP. reflexivity.
  Qed.
End Laws.
