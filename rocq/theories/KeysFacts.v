(** Proofs about src/keys.rs, src/address.rs, src/spec.rs. *)
From Coq Require Import String ZArith List Bool Lia.
From Coq Require Import Init.Byte.
From Verif Require Import Prelude Fields Curve Oracles Sinsemilla RedPallas Value Keys
  PreludeFacts NumTheory CurveFacts Spec ValueFacts CodecFacts KeysSpec.
Import ListNotations.
Open Scope Z_scope.

#[local] Opaque to_scalar to_base hash_to_curve sins_commit le_bits.

(** * The sign bit *)

Lemma nth_le_bytes : forall n i v, (i < n)%nat -> nth i (le_bytes n v) x00 = byte_of_Z (v / 256 ^ Z.of_nat i).
Proof.
  induction n as [|n IH]; intros [|i] v H; try lia; cbn [le_bytes nth].
  - change (256 ^ Z.of_nat 0) with 1. rewrite Z.div_1_r. reflexivity.
  - rewrite IH by lia. rewrite pow256_S, Z.div_div by (pose proof (pow256_pos i); lia). reflexivity.
Qed.

Lemma land_128 : forall b, (Z.land (Z_of_byte b) 128 =? 0) = (Z_of_byte b / 128 =? 0).
Proof.
  intro b. pose (P := fun z => Bool.eqb (Z.land z 128 =? 0) (z / 128 =? 0)).
  assert (H : P (Z_of_byte b) = true).
  { apply forall_byte_values; [vm_compute; reflexivity|apply Z_of_byte_range]. }
  apply eqb_prop. exact H.
Qed.

Lemma top_byte : forall v, 0 <= v < 2 * 2 ^ 255 -> Z_of_byte (nth 31 (le_bytes 32 v) x00) / 128 = v / 2 ^ 255.
Proof.
  intros v H. rewrite nth_le_bytes by lia. rewrite Z_of_byte_of_Z.
  change (256 ^ Z.of_nat 31) with (2 ^ 248).
  rewrite Z.mod_small.
  - rewrite Z.div_div by lia. reflexivity.
  - split; [apply Z.div_pos; lia|]. apply Z.div_lt_upper_bound; lia.
Qed.

Section Keys.
  Context {C : Curve} {OR : @Oracles C}.
  Variable L : CurveLaws C.

  Lemma sign_bit_encode : forall P, sign_bit (pt_encode P) = pt_y P mod 2.
  Proof.
    intro P. unfold sign_bit, pt_encode. pose proof (x_range L P). pose proof pmod_lt_pow255.
    pose proof (Z.mod_pos_bound (pt_y P) 2).
    rewrite top_byte by nia.
    replace (pt_x P + 2 ^ 255 * (pt_y P mod 2)) with (pt_y P mod 2 * 2 ^ 255 + pt_x P) by ring.
    rewrite Z.div_add_l by lia. rewrite Z.div_small by lia. lia.
  Qed.

  Lemma sign_mask_encode : forall P,
    (Z.land (Z_of_byte (nth 31 (pt_encode P) x00)) 128 =? 0) = (pt_y P mod 2 =? 0).
  Proof. intro P. rewrite land_128. rewrite <- sign_bit_encode. reflexivity. Qed.

  Lemma neg_even : forall P, pt_y P mod 2 = 1 -> pt_y (pt_neg P) mod 2 = 0.
  Proof.
    intros P H. rewrite (y_neg_parity L); [lia|]. intro E. subst P. rewrite (y_id L) in H. discriminate H.
  Qed.

  (** * Spending keys (C37, C30) *)

  Lemma ask_inner_range : forall sk, is_scalar (ask_inner sk).
  Proof. intro. apply to_scalar_range. Qed.

  Lemma ask_from_sk_spec : forall sk, ask_inner sk <> 0 ->
    exists ask, ask_from_sk sk = Ret ask /\ is_scalar ask /\ ask <> 0 /\
                (ask = ask_inner sk \/ ask = qmod - ask_inner sk) /\
                pt_y (ak_of_ask ask) mod 2 = 0.
  Proof.
    intros sk H. unfold ask_from_sk. pose proof (ask_inner_range sk) as R.
    rewrite (proj2 (Z.eqb_neq _ _) H). cbn [negb assert_ obind].
    unfold signing_key_from_bytes. rewrite (scalar_from_to _ R). cbn [unwrap obind].
    unfold vk_to_bytes. rewrite sign_bit_encode.
    destruct (Z.eqb_spec (pt_y (vk_of SpendAuth (ask_inner sk)) mod 2) 1) as [E|E].
    - assert (N : (- ask_inner sk) mod qmod = qmod - ask_inner sk).
      { unfold is_scalar in R. symmetry. apply (Z.mod_unique _ _ (-1)); [left; lia|ring]. }
      rewrite N. assert (R' : is_scalar (qmod - ask_inner sk)) by (unfold is_scalar in *; lia).
      rewrite (scalar_from_to _ R'). cbn [unwrap].
      exists (qmod - ask_inner sk). split; [reflexivity|]. split; [exact R'|].
      split; [unfold is_scalar in *; lia|]. split; [right; reflexivity|].
      unfold ak_of_ask, vk_of. rewrite <- N, (mul_mod L), (mul_opp L). apply neg_even. exact E.
    - exists (ask_inner sk). split; [reflexivity|]. split; [exact R|]. split; [exact H|].
      split; [left; reflexivity|]. unfold ak_of_ask.
      pose proof (Z.mod_pos_bound (pt_y (vk_of SpendAuth (ask_inner sk))) 2). lia.
  Qed.

  Lemma ask_from_sk_panics : forall sk, ask_inner sk = 0 -> ask_from_sk sk = Panic "ask != 0".
  Proof. intros sk H. unfold ask_from_sk. rewrite H. reflexivity. Qed.

  Lemma ask_from_sk_inv : forall sk ask, ask_from_sk sk = Ret ask ->
    ask_inner sk <> 0 /\ is_scalar ask /\ ask <> 0 /\
    (ask = ask_inner sk \/ ask = qmod - ask_inner sk) /\ pt_y (ak_of_ask ask) mod 2 = 0.
  Proof.
    intros sk ask H. destruct (Z.eq_dec (ask_inner sk) 0) as [E|E].
    - rewrite ask_from_sk_panics in H by exact E. discriminate H.
    - destruct (ask_from_sk_spec sk E) as (a & Ha & P). rewrite H in Ha. injection Ha as <-. split; assumption.
  Qed.

  (** * Signatures *)

  Lemma hstar_range : forall m, is_scalar (hstar m).
  Proof. intro. apply to_scalar_range. Qed.

  Lemma sign_verifies : forall t sk msg r,
    verify t (vk_of t sk) msg (fst (sign t sk msg r)) = true.
  Proof.
    intros t sk msg r. unfold sign. destruct (rng_bytes 80 r) as [rnd r'].
    cbn [fst]. unfold verify. cbn [sig_r sig_s].
    rewrite (decode_encode L).
    set (vkb := vk_to_bytes (vk_of t sk)).
    set (nonce := hstar (rnd ++ vkb ++ msg)).
    set (c := hstar (pt_encode (pt_mul nonce (basepoint t)) ++ vkb ++ msg)).
    assert (R : is_scalar ((nonce + c * sk) mod qmod)).
    { unfold is_scalar. apply Z.mod_pos_bound. apply qmod_pos. }
    rewrite (scalar_from_to _ R).
    apply (is_id_true L). unfold vk_of.
    rewrite (mul_mod L), (mul_add L), (mul_mul L), (add_sub L). apply (sub_self L).
  Qed.

  Lemma sign_wf : forall t sk msg r, wf_sig (fst (sign t sk msg r)).
  Proof.
    intros. unfold sign. destruct (rng_bytes 80 r) as [rnd r']. cbn [fst]. split; cbn [sig_r sig_s].
    - apply encode_length.
    - apply to_repr_length.
  Qed.

  Lemma randomize_consistent : forall ask alpha,
    vk_of SpendAuth (sk_randomize ask alpha) = vk_randomize (ak_of_ask ask) alpha.
  Proof.
    intros. unfold vk_of, sk_randomize, vk_randomize, ak_of_ask, vk_of.
    rewrite (mul_mod L), (mul_add L). reflexivity.
  Qed.

  Lemma randomized_signature : forall ask alpha msg r,
    verify SpendAuth (vk_randomize (ak_of_ask ask) alpha) msg
           (fst (sign SpendAuth (sk_randomize ask alpha) msg r)) = true.
  Proof. intros. rewrite <- randomize_consistent. apply sign_verifies. Qed.

  (** verify is the Schnorr equation. *)
  Lemma verify_spec : forall t vk msg s,
    verify t vk msg s = true <->
    exists R sc, pt_decode (sig_r s) = Some R /\ scalar_from_repr (sig_s s) = Some sc /\
      pt_mul sc (basepoint t) = pt_add R (pt_mul (hstar (sig_r s ++ vk_to_bytes vk ++ msg)) vk).
  Proof.
    intros t vk msg s. unfold verify.
    destruct (pt_decode (sig_r s)) as [R|]; [|split; [intro H; discriminate H|intros (?&?&H&_); discriminate H]].
    destruct (scalar_from_repr (sig_s s)) as [sc|];
      [|split; [intro H; discriminate H|intros (?&?&_&H&_); discriminate H]].
    rewrite (is_id_true L), (sub_id_iff L). split.
    - intro H. exists R, sc. split; [reflexivity|]. split; [reflexivity|].
      rewrite <- H, (sub_add L). reflexivity.
    - intros (R' & sc' & H1 & H2 & H). injection H1 as <-. injection H2 as <-.
      rewrite H. apply (add_sub L).
  Qed.

  (** * Full viewing keys *)

  Lemma ak_to_bytes_ret : forall ak, pt_y ak mod 2 = 0 -> ak_to_bytes ak = Ret (pt_encode ak).
  Proof.
    intros ak H. unfold ak_to_bytes, vk_to_bytes. rewrite sign_mask_encode, H. reflexivity.
  Qed.

  Lemma ak_from_bytes_spec : forall b ak,
    ak_from_bytes b = Some ak <-> (length b = 32%nat /\ pt_encode ak = b /\ ak <> pt_id /\ pt_y ak mod 2 = 0).
  Proof.
    intros b ak. unfold ak_from_bytes. split.
    - destruct (Nat.eqb_spec (length b) 32) as [HL|]; [|intro H; discriminate H].
      destruct (bytes_eqb b (repeat x00 32)) eqn:EZ; cbn [negb andb]; [intro H; discriminate H|].
      destruct (Z.land (Z_of_byte (nth 31 b x00)) 128 =? 0) eqn:ES; [|intro H; discriminate H].
      unfold vk_from_bytes. intro H. pose proof (encode_decode L b ak HL H) as E.
      split; [exact HL|]. split; [exact E|]. split.
      + intro EI. subst ak. rewrite (encode_id L) in E. rewrite E in EZ.
        rewrite bytes_eqb_refl in EZ. discriminate EZ.
      + rewrite <- E in ES. rewrite sign_mask_encode in ES. apply Z.eqb_eq. exact ES.
    - intros (HL & E & NI & EV). rewrite HL. cbn [Nat.eqb].
      assert (EZ : bytes_eqb b (repeat x00 32) = false).
      { destruct (bytes_eqb b (repeat x00 32)) eqn:X; [|reflexivity]. exfalso. apply NI.
        apply bytes_eqb_eq in X. apply (encode_id_iff L). congruence. }
      rewrite EZ. subst b. rewrite sign_mask_encode, EV. cbn [negb andb Z.eqb].
      apply (decode_encode L).
  Qed.

  Lemma commit_ivk_range : forall ak nk rivk k, commit_ivk ak nk rivk = Some k -> is_base k.
  Proof.
    intros ak nk rivk k H. unfold commit_ivk, sins_short_commit in H.
    destruct (sins_commit _ _ _) as [P|]; [|discriminate H]. injection H as <-. apply (x_range L).
  Qed.

  #[local] Opaque commit_ivk.

  Lemma scalar_of_nonzero_base_ret : forall x, 0 < x < pmod -> scalar_of_nonzero_base x = Ret x.
  Proof.
    intros x H. unfold scalar_of_nonzero_base. rewrite mod_r_p_ret by (unfold is_base; lia). cbn [obind].
    rewrite (proj2 (Z.eqb_neq x 0)) by lia. reflexivity.
  Qed.

  Lemma nonzero_some : forall x y, nonzero x = Some y <-> y = x /\ x <> 0.
  Proof.
    intros x y. unfold nonzero. destruct (Z.eqb_spec x 0) as [E|E]; split; intro H.
    - discriminate H.
    - destruct H. contradiction.
    - injection H as <-. auto.
    - destruct H as [-> _]. reflexivity.
  Qed.

  Lemma ivk_derive_inner_spec : forall f k,
    ivk_derive_inner f = Some k <-> commit_ivk (pt_x (fvk_ak f)) (fvk_nk f) (fvk_rivk f) = Some k /\ k <> 0.
  Proof.
    intros f k. unfold ivk_derive_inner, extract_p.
    destruct (commit_ivk (pt_x (fvk_ak f)) (fvk_nk f) (fvk_rivk f)) as [x|]; cbn [optbind].
    - rewrite nonzero_some. split; [intros [-> ?]; auto|intros [H ?]; injection H as <-; auto].
    - split; [intro H; discriminate H|intros [H _]; discriminate H].
  Qed.

  Lemma kapk_from_fvk_ret : forall f k, ivk_derive_inner f = Some k ->
    kapk_from_fvk f = Ret k /\ 0 < k < pmod.
  Proof.
    intros f k H. unfold kapk_from_fvk. rewrite H. cbn [unwrap obind].
    apply ivk_derive_inner_spec in H as [H N]. apply commit_ivk_range in H. unfold is_base in H.
    assert (R : 0 < k < pmod) by lia. split; [apply scalar_of_nonzero_base_ret; exact R|exact R].
  Qed.

  Lemma kapk_from_fvk_inv : forall f k, kapk_from_fvk f = Ret k ->
    ivk_derive_inner f = Some k /\ 0 < k < pmod.
  Proof.
    intros f k H. destruct (ivk_derive_inner f) as [x|] eqn:E.
    - destruct (kapk_from_fvk_ret f x E) as [H' R]. rewrite H in H'. injection H' as <-. split; [reflexivity|exact R].
    - unfold kapk_from_fvk in H. rewrite E in H. discriminate H.
  Qed.

  Lemma prf_expand_length : forall k d a, length (prf_expand k d a) = 64%nat.
  Proof. intros. unfold prf_expand, blake2b. apply fit_length. Qed.

  #[local] Opaque prf_expand.

  Lemma dk_ovk_length : forall f, length (fst (derive_dk_ovk f)) = 32%nat /\ length (snd (derive_dk_ovk f)) = 32%nat.
  Proof.
    intro f. unfold derive_dk_ovk. cbn [fst snd].
    split; rewrite slice_length; rewrite ?prf_expand_length; lia.
  Qed.

  Lemma rivk_internal_ret : forall f, pt_y (fvk_ak f) mod 2 = 0 ->
    exists r, fvk_rivk_scope f Internal = Ret r /\ is_scalar r.
  Proof.
    intros f H. unfold fvk_rivk_scope. rewrite ak_to_bytes_ret by exact H. cbn [obind].
    eexists. split; [reflexivity|]. apply to_scalar_range.
  Qed.

  Lemma derive_internal_ret : forall f, pt_y (fvk_ak f) mod 2 = 0 ->
    exists r, fvk_rivk_scope f Internal = Ret r /\ is_scalar r /\
              fvk_derive_internal f = Ret (mk_fvk (fvk_ak f) (fvk_nk f) r).
  Proof.
    intros f H. destruct (rivk_internal_ret f H) as (r & Hr & R). exists r. split; [exact Hr|]. split; [exact R|].
    unfold fvk_derive_internal. rewrite Hr. reflexivity.
  Qed.

  (** fvk_ok in terms of the model's own checks. *)
  Lemma fvk_ok_intro : forall f ki,
    fvk_ak f <> pt_id -> pt_y (fvk_ak f) mod 2 = 0 -> is_base (fvk_nk f) -> is_scalar (fvk_rivk f) ->
    forall ke fi, ivk_derive_inner f = Some ke -> fvk_derive_internal f = Ret fi ->
    ivk_derive_inner fi = Some ki -> fvk_ok f.
  Proof.
    intros f ki NI EV HN HR ke fi HE HD HI. constructor; try assumption.
    - exists ke. apply ivk_derive_inner_spec. exact HE.
    - destruct (derive_internal_ret f EV) as (r & Hr & _ & HD'). rewrite HD in HD'. injection HD' as ->.
      exists r, ki. split; [exact Hr|]. apply ivk_derive_inner_spec in HI. exact HI.
  Qed.

  Lemma fvk_ok_ext : forall f, fvk_ok f -> exists k, ivk_derive_inner f = Some k.
  Proof. intros f H. destruct (fo_ext f H) as [k Hk]. exists k. apply ivk_derive_inner_spec. exact Hk. Qed.
  Lemma fvk_ok_int : forall f, fvk_ok f -> exists fi k,
    fvk_derive_internal f = Ret fi /\ fvk_ak fi = fvk_ak f /\ fvk_nk fi = fvk_nk f /\
    fvk_rivk_scope f Internal = Ret (fvk_rivk fi) /\ is_scalar (fvk_rivk fi) /\ ivk_derive_inner fi = Some k.
  Proof.
    intros f H. destruct (fo_int f H) as (r & k & Hr & Hk).
    destruct (derive_internal_ret f (fo_sign f H)) as (r' & Hr' & R & HD). rewrite Hr in Hr'. injection Hr' as <-.
    exists (mk_fvk (fvk_ak f) (fvk_nk f) r), k. repeat split; try assumption; try apply R.
    apply ivk_derive_inner_spec. exact Hk.
  Qed.

  Lemma fvk_ok_to_ivk : forall f s, fvk_ok f -> exists k, fvk_to_ivk f s = Ret k /\ ivk_ok k.
  Proof.
    intros f [] H; cbn [fvk_to_ivk].
    - destruct (fvk_ok_ext f H) as [k Hk]. destruct (kapk_from_fvk_ret f k Hk) as [HK R].
      unfold ivk_from_fvk. rewrite HK. cbn [obind]. eexists. split; [reflexivity|].
      split; [apply dk_ovk_length|exact R].
    - destruct (fvk_ok_int f H) as (fi & k & HD & _ & _ & _ & _ & Hk). rewrite HD. cbn [obind].
      destruct (kapk_from_fvk_ret fi k Hk) as [HK R].
      unfold ivk_from_fvk. rewrite HK. cbn [obind]. eexists. split; [reflexivity|].
      split; [apply dk_ovk_length|exact R].
  Qed.

  Lemma fvk_ok_to_ovk : forall f s, fvk_ok f -> exists k, fvk_to_ovk f s = Ret k /\ length k = 32%nat.
  Proof.
    intros f [] H; cbn [fvk_to_ovk].
    - eexists. split; [reflexivity|]. apply dk_ovk_length.
    - destruct (fvk_ok_int f H) as (fi & k & HD & _). rewrite HD. cbn [obind].
      eexists. split; [reflexivity|]. apply dk_ovk_length.
  Qed.

  Lemma fvk_address_ivk : forall f s d k, fvk_to_ivk f s = Ret k -> fvk_address f d s = Ret (ivk_address k d).
  Proof.
    intros f [] d k H; cbn [fvk_to_ivk fvk_address] in *.
    - unfold ivk_from_fvk in H. inv_ret. rewrite H0. reflexivity.
    - inv_ret. rewrite H0. cbn [obind]. unfold ivk_from_fvk in H. inv_ret. rewrite H1. reflexivity.
  Qed.

  Lemma fvk_to_bytes_length : forall f, length (fvk_to_bytes f) = 96%nat.
  Proof.
    intro f. unfold fvk_to_bytes, vk_to_bytes. rewrite !app_length, encode_length, !to_repr_length. reflexivity.
  Qed.

  Lemma fvk_roundtrip : forall f, fvk_ok f -> fvk_from_bytes (fvk_to_bytes f) = Ret (Some f).
  Proof.
    intros f H. unfold fvk_from_bytes, fvk_to_bytes, vk_to_bytes.
    assert (L1 : length (pt_encode (fvk_ak f)) = 32%nat) by apply encode_length.
    assert (L2 : length (to_repr (fvk_nk f)) = 32%nat) by apply to_repr_length.
    assert (L3 : length (to_repr (fvk_rivk f)) = 32%nat) by apply to_repr_length.
    rewrite (slice_app_l _ _ 32 L1).
    rewrite (slice_app_r _ _ 32 32 64 L1) by lia. cbn [Nat.sub]. rewrite (slice_app_l _ _ 32 L2).
    rewrite (slice_app_r _ _ 32 64 96 L1) by lia. cbn [Nat.sub].
    rewrite (slice_app_r _ _ 32 32 64 L2) by lia. cbn [Nat.sub]. rewrite (slice_full _ 32 L3).
    rewrite (proj2 (ak_from_bytes_spec (pt_encode (fvk_ak f)) (fvk_ak f)))
      by (exact (conj L1 (conj eq_refl (conj (fo_ak f H) (fo_sign f H))))).
    unfold nk_from_bytes, rivk_from_bytes. rewrite L2, L3. cbn [Nat.eqb].
    rewrite (base_from_to _ (fo_nk f H)), (scalar_from_to _ (fo_rivk f H)).
    destruct f as [ak nk rivk]. cbn [fvk_ak fvk_nk fvk_rivk].
    destruct (fvk_ok_ext _ H) as [ke Hke]. rewrite Hke.
    destruct (fvk_ok_int _ H) as (fi & ki & HD & _ & _ & _ & _ & Hki). rewrite HD. cbn [obind]. rewrite Hki.
    reflexivity.
  Qed.

  Lemma fvk_from_bytes_inv : forall b f, length b = 96%nat -> fvk_from_bytes b = Ret (Some f) ->
    fvk_ok f /\ fvk_to_bytes f = b.
  Proof.
    intros b f HL H. unfold fvk_from_bytes in H.
    destruct (ak_from_bytes (slice 0 32 b)) as [ak|] eqn:E1; [|discriminate H].
    destruct (nk_from_bytes (slice 32 64 b)) as [nk|] eqn:E2; [|discriminate H].
    destruct (rivk_from_bytes (slice 64 96 b)) as [rivk|] eqn:E3; [|discriminate H].
    destruct (ivk_derive_inner _) as [ke|] eqn:E4; [|discriminate H].
    destruct (fvk_derive_internal _) as [fi|?|] eqn:E5; cbn [obind] in H; try discriminate H.
    destruct (ivk_derive_inner fi) as [ki|] eqn:E6; [|discriminate H]. injection H as <-.
    apply ak_from_bytes_spec in E1 as (L1 & A1 & A2 & A3).
    unfold nk_from_bytes in E2. destruct (Nat.eqb_spec (length (slice 32 64 b)) 32) as [L2|]; [|discriminate E2].
    unfold rivk_from_bytes in E3. destruct (Nat.eqb_spec (length (slice 64 96 b)) 32) as [L3|]; [|discriminate E3].
    apply (base_to_from _ _ L2) in E2 as [N1 N2]. apply (scalar_to_from _ _ L3) in E3 as [R1 R2].
    split.
    - eapply fvk_ok_intro; eassumption.
    - unfold fvk_to_bytes. cbn [fvk_ak fvk_nk fvk_rivk]. unfold vk_to_bytes. rewrite A1, N2, R2.
      rewrite (slice_app 32 64 96) by lia. rewrite (slice_app 0 32 96) by lia. apply slice_full. exact HL.
  Qed.

  Lemma fvk_from_bytes_total : forall b, length b = 96%nat -> exists o, fvk_from_bytes b = Ret o.
  Proof.
    intros b HL. unfold fvk_from_bytes.
    destruct (ak_from_bytes (slice 0 32 b)) as [ak|] eqn:E1; [|eexists; reflexivity].
    destruct (nk_from_bytes (slice 32 64 b)) as [nk|] eqn:E2; [|eexists; reflexivity].
    destruct (rivk_from_bytes (slice 64 96 b)) as [rivk|] eqn:E3; [|eexists; reflexivity].
    destruct (ivk_derive_inner _) as [ke|] eqn:E4; [|eexists; reflexivity].
    apply ak_from_bytes_spec in E1 as (_ & _ & _ & EV).
    destruct (derive_internal_ret (mk_fvk ak nk rivk) EV) as (r & _ & _ & HD). rewrite HD. cbn [obind].
    destruct (ivk_derive_inner (mk_fvk _ _ r)); eexists; reflexivity.
  Qed.

  Lemma nk_from_sk_range : forall sk, is_base (nk_from_sk sk).
  Proof. intro. apply to_base_range. Qed.
  Lemma rivk_from_sk_range : forall sk, is_scalar (rivk_from_sk sk).
  Proof. intro. apply to_scalar_range. Qed.

  Lemma fvk_from_sk_spec : forall sk f, fvk_from_sk sk = Ret f ->
    exists ask, ask_from_sk sk = Ret ask /\ fvk_ak f = ak_of_ask ask /\
                fvk_nk f = nk_from_sk sk /\ fvk_rivk f = rivk_from_sk sk.
  Proof. intros sk f H. unfold fvk_from_sk in H. inv_ret. eexists. repeat split; eassumption. Qed.

  (** C30/C31: exactly when from_bytes panics, and what an accepted key gives. *)
  Lemma sk_from_bytes_panics : forall sk, ask_inner sk = 0 -> sk_from_bytes sk = Panic "ask != 0".
  Proof. intros sk H. unfold sk_from_bytes, fvk_from_sk. rewrite (ask_from_sk_panics sk H). reflexivity. Qed.

  Lemma sk_from_bytes_total : forall sk, ask_inner sk <> 0 ->
    exists o, sk_from_bytes sk = Ret o.
  Proof.
    intros sk H. unfold sk_from_bytes, fvk_from_sk.
    destruct (ask_from_sk_spec sk H) as (ask & HA & _ & _ & _ & EV). rewrite HA. cbn [obind].
    destruct (derive_internal_ret (mk_fvk (ak_of_ask ask) (nk_from_sk sk) (rivk_from_sk sk)) EV) as (r & _ & _ & HD).
    rewrite HD. cbn [obind]. eexists. reflexivity.
  Qed.

  Lemma sk_from_bytes_inv : forall sk sk', sk_from_bytes sk = Ret (Some sk') ->
    sk' = sk /\ exists f ask ke ki fi,
      fvk_from_sk sk = Ret f /\ ask_from_sk sk = Ret ask /\ fvk_ak f = ak_of_ask ask /\
      ivk_derive_inner f = Some ke /\ fvk_derive_internal f = Ret fi /\ ivk_derive_inner fi = Some ki.
  Proof.
    intros sk sk' H. unfold sk_from_bytes in H. inv_ret.
    destruct (ask_inner sk =? 0); [discriminate H|].
    destruct (ivk_derive_inner a) as [ke|] eqn:E1; [|discriminate H].
    destruct (ivk_derive_inner a0) as [ki|] eqn:E2; [|discriminate H].
    cbn in H. injection H as <-. split; [reflexivity|].
    destruct (fvk_from_sk_spec _ _ H0) as (ask & HA & Hak & _).
    exists a, ask, ke, ki, a0. repeat split; assumption.
  Qed.

  (** A key that parses derives everything without panicking (no assumption on G). *)
  Lemma sk_usable : forall sk sk', sk_from_bytes sk = Ret (Some sk') ->
    sk' = sk /\ exists f, fvk_from_sk sk = Ret f /\
      pt_y (fvk_ak f) mod 2 = 0 /\ ak_to_bytes (fvk_ak f) = Ret (pt_encode (fvk_ak f)) /\
      is_base (fvk_nk f) /\ is_scalar (fvk_rivk f) /\
      forall s, (exists k, fvk_to_ivk f s = Ret k /\ ivk_ok k) /\
                (exists o, fvk_to_ovk f s = Ret o /\ length o = 32%nat) /\
                (forall j, exists a, fvk_address_at f j s = Ret a) /\
                (forall d, exists a, fvk_address f d s = Ret a).
  Proof.
    intros sk sk' H. apply sk_from_bytes_inv in H as (-> & f & ask & ke & ki & fi & H1 & H2 & H3 & H4 & H5 & H6).
    split; [reflexivity|]. exists f. split; [exact H1|].
    destruct (ask_from_sk_inv _ _ H2) as (_ & _ & _ & _ & EV). rewrite <- H3 in EV.
    split; [exact EV|]. split; [apply ak_to_bytes_ret; exact EV|].
    destruct (fvk_from_sk_spec _ _ H1) as (_ & _ & _ & HN & HR).
    split; [rewrite HN; apply nk_from_sk_range|]. split; [rewrite HR; apply rivk_from_sk_range|].
    assert (K : forall s, exists k, fvk_to_ivk f s = Ret k /\ ivk_ok k).
    { intros []; cbn [fvk_to_ivk].
      - destruct (kapk_from_fvk_ret f ke H4) as [HK R]. unfold ivk_from_fvk. rewrite HK. cbn [obind].
        eexists. split; [reflexivity|]. split; [apply dk_ovk_length|exact R].
      - rewrite H5. cbn [obind]. destruct (kapk_from_fvk_ret fi ki H6) as [HK R].
        unfold ivk_from_fvk. rewrite HK. cbn [obind].
        eexists. split; [reflexivity|]. split; [apply dk_ovk_length|exact R]. }
    intro s. destruct (K s) as (k & Hk & Ok). split; [exists k; split; assumption|]. split; [|split].
    - destruct s; cbn [fvk_to_ovk].
      + eexists. split; [reflexivity|]. apply dk_ovk_length.
      + rewrite H5. cbn [obind]. eexists. split; [reflexivity|]. apply dk_ovk_length.
    - intro j. unfold fvk_address_at. rewrite Hk. eexists. reflexivity.
    - intro d. eexists. apply fvk_address_ivk. exact Hk.
  Qed.

  Lemma ak_of_ask_nonid : forall ask, basepoint SpendAuth <> pt_id -> is_scalar ask -> ask <> 0 ->
    ak_of_ask ask <> pt_id.
  Proof.
    intros ask HG R N. unfold ak_of_ask, vk_of. unfold is_scalar in R. apply (mul_nonid L); [lia|exact HG].
  Qed.

  Lemma sk_fvk_ok : forall sk sk' f, basepoint SpendAuth <> pt_id ->
    sk_from_bytes sk = Ret (Some sk') -> fvk_from_sk sk = Ret f -> fvk_ok f.
  Proof.
    intros sk sk' f HG H HF.
    apply sk_from_bytes_inv in H as (-> & f' & ask & ke & ki & fi & H1 & H2 & H3 & H4 & H5 & H6).
    rewrite HF in H1. injection H1 as <-.
    destruct (ask_from_sk_inv _ _ H2) as (_ & R & N & _ & EV). rewrite <- H3 in EV.
    destruct (fvk_from_sk_spec _ _ HF) as (_ & _ & _ & HN & HR).
    eapply fvk_ok_intro; try eassumption.
    - rewrite H3. apply ak_of_ask_nonid; assumption.
    - rewrite HN. apply nk_from_sk_range.
    - rewrite HR. apply rivk_from_sk_range.
  Qed.

  (** * Incoming viewing keys and addresses (C33) *)

  Lemma ivk_bytes_length : forall k, ivk_ok k -> length (ivk_to_bytes k) = 64%nat.
  Proof. intros k [H _]. unfold ivk_to_bytes. rewrite app_length, H, to_repr_length. reflexivity. Qed.

  Lemma ivk_roundtrip : forall k, ivk_ok k -> ivk_from_bytes (ivk_to_bytes k) = Ret (Some k).
  Proof.
    intros [dk i] [HL R]. cbn [ivk_dk ivk_ivk] in *. unfold ivk_from_bytes, ivk_to_bytes. cbn [ivk_dk ivk_ivk].
    rewrite (slice_app_r _ _ 32 32 64 HL) by lia. cbn [Nat.sub].
    rewrite (slice_full _ 32 (to_repr_length i)). rewrite (slice_app_l _ _ 32 HL).
    unfold nonzero_base_from_bytes. rewrite base_from_to by (unfold is_base; lia). cbn [optbind].
    rewrite (proj2 (nonzero_some i i)) by (split; [reflexivity|lia]).
    rewrite scalar_of_nonzero_base_ret by exact R. reflexivity.
  Qed.

  Lemma ivk_from_bytes_inv : forall b k, length b = 64%nat -> ivk_from_bytes b = Ret (Some k) ->
    ivk_ok k /\ ivk_to_bytes k = b.
  Proof.
    intros b k HL H. unfold ivk_from_bytes in H.
    destruct (nonzero_base_from_bytes (slice 32 64 b)) as [x|] eqn:E; [|discriminate H].
    unfold nonzero_base_from_bytes in E.
    destruct (base_from_repr (slice 32 64 b)) as [y|] eqn:E2; [|discriminate E]. cbn [optbind] in E.
    apply nonzero_some in E as [-> N].
    apply base_to_from in E2 as [B E2]; [|rewrite slice_length; lia].
    unfold is_base in B. rewrite scalar_of_nonzero_base_ret in H by lia. cbn [obind] in H. injection H as <-.
    split.
    - split; cbn [ivk_dk ivk_ivk]; [rewrite slice_length; lia|lia].
    - unfold ivk_to_bytes. cbn [ivk_dk ivk_ivk]. rewrite E2, (slice_app 0 32 64) by lia.
      apply slice_full. exact HL.
  Qed.

  Lemma ivk_from_bytes_total : forall b, length b = 64%nat -> exists o, ivk_from_bytes b = Ret o.
  Proof.
    intros b HL. unfold ivk_from_bytes.
    destruct (nonzero_base_from_bytes (slice 32 64 b)) as [x|] eqn:E; [|eexists; reflexivity].
    unfold nonzero_base_from_bytes in E.
    destruct (base_from_repr (slice 32 64 b)) as [y|] eqn:E2; [|discriminate E]. cbn [optbind] in E.
    apply nonzero_some in E as [-> N].
    apply base_to_from in E2 as [B E2]; [|rewrite slice_length; lia].
    unfold is_base in B. rewrite scalar_of_nonzero_base_ret by lia. eexists. reflexivity.
  Qed.

  Lemma address_bytes_length : forall a, address_ok a -> length (address_to_bytes a) = 43%nat.
  Proof. intros a [H _]. unfold address_to_bytes. rewrite app_length, H, encode_length. reflexivity. Qed.

  Lemma address_roundtrip : forall a, address_ok a -> address_from_bytes (address_to_bytes a) = Some a.
  Proof.
    intros [d pk] [HL N]. cbn [ad_d ad_pk_d] in *. unfold address_from_bytes, address_to_bytes. cbn [ad_d ad_pk_d].
    rewrite (slice_app_r _ _ 11 11 43 HL) by lia. cbn [Nat.sub].
    rewrite (slice_full _ 32 (encode_length pk)). rewrite (slice_app_l _ _ 11 HL).
    destruct (nonid_codec C L) as [A _]. destruct (A pk N) as [_ E]. rewrite E. reflexivity.
  Qed.

  Lemma address_from_bytes_inv : forall b a, length b = 43%nat -> address_from_bytes b = Some a ->
    address_ok a /\ address_to_bytes a = b.
  Proof.
    intros b a HL H. unfold address_from_bytes in H.
    destruct (nonid_from_bytes (slice 11 43 b)) as [pk|] eqn:E; [|discriminate H]. cbn [optbind] in H.
    injection H as <-. destruct (nonid_codec C L) as (_ & B & _).
    apply B in E as [N E]; [|rewrite slice_length; lia]. split.
    - split; cbn [ad_d ad_pk_d]; [rewrite slice_length; lia|exact N].
    - unfold address_to_bytes. cbn [ad_d ad_pk_d]. rewrite E, (slice_app 0 11 43) by lia.
      apply slice_full. exact HL.
  Qed.

  (** * Diversifiers (C35) *)

  Definition half_ok (ab : Z * Z) : Prop := 0 <= fst ab < ff1_half /\ 0 <= snd ab < ff1_half.

  Lemma ff1_half_pos : 0 < ff1_half. Proof. reflexivity. Qed.

  Definition ff1_step (key : bytes) (i : nat) (ab : Z * Z) : Z * Z :=
    (snd ab, (fst ab + ff1_F key i (snd ab)) mod ff1_half).
  Definition ff1_unstep (key : bytes) (i : nat) (ab : Z * Z) : Z * Z :=
    ((snd ab - ff1_F key i (fst ab)) mod ff1_half, fst ab).

  Lemma step_ok : forall key i ab, half_ok ab -> half_ok (ff1_step key i ab).
  Proof.
    intros key i [a b] [H1 H2]. split; cbn [ff1_step fst snd] in *; [exact H2|].
    apply Z.mod_pos_bound. apply ff1_half_pos.
  Qed.
  Lemma unstep_ok : forall key i ab, half_ok ab -> half_ok (ff1_unstep key i ab).
  Proof.
    intros key i [a b] [H1 H2]. split; cbn [ff1_unstep fst snd] in *; [|exact H1].
    apply Z.mod_pos_bound. apply ff1_half_pos.
  Qed.
  Lemma unstep_step : forall key i ab, half_ok ab -> ff1_unstep key i (ff1_step key i ab) = ab.
  Proof.
    intros key i [a b] [H1 H2]. unfold ff1_unstep, ff1_step. cbn [fst snd] in *.
    f_equal. rewrite Zminus_mod_idemp_l. replace (a + ff1_F key i b - ff1_F key i b) with a by ring.
    apply Z.mod_small. exact H1.
  Qed.
  Lemma step_unstep : forall key i ab, half_ok ab -> ff1_step key i (ff1_unstep key i ab) = ab.
  Proof.
    intros key i [a b] [H1 H2]. unfold ff1_unstep, ff1_step. cbn [fst snd] in *.
    f_equal. rewrite Zplus_mod_idemp_l. replace (b - ff1_F key i a + ff1_F key i a) with b by ring.
    apply Z.mod_small. exact H2.
  Qed.

  Lemma enc_snoc : forall key n i ab,
    ff1_enc_rounds key i (S n) ab = ff1_step key (i + n) (ff1_enc_rounds key i n ab).
  Proof.
    induction n as [|n IH]; intros i [a b].
    - cbn [ff1_enc_rounds]. rewrite Nat.add_0_r. reflexivity.
    - change (ff1_enc_rounds key i (S (S n)) (a, b))
        with (ff1_enc_rounds key (S i) (S n) (b, (a + ff1_F key i b) mod ff1_half)).
      rewrite IH. rewrite Nat.add_succ_r. reflexivity.
  Qed.
  Lemma dec_cons : forall key n ab, ff1_dec_rounds key (S n) ab = ff1_dec_rounds key n (ff1_unstep key n ab).
  Proof. intros key n [a b]. reflexivity. Qed.

  Lemma enc_ok : forall key n i ab, half_ok ab -> half_ok (ff1_enc_rounds key i n ab).
  Proof.
    induction n as [|n IH]; intros i ab H; [exact H|]. rewrite enc_snoc. apply step_ok. apply IH. exact H.
  Qed.
  Lemma dec_ok : forall key n ab, half_ok ab -> half_ok (ff1_dec_rounds key n ab).
  Proof.
    induction n as [|n IH]; intros ab H; [exact H|]. rewrite dec_cons. apply IH. apply unstep_ok. exact H.
  Qed.
  Lemma dec_enc : forall key n ab, half_ok ab -> ff1_dec_rounds key n (ff1_enc_rounds key 0 n ab) = ab.
  Proof.
    induction n as [|n IH]; intros ab H; [reflexivity|].
    rewrite enc_snoc, dec_cons, Nat.add_0_l, unstep_step by (apply enc_ok; exact H). apply IH. exact H.
  Qed.
  Lemma enc_dec : forall key n ab, half_ok ab -> ff1_enc_rounds key 0 n (ff1_dec_rounds key n ab) = ab.
  Proof.
    induction n as [|n IH]; intros ab H; [reflexivity|].
    rewrite dec_cons, enc_snoc, Nat.add_0_l, IH by (apply unstep_ok; exact H). apply step_unstep. exact H.
  Qed.

  Lemma rev_bits_range : forall v, 0 <= rev_bits 44 v < ff1_half.
  Proof.
    intro v. unfold rev_bits. pose proof (bits_val_range (rev (le_bits 44 v))) as H.
    rewrite rev_length, le_bits_length in H. exact H.
  Qed.
  Lemma rev_rev_bits : forall v, 0 <= v < ff1_half -> rev_bits 44 (rev_bits 44 v) = v.
  Proof.
    intros v H. unfold rev_bits.
    rewrite le_bits_bits_val by (rewrite rev_length, le_bits_length; reflexivity).
    rewrite rev_involutive. apply bits_val_le_bits. exact H.
  Qed.

  Lemma split_ok : forall v, half_ok (ff1_split v).
  Proof. intro v. split; apply rev_bits_range. Qed.
  Lemma join_split : forall v, 0 <= v < ff1_half * ff1_half -> ff1_join (ff1_split v) = v.
  Proof.
    intros v H. unfold ff1_join, ff1_split. cbn [fst snd]. pose proof ff1_half_pos.
    rewrite !rev_rev_bits.
    - rewrite (Z.div_mod v ff1_half) at 3 by lia. ring.
    - split; [apply Z.div_pos; lia|apply Z.div_lt_upper_bound; lia].
    - apply Z.mod_pos_bound. lia.
  Qed.
  Lemma split_join : forall ab, half_ok ab -> ff1_split (ff1_join ab) = ab.
  Proof.
    intros [a b] [H1 H2]. cbn [fst snd] in *. unfold ff1_join, ff1_split. cbn [fst snd].
    pose proof (rev_bits_range a) as Ra.
    assert (E1 : (rev_bits 44 a + ff1_half * rev_bits 44 b) mod ff1_half = rev_bits 44 a)
      by (symmetry; apply (Z.mod_unique_pos _ _ (rev_bits 44 b)); [exact Ra|ring]).
    assert (E2 : (rev_bits 44 a + ff1_half * rev_bits 44 b) / ff1_half = rev_bits 44 b)
      by (symmetry; apply (Z.div_unique_pos _ _ _ (rev_bits 44 a)); [exact Ra|ring]).
    rewrite E1, E2, !rev_rev_bits by assumption. reflexivity.
  Qed.
  Lemma join_range : forall ab, half_ok ab -> 0 <= ff1_join ab < ff1_half * ff1_half.
  Proof.
    intros [a b] _. unfold ff1_join. cbn [fst snd].
    pose proof (rev_bits_range a). pose proof (rev_bits_range b). nia.
  Qed.
  Lemma pow_11 : 256 ^ Z.of_nat 11 = ff1_half * ff1_half. Proof. reflexivity. Qed.

  Lemma val_11 : forall b : bytes, length b = 11%nat -> 0 <= le_val b < ff1_half * ff1_half.
  Proof. intros b H. pose proof (le_val_range b) as R. rewrite H, pow_11 in R. exact R. Qed.

  Lemma dk_get_length : forall dk j, length (dk_get dk j) = 11%nat.
  Proof. intros. apply le_bytes_length. Qed.
  Lemma dk_index_length : forall dk d, length (dk_index dk d) = 11%nat.
  Proof. intros. apply le_bytes_length. Qed.

  Lemma dk_index_get : forall dk j, length j = 11%nat -> dk_index dk (dk_get dk j) = j.
  Proof.
    intros dk j H. unfold dk_index, dk_get.
    assert (HO : half_ok (ff1_split (le_val j))) by (apply split_ok).
    rewrite le_val_le_bytes by (rewrite pow_11; apply join_range, enc_ok, HO).
    rewrite split_join by (apply enc_ok, HO). rewrite dec_enc by exact HO.
    rewrite join_split by (apply val_11, H). apply le_bytes_le_val. exact H.
  Qed.
  Lemma dk_get_index : forall dk d, length d = 11%nat -> dk_get dk (dk_index dk d) = d.
  Proof.
    intros dk d H. unfold dk_index, dk_get.
    assert (HO : half_ok (ff1_split (le_val d))) by (apply split_ok).
    rewrite le_val_le_bytes by (rewrite pow_11; apply join_range, dec_ok, HO).
    rewrite split_join by (apply dec_ok, HO). rewrite enc_dec by exact HO.
    rewrite join_split by (apply val_11, H). apply le_bytes_le_val. exact H.
  Qed.

  Lemma address_eqb_eq : forall a b : address, address_eqb a b = true <-> a = b.
  Proof.
    intros [d p] [d' p']. unfold address_eqb. cbn [ad_d ad_pk_d].
    rewrite andb_true_iff, bytes_eqb_eq, (eqb_true L). split; [intros [-> ->]; reflexivity|].
    intro H. injection H as -> ->. auto.
  Qed.

  Lemma index_of_address_at : forall k j, length j = 11%nat ->
    ivk_diversifier_index k (ivk_address_at k j) = Some j.
  Proof.
    intros k j H. unfold ivk_diversifier_index.
    assert (E : dk_index (ivk_dk k) (ad_d (ivk_address_at k j)) = j).
    { unfold ivk_address_at, ivk_address, kapk_address. cbn [ad_d]. apply dk_index_get. exact H. }
    rewrite E. rewrite (proj2 (address_eqb_eq _ _) eq_refl). reflexivity.
  Qed.

  Lemma index_spec : forall k a j, ivk_diversifier_index k a = Some j ->
    length j = 11%nat /\ a = ivk_address_at k j.
  Proof.
    intros k a j H. unfold ivk_diversifier_index in H.
    destruct (address_eqb _ a) eqn:E; [|discriminate H]. injection H as <-.
    split; [apply dk_index_length|]. apply address_eqb_eq in E. symmetry. exact E.
  Qed.

  Lemma index_iff : forall k a j,
    ivk_diversifier_index k a = Some j <-> (length j = 11%nat /\ a = ivk_address_at k j).
  Proof.
    intros k a j. split; [apply index_spec|]. intros [H ->]. apply index_of_address_at. exact H.
  Qed.

  Lemma address_at_inj : forall k i j, length i = 11%nat -> length j = 11%nat ->
    ivk_address_at k i = ivk_address_at k j -> i = j.
  Proof.
    intros k i j Hi Hj H. pose proof (index_of_address_at k i Hi) as E. rewrite H in E.
    rewrite index_of_address_at in E by exact Hj. congruence.
  Qed.

  (** Every address of the key has an index. *)
  Lemma index_of_address : forall k d, length d = 11%nat ->
    exists j, ivk_diversifier_index k (ivk_address k d) = Some j /\ length j = 11%nat.
  Proof.
    intros k d H. exists (dk_index (ivk_dk k) d). split; [|apply dk_index_length].
    apply index_iff. split; [apply dk_index_length|]. unfold ivk_address_at.
    rewrite dk_get_index by exact H. reflexivity.
  Qed.

  Lemma numbered_indices : forall (k : ivk) i j, 0 <= i < 2 ^ 32 -> 0 <= j < 2 ^ 32 ->
    length (div_index_of_u32 i) = 11%nat /\ le_val (div_index_of_u32 i) = i /\
    (ivk_address_at k (div_index_of_u32 i) = ivk_address_at k (div_index_of_u32 j) <-> i = j).
  Proof.
    intros k i j Hi Hj. assert (B : forall x, 0 <= x < 2 ^ 32 -> 0 <= x < 256 ^ Z.of_nat 11).
    { intros x H. assert (2 ^ 32 < 256 ^ Z.of_nat 11) by reflexivity. lia. }
    split; [apply le_bytes_length|]. split; [apply le_val_le_bytes; exact (B i Hi)|]. split; [|intros ->; reflexivity]. intro H.
    apply (le_bytes_inj 11); [exact (B i Hi)|exact (B j Hj)|]. apply (address_at_inj k); [apply le_bytes_length|apply le_bytes_length|exact H].
  Qed.

  (** * scope_for_address (C36) *)

  Lemma is_some_index : forall k a,
    is_some (ivk_diversifier_index k a) = true <-> exists j, length j = 11%nat /\ a = ivk_address_at k j.
  Proof.
    intros k a. split.
    - intro H. destruct (ivk_diversifier_index k a) as [j|] eqn:E; [|discriminate H].
      exists j. apply index_spec. exact E.
    - intros (j & H & E). rewrite (proj2 (index_iff k a j)) by (split; assumption). reflexivity.
  Qed.

  Lemma derives_iff : forall f s k a, fvk_to_ivk f s = Ret k ->
    (derives f s a <-> is_some (ivk_diversifier_index k a) = true).
  Proof.
    intros f s k a H. rewrite is_some_index. unfold derives, fvk_address_at. rewrite H. cbn [obind].
    split; intros (j & Hj & E); exists j; split; try exact Hj.
    - injection E as <-. reflexivity.
    - subst. reflexivity.
  Qed.

  Lemma scope_spec : forall f a, fvk_ok f -> exists o, fvk_scope_for_address f a = Ret o /\
    match o with
    | Some External => derives f External a
    | Some Internal => derives f Internal a /\ ~ derives f External a
    | None => ~ derives f External a /\ ~ derives f Internal a
    end.
  Proof.
    intros f a H.
    destruct (fvk_ok_to_ivk f External H) as (ke & HE & _). destruct (fvk_ok_to_ivk f Internal H) as (ki & HI & _).
    pose proof (derives_iff f External ke a HE) as DE. pose proof (derives_iff f Internal ki a HI) as DI.
    unfold fvk_scope_for_address. rewrite HE. cbn [obind].
    destruct (is_some (ivk_diversifier_index ke a)).
    - eexists. split; [reflexivity|]. apply DE. reflexivity.
    - rewrite HI. cbn [obind]. destruct (is_some (ivk_diversifier_index ki a)).
      + eexists. split; [reflexivity|]. split; [apply DI; reflexivity|]. intro X. apply DE in X. discriminate X.
      + eexists. split; [reflexivity|]. split; intro X; [apply DE in X|apply DI in X]; discriminate X.
  Qed.

  (** * Key agreement (C38) *)

  Lemma diversify_hash_nonid : forall d, gd_fallback_ok -> diversify_hash d <> pt_id.
  Proof.
    intros d H. unfold diversify_hash.
    destruct (pt_is_id (hash_to_curve "z.cash:Orchard-gd" d)) eqn:E; [exact H|].
    apply (is_id_false L). exact E.
  Qed.

  Lemma ivk_address_ok : forall k d, gd_fallback_ok -> ivk_ok k -> length d = 11%nat -> address_ok (ivk_address k d).
  Proof.
    intros k d HG [_ R] HL. split; [exact HL|]. cbn [ivk_address kapk_address ad_pk_d].
    unfold ivk_address, kapk_address, pk_d_derive, ka_orchard. cbn [ad_pk_d].
    apply (mul_nonid L); [pose proof pmod_lt_qmod; lia|apply diversify_hash_nonid; exact HG].
  Qed.

  Lemma key_agreement : forall k d esk, gd_fallback_ok -> ivk_ok k -> is_scalar esk -> esk <> 0 ->
    let pk_d := ad_pk_d (ivk_address k d) in
    let epk := esk_derive_public esk (diversify_hash d) in
    esk_agree esk pk_d = epk_agree epk (ivk_ivk k) /\ esk_agree esk pk_d <> pt_id /\ epk <> pt_id /\ pk_d <> pt_id.
  Proof.
    intros k d esk HG [_ R] HS N. cbn zeta.
    unfold ivk_address, kapk_address, pk_d_derive, esk_agree, epk_agree, esk_derive_public, ka_orchard. cbn [ad_pk_d].
    pose proof (diversify_hash_nonid d HG) as NI. pose proof pmod_lt_qmod. unfold is_scalar in HS.
    split; [apply (mul_comm_scalar L)|]. split; [|split].
    - apply (mul_nonid L); [lia|]. apply (mul_nonid L); [lia|exact NI].
    - apply (mul_nonid L); [lia|exact NI].
    - apply (mul_nonid L); [lia|exact NI].
  Qed.

  (** * Statements assembled for ThmKeys.v *)

  Lemma sk_from_bytes_some : forall sk sk', sk_from_bytes sk = Ret (Some sk') -> sk' = sk.
  Proof. intros sk sk' H. apply (sk_from_bytes_inv _ _ H). Qed.

  Lemma sk_from_bytes_panic_iff : forall sk,
    (to_scalar (prf_expand sk dom_orchard_ask []) = 0 <-> exists why, sk_from_bytes sk = Panic why) /\
    (to_scalar (prf_expand sk dom_orchard_ask []) <> 0 <->
       sk_from_bytes sk = Ret None \/ sk_from_bytes sk = Ret (Some sk)).
  Proof.
    intro sk. change (to_scalar (prf_expand sk dom_orchard_ask [])) with (ask_inner sk).
    destruct (Z.eq_dec (ask_inner sk) 0) as [E|E].
    - rewrite (sk_from_bytes_panics sk E). split; split; intro H.
      + eexists. reflexivity.
      + exact E.
      + contradiction.
      + destruct H as [H|H]; discriminate H.
    - destruct (sk_from_bytes_total sk E) as [[sk'|] H].
      + pose proof (sk_from_bytes_some _ _ H) as ->. rewrite H. split; split; intro X; try contradiction.
        * destruct X as [w X]. discriminate X.
        * right. reflexivity.
        * exact E.
      + rewrite H. split; split; intro X; try contradiction.
        * destruct X as [w X]. discriminate X.
        * left. reflexivity.
        * exact E.
  Qed.

  Lemma fvk_codec :
    (forall f, fvk_ok f -> length (fvk_to_bytes f) = 96%nat /\ fvk_from_bytes (fvk_to_bytes f) = Ret (Some f)) /\
    (forall b f, length b = 96%nat -> fvk_from_bytes b = Ret (Some f) -> fvk_ok f /\ fvk_to_bytes f = b) /\
    (forall b, length b = 96%nat -> exists o, fvk_from_bytes b = Ret o) /\
    (forall b f r, fvk_read b = Ret (Some (f, r)) -> fvk_ok f /\ b = fvk_to_bytes f ++ r) /\
    (forall f r, fvk_ok f -> fvk_read (fvk_to_bytes f ++ r) = Ret (Some (f, r))).
  Proof.
    split; [intros f H; split; [apply fvk_to_bytes_length|apply fvk_roundtrip; exact H]|].
    split; [exact fvk_from_bytes_inv|]. split; [exact fvk_from_bytes_total|]. split.
    - intros b f r H. unfold fvk_read in H. destruct (Nat.ltb_spec (length b) 96) as [X|X]; [discriminate H|].
      destruct (fvk_from_bytes (firstn 96 b)) as [[f'|]|w|] eqn:E; try discriminate H.
      cbn [obind] in H. assert (f' = f) by congruence. assert (r = skipn 96 b) by congruence. subst.
      apply fvk_from_bytes_inv in E as [E1 E2]; [|rewrite firstn_length; lia].
      split; [exact E1|]. rewrite E2. symmetry. apply firstn_skipn.
    - intros f r H. unfold fvk_read. rewrite app_length, fvk_to_bytes_length.
      rewrite (proj2 (Nat.ltb_ge (96 + length r) 96)) by lia.
      rewrite (firstn_app_len _ (fvk_to_bytes f) r 96 (fvk_to_bytes_length f)).
      rewrite (skipn_app_len _ (fvk_to_bytes f) r 96 (fvk_to_bytes_length f)).
      rewrite fvk_roundtrip by exact H. reflexivity.
  Qed.

  Lemma fvk_ok_usable : forall f, fvk_ok f ->
    forall s, (exists k, fvk_to_ivk f s = Ret k /\ ivk_ok k) /\
              (exists o, fvk_to_ovk f s = Ret o /\ length o = 32%nat) /\
              (forall j, exists a, fvk_address_at f j s = Ret a) /\
              (forall d, exists a, fvk_address f d s = Ret a) /\
              (forall a, exists o, fvk_scope_for_address f a = Ret o).
  Proof.
    intros f H s. destruct (fvk_ok_to_ivk f s H) as (k & Hk & Ok). split; [exists k; split; assumption|].
    split; [apply fvk_ok_to_ovk; exact H|]. split; [|split].
    - intro j. unfold fvk_address_at. rewrite Hk. eexists. reflexivity.
    - intro d. eexists. apply fvk_address_ivk. exact Hk.
    - intro a. destruct (scope_spec f a H) as (o & Ho & _). exists o. exact Ho.
  Qed.

  Lemma ivk_codec :
    (forall k, ivk_ok k -> length (ivk_to_bytes k) = 64%nat /\ ivk_from_bytes (ivk_to_bytes k) = Ret (Some k)) /\
    (forall b k, length b = 64%nat -> ivk_from_bytes b = Ret (Some k) -> ivk_ok k /\ ivk_to_bytes k = b) /\
    (forall b, length b = 64%nat -> exists o, ivk_from_bytes b = Ret o).
  Proof.
    split; [intros k H; split; [apply ivk_bytes_length|apply ivk_roundtrip]; exact H|].
    split; [exact ivk_from_bytes_inv|exact ivk_from_bytes_total].
  Qed.

  Lemma address_codec :
    (forall a, address_ok a -> length (address_to_bytes a) = 43%nat /\ address_from_bytes (address_to_bytes a) = Some a) /\
    (forall b a, length b = 43%nat -> address_from_bytes b = Some a -> address_ok a /\ address_to_bytes a = b).
  Proof.
    split; [intros a H; split; [apply address_bytes_length|apply address_roundtrip]; exact H|].
    exact address_from_bytes_inv.
  Qed.

  Lemma ivk_addresses_ok : forall k, gd_fallback_ok -> ivk_ok k ->
    (forall d, length d = 11%nat -> address_ok (ivk_address k d)) /\
    (forall j, length j = 11%nat -> address_ok (ivk_address_at k j)).
  Proof.
    intros k G K. split; [intros d H; apply ivk_address_ok; assumption|].
    intros j H. apply ivk_address_ok; try assumption. apply dk_get_length.
  Qed.

  Lemma fvk_from_sk_ak : forall sk f, fvk_from_sk sk = Ret f ->
    exists ask, ask_from_sk sk = Ret ask /\ fvk_ak f = pt_mul ask (basepoint SpendAuth).
  Proof. intros sk f H. destruct (fvk_from_sk_spec _ _ H) as (ask & A & B & _). exists ask. split; assumption. Qed.

  Lemma randomize_ok : forall ask alpha msg r,
    vk_of SpendAuth (sk_randomize ask alpha) = vk_randomize (ak_of_ask ask) alpha /\
    verify SpendAuth (vk_randomize (ak_of_ask ask) alpha) msg
           (fst (sign SpendAuth (sk_randomize ask alpha) msg r)) = true.
  Proof. intros. split; [apply randomize_consistent|apply randomized_signature]. Qed.
End Keys.
