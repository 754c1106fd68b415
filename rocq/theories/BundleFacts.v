(** Proofs about Bundle.v: commitments, instances, scanning. *)
From Coq Require Import String ZArith List Bool Lia Sorted.
From Coq Require Import Init.Byte.
From Verif Require Import Prelude Fields Curve Oracles RedPallas Value Keys Note Action NoteEnc Bundle Batch
  PreludeFacts CurveFacts CodecFacts FieldFacts Spec KeysSpec KeysFacts NoteSpec NoteFacts NoteEncSpec NoteEncFacts BundleSpec.
Import ListNotations.
Open Scope Z_scope.

#[local] Opaque le_bytes le_val.

(** Concatenations of parts of one positive length determine the parts. *)
Lemma flat_map_len : forall A (f : A -> bytes) n l, (forall a, In a l -> length (f a) = n) ->
  length (flat_map f l) = (n * length l)%nat.
Proof.
  induction l as [|a l IH]; intro H; cbn [flat_map length]; [lia|].
  rewrite app_length, (H a (or_introl eq_refl)), IH; [lia|]. intros b Hb. apply H. right. exact Hb.
Qed.
Lemma flat_map_inj : forall A B (f : A -> bytes) (g : B -> bytes) n l l', (0 < n)%nat ->
  (forall a, In a l -> length (f a) = n) -> (forall b, In b l' -> length (g b) = n) ->
  flat_map f l = flat_map g l' -> map f l = map g l'.
Proof.
  induction l as [|a l IH]; destruct l' as [|b l']; intros N F G H; cbn [flat_map map] in *.
  - reflexivity.
  - exfalso. apply (f_equal (@length byte)) in H. rewrite app_length, (G b (or_introl eq_refl)) in H. cbn [length] in H. lia.
  - exfalso. apply (f_equal (@length byte)) in H. rewrite app_length, (F a (or_introl eq_refl)) in H. cbn [length] in H. lia.
  - apply app_inj_len in H as [H1 H2]; [|rewrite (F a (or_introl eq_refl)), (G b (or_introl eq_refl)); reflexivity].
    rewrite H1. f_equal. apply IH; [exact N| | |exact H2]; intros x Hx; [apply F|apply G]; right; exact Hx.
Qed.

Section Bundle.
  Context {C : Curve} {OR : @Oracles C}.
  Variable L : CurveLaws C.

  Lemma blake2b_len : forall n p m, length (blake2b n p m) = n.
  Proof. intros. unfold blake2b. apply fit_length. Qed.

  #[local] Opaque blake2b.
  (** * C22 *)
  Lemma compact_part_length : forall A (a : action A), action_ok a -> length (compact_part a) = 148%nat.
  Proof.
    intros A a [_ _ CT]. unfold compact_part, nf_to_bytes, cmx_to_bytes. rewrite !app_length, !to_repr_length, (co_epk _ CT).
    rewrite slice_length; [reflexivity|lia|]. rewrite (co_enc _ CT). lia.
  Qed.
  Lemma memo_part_length : forall A (a : action A), action_ok a -> length (memo_part a) = 512%nat.
  Proof.
    intros A a [_ _ CT]. unfold memo_part. rewrite slice_length; [reflexivity|lia|]. rewrite (co_enc _ CT). lia.
  Qed.
  Lemma noncompact_part_length : forall A (a : action A), action_ok a -> length (noncompact_part a) = 160%nat.
  Proof.
    intros A a [_ _ CT]. unfold noncompact_part, cv_to_bytes, vk_to_bytes.
    rewrite !app_length, !encode_length, skipn_length, (co_enc _ CT), (co_out _ CT). reflexivity.
  Qed.

  Lemma parts_determine : forall A B (a : action A) (b : action B), action_ok a -> action_ok b ->
    compact_part a = compact_part b -> memo_part a = memo_part b -> noncompact_part a = noncompact_part b ->
    action_effects a = action_effects b.
  Proof.
    intros A B a b KA KB H1 H2 H3. unfold compact_part, memo_part, noncompact_part in *.
    destruct KA as [NA XA [EA CA OA]], KB as [NB XB [EB CB OB]].
    apply app_inj_len in H1 as [N H1]; [|unfold nf_to_bytes; rewrite !to_repr_length; reflexivity].
    apply app_inj_len in H1 as [X H1]; [|unfold cmx_to_bytes; rewrite !to_repr_length; reflexivity].
    apply app_inj_len in H1 as [E H1]; [|rewrite EA, EB; reflexivity].
    apply app_inj_len in H3 as [V H3]; [|unfold cv_to_bytes; rewrite !encode_length; reflexivity].
    apply app_inj_len in H3 as [K H3]; [|unfold vk_to_bytes; rewrite !encode_length; reflexivity].
    apply app_inj_len in H3 as [S O]; [|rewrite !skipn_length, CA, CB; reflexivity].
    apply to_repr_inj_base in N; [|assumption|assumption]. apply to_repr_inj_base in X; [|assumption|assumption].
    apply (encode_inj L) in V. apply (encode_inj L) in K.
    assert (ENC : ct_enc (a_ct a) = ct_enc (a_ct b)).
    { rewrite <- (firstn_skipn 564 (ct_enc (a_ct a))), <- (firstn_skipn 564 (ct_enc (a_ct b))). f_equal; [|exact S].
      change (firstn 564 (ct_enc (a_ct a))) with (slice 0 564 (ct_enc (a_ct a))).
      change (firstn 564 (ct_enc (a_ct b))) with (slice 0 564 (ct_enc (a_ct b))).
      rewrite <- (slice_app 0 52 564 (ct_enc (a_ct a))), <- (slice_app 0 52 564 (ct_enc (a_ct b))) by lia.
      rewrite H1, H2. reflexivity. }
    unfold action_effects, a_map. destruct a as [nf rk cmx [epk enc out] cv au], b as [nf' rk' cmx' [epk' enc' out'] cv' au'].
    cbn [a_nf a_rk a_cmx a_ct a_cv ct_epk ct_enc ct_out] in *. congruence.
  Qed.

  Lemma data_determine : forall A B (l : list (action A)) (l' : list (action B)),
    Forall action_ok l -> Forall action_ok l' ->
    compact_data l = compact_data l' -> memo_data l = memo_data l' -> noncompact_data l = noncompact_data l' ->
    map action_effects l = map action_effects l'.
  Proof.
    intros A B l l' HL HL' H1 H2 H3.
    pose proof (proj1 (Forall_forall _ _) HL) as F. pose proof (proj1 (Forall_forall _ _) HL') as F'.
    apply (flat_map_inj _ _ _ _ 148) in H1; [|lia|intros a Ha; apply compact_part_length, F, Ha|intros a Ha; apply compact_part_length, F', Ha].
    apply (flat_map_inj _ _ _ _ 512) in H2; [|lia|intros a Ha; apply memo_part_length, F, Ha|intros a Ha; apply memo_part_length, F', Ha].
    apply (flat_map_inj _ _ _ _ 160) in H3; [|lia|intros a Ha; apply noncompact_part_length, F, Ha|intros a Ha; apply noncompact_part_length, F', Ha].
    clear F F'. revert l' HL' H1 H2 H3.
    induction HL as [|a l KA HL IH]; intros l' HL' H1 H2 H3; destruct HL' as [|b l' KB HL']; cbn [map] in *; try discriminate H1; [reflexivity|].
    assert (E1 : compact_part a = compact_part b) by congruence. assert (E2 : memo_part a = memo_part b) by congruence.
    assert (E3 : noncompact_part a = noncompact_part b) by congruence.
    f_equal; [apply parts_determine; assumption|]. apply IH; [exact HL'|congruence|congruence|congruence].
  Qed.

  Lemma flags_byte_inj : forall f f', [byte_of_Z (flags_to_byte f)] = [byte_of_Z (flags_to_byte f')] -> f = f'.
  Proof. intros [[] []] [[] []] H; try reflexivity; vm_compute in H; discriminate H. Qed.

  Lemma balance_inj : forall v w, is_i64 v -> is_i64 w -> le_bytes 8 (v mod 2 ^ 64) = le_bytes 8 (w mod 2 ^ 64) -> v = w.
  Proof.
    intros v w HV HW H. apply le_bytes_inj in H; [| |]; try (change (256 ^ Z.of_nat 8) with (2 ^ 64); apply Z.mod_pos_bound; lia).
    unfold is_i64 in *. pose proof (Z.div_mod v (2 ^ 64) ltac:(lia)). pose proof (Z.div_mod w (2 ^ 64) ltac:(lia)).
    pose proof (Z.mod_pos_bound v (2 ^ 64) ltac:(lia)). pose proof (Z.mod_pos_bound w (2 ^ 64) ltac:(lia)). nia.
  Qed.

  Lemma eq_or_collision : forall p (m m' : bytes), blake2b 32 p m = blake2b 32 p m' -> m = m' \/ collision p m m'.
  Proof.
    intros p m m' H. destruct (bytes_eqb m m') eqn:E; [left; apply bytes_eqb_eq; exact E|].
    right. split; [|exact H]. intros ->. rewrite bytes_eqb_refl in E. discriminate E.
  Qed.

  Lemma commitment_binds : forall T S T' S' V (into : V -> Z) (b : bundle T S V) (b' : bundle T' S' V),
    (forall v w, into v = into w -> v = w) ->
    bundle_ok into b -> bundle_ok into b' -> bundle_commitment into b = bundle_commitment into b' ->
    effects b = effects b' \/ txid_collision into b b'.
  Proof.
    intros T S T' S' V into b b' INJ [A1 _ B1 N1] [A2 _ B2 N2] H. unfold txid_collision.
    apply eq_or_collision in H as [H|H]; [|right; left; exact H].
    unfold txid_data in H.
    apply app_inj_len in H as [H1 H]; [|rewrite !blake2b_len; reflexivity].
    apply app_inj_len in H as [H2 H]; [|rewrite !blake2b_len; reflexivity].
    apply app_inj_len in H as [H3 H]; [|rewrite !blake2b_len; reflexivity].
    apply app_inj_len in H as [H4 H]; [|reflexivity].
    apply app_inj_len in H as [H5 H6]; [|rewrite !le_bytes_length; reflexivity].
    apply eq_or_collision in H1 as [H1|H1]; [|right; right; left; exact H1].
    apply eq_or_collision in H2 as [H2|H2]; [|right; right; right; left; exact H2].
    apply eq_or_collision in H3 as [H3|H3]; [|right; right; right; right; exact H3].
    left. unfold effects. apply flags_byte_inj in H4. apply balance_inj in H5; [|assumption|assumption].
    apply INJ in H5. apply to_repr_inj_base in H6; [|assumption|assumption].
    rewrite H4, H5, H6, (data_determine _ _ _ _ A1 A2 H1 H2 H3). reflexivity.
  Qed.

  Lemma commitment_of_effects : forall T S T' S' V (into : V -> Z) (b : bundle T S V) (b' : bundle T' S' V),
    effects b = effects b' -> bundle_commitment into b = bundle_commitment into b'.
  Proof.
    intros T S T' S' V into b b' H. unfold effects in H. injection H as HA HF HV HN.
    unfold bundle_commitment, txid_data. rewrite HF, HV, HN.
    assert (E : forall (X : forall A, action A -> bytes), (forall A (a : action A), X unit (action_effects a) = X A a) ->
       flat_map (X S) (b_actions b) = flat_map (X S') (b_actions b')).
    { intros X HX. rewrite !flat_map_concat_map. f_equal.
      rewrite (map_ext _ (fun a => X unit (action_effects a)) (fun a => eq_sym (HX _ a))).
      rewrite (map_ext (X S') (fun a => X unit (action_effects a)) (fun a => eq_sym (HX _ a))).
      rewrite <- (map_map action_effects (X unit) (b_actions b)), HA, map_map. reflexivity. }
    unfold compact_data, memo_data, noncompact_data.
    rewrite (E (@compact_part _)), (E (@memo_part _)), (E (@noncompact_part _)); try reflexivity; intros A a; destruct a; reflexivity.
  Qed.

  (** * C23 *)
  Lemma sig_bytes_inj : forall s s', wf_sig s -> wf_sig s' -> sig_bytes s = sig_bytes s' -> s = s'.
  Proof.
    intros [r s] [r' s'] [A B] [A' B'] H. unfold sig_bytes in H. cbn [sig_r sig_s] in *.
    apply app_inj_len in H as [-> ->]; [reflexivity|congruence].
  Qed.
  Lemma sig_bytes_length : forall s, wf_sig s -> length (sig_bytes s) = 64%nat.
  Proof. intros s [A B]. unfold sig_bytes. rewrite app_length, A, B. reflexivity. Qed.

  Lemma app_inj_len_r : forall A (a b c d : list A), length b = length d -> a ++ b = c ++ d -> a = c /\ b = d.
  Proof.
    intros A a b c d HL H. apply app_inj_len; [|exact H].
    apply (f_equal (@length A)) in H. rewrite !app_length in H. lia.
  Qed.

  Lemma actions_determined : forall (l l' : list (action signature)),
    Forall (fun a => wf_sig (a_auth a)) l -> Forall (fun a => wf_sig (a_auth a)) l' ->
    map action_effects l = map action_effects l' ->
    map (fun a => sig_bytes (a_auth a)) l = map (fun a => sig_bytes (a_auth a)) l' -> l = l'.
  Proof.
    intros l l' HL. revert l'. induction HL as [|a l WA HL IH]; intros l' HL' E S; destruct HL' as [|b l' WB HL']; cbn [map] in *; try discriminate E; [reflexivity|].
    assert (E1 : action_effects a = action_effects b) by congruence. assert (S1 : sig_bytes (a_auth a) = sig_bytes (a_auth b)) by congruence.
    apply sig_bytes_inj in S1; [|assumption|assumption].
    f_equal.
    - destruct a as [nf rk cmx ct cv au], b as [nf' rk' cmx' ct' cv' au'].
      unfold action_effects, a_map in E1. cbn [a_nf a_rk a_cmx a_ct a_cv a_auth] in *. congruence.
    - apply IH; [exact HL'|congruence|congruence].
  Qed.

  Lemma both_bind : forall V (into : V -> Z) (b b' : bundle authorized signature V),
    (forall v w, into v = into w -> v = w) ->
    bundle_ok into b -> bundle_ok into b' -> auth_ok b -> auth_ok b' ->
    bundle_commitment into b = bundle_commitment into b' -> authorizing_commitment b = authorizing_commitment b' ->
    b = b' \/ txid_collision into b b' \/ collision "ZTxAuthOrchaHash" (auth_data b) (auth_data b').
  Proof.
    intros V into b b' INJ K K' [S1 B1] [S2 B2] H HA.
    destruct (commitment_binds _ _ _ _ _ into b b' INJ K K' H) as [E|E]; [|right; left; exact E].
    apply eq_or_collision in HA as [HA|HA]; [|right; right; exact HA]. left.
    unfold effects in E. injection E as EA EF EV EN.
    assert (LEN : length (b_actions b) = length (b_actions b')).
    { apply (f_equal (@length _)) in EA. rewrite !map_length in EA. exact EA. }
    pose proof (proj1 (Forall_forall _ _) S1) as F1. pose proof (proj1 (Forall_forall _ _) S2) as F2.
    assert (FL1 : forall a, In a (b_actions b) -> length (sig_bytes (a_auth a)) = 64%nat) by (intros a Ha; apply sig_bytes_length, F1, Ha).
    assert (FL2 : forall a, In a (b_actions b') -> length (sig_bytes (a_auth a)) = 64%nat) by (intros a Ha; apply sig_bytes_length, F2, Ha).
    unfold auth_data in HA. rewrite !app_assoc in HA.
    apply app_inj_len_r in HA as [HA HB]; [|rewrite !sig_bytes_length by assumption; reflexivity].
    apply app_inj_len_r in HA as [HP HS].
    2:{ rewrite (flat_map_len _ _ 64 _ FL1), (flat_map_len _ _ 64 _ FL2), LEN. reflexivity. }
    apply sig_bytes_inj in HB; [|assumption|assumption].
    apply (flat_map_inj _ _ _ _ 64) in HS; [|lia|exact FL1|exact FL2].
    pose proof (actions_determined _ _ S1 S2 EA HS) as EAC.
    destruct b as [acts f v an [pr bs]], b' as [acts' f' v' an' [pr' bs']].
    cbn [b_actions b_flags b_value_balance b_anchor b_auth au_proof au_binding_sig] in *. congruence.
  Qed.

  (** * C52 *)
  Lemma cv_coords : forall P, cv_x P = pt_x P /\ cv_y P = pt_y P.
  Proof.
    intro P. unfold cv_x, cv_y. destruct (pt_eqb P pt_id) eqn:E; [|split; reflexivity].
    apply (eqb_true L) in E. subst P. rewrite (x_id L), (y_id L). split; reflexivity.
  Qed.

  Lemma halo2_instance_ret : forall i, to_halo2_instance i =
    if pt_is_id (i_rk i) then Panic "rk coordinates"
    else Ret [i_anchor i; pt_x (i_cv_net i); pt_y (i_cv_net i); i_nf_old i; pt_x (i_rk i); pt_y (i_rk i);
              i_cmx i; Z.b2z (i_enable_spend i); Z.b2z (i_enable_output i)].
  Proof.
    intro i. unfold to_halo2_instance, vk_to_bytes. rewrite (decode_encode L). cbn [unwrap obind].
    destruct (pt_is_id (i_rk i)); cbn [negb assert_ obind]; [reflexivity|].
    destruct (cv_coords (i_cv_net i)) as [-> ->]. reflexivity.
  Qed.

  Lemma b2z_inj : forall a b, Z.b2z a = Z.b2z b -> a = b.
  Proof. intros [] [] H; try reflexivity; discriminate H. Qed.

  Lemma instance_inj : forall i j l, to_halo2_instance i = Ret l -> to_halo2_instance j = Ret l -> i = j.
  Proof.
    intros i j l HI HJ. rewrite halo2_instance_ret in HI, HJ.
    destruct (pt_is_id (i_rk i)); [discriminate HI|]. destruct (pt_is_id (i_rk j)); [discriminate HJ|].
    destruct i as [an cv nf rk cmx es eo], j as [an' cv' nf' rk' cmx' es' eo'].
    cbn [i_anchor i_cv_net i_nf_old i_rk i_cmx i_enable_spend i_enable_output] in *.
    assert (E : [an; pt_x cv; pt_y cv; nf; pt_x rk; pt_y rk; cmx; Z.b2z es; Z.b2z eo] =
                [an'; pt_x cv'; pt_y cv'; nf'; pt_x rk'; pt_y rk'; cmx'; Z.b2z es'; Z.b2z eo']) by congruence.
    injection E as E1 E2 E3 E4 E5 E6 E7 E8 E9. apply b2z_inj in E8, E9.
    rewrite (coords_inj L _ _ E2 E3), (coords_inj L _ _ E5 E6). congruence.
  Qed.

  Lemma omap_spec : forall A B (f : A -> outcome B) l bs, omap f l = Ret bs <-> Forall2 (fun a b => f a = Ret b) l bs.
  Proof.
    induction l as [|a l IH]; intro bs; cbn [omap]; split; intro H.
    - injection H as <-. constructor.
    - inversion H. reflexivity.
    - destruct (f a) as [b|w|] eqn:E; cbn [obind] in H; try discriminate H.
      destruct (omap f l) as [bs'|w|] eqn:E'; cbn [obind] in H; try discriminate H.
      injection H as <-. constructor; [exact E|apply IH; reflexivity].
    - inversion H as [|a0 b l0 bs' E F]; subst. rewrite E. cbn [obind]. apply IH in F. rewrite F. reflexivity.
  Qed.

  Lemma omap_panic : forall A B (f : A -> outcome B) l, (forall a, f a <> OutOfFuel) -> (forall bs, omap f l <> Ret bs) ->
    exists w, omap f l = Panic w.
  Proof.
    induction l as [|a l IH]; intros HF H; cbn [omap] in *; [exfalso; apply (H []); reflexivity|].
    destruct (f a) as [b|w|] eqn:E; cbn [obind] in *; [|eexists; reflexivity|exfalso; apply (HF a E)].
    destruct IH as [w E']; [exact HF| |rewrite E'; eexists; reflexivity].
    intros bs E'. rewrite E' in H. cbn [obind] in H. apply (H _ eq_refl).
  Qed.

  Lemma instances_inj : forall A (l l' : list (action A)) f an f' an' r,
    l <> [] ->
    omap to_halo2_instance (map (fun a => to_instance a f an) l) = Ret r ->
    omap to_halo2_instance (map (fun a => to_instance a f' an') l') = Ret r ->
    f = f' /\ an = an' /\ map (fun a => (a_cv a, a_nf a, a_rk a, a_cmx a)) l = map (fun a => (a_cv a, a_nf a, a_rk a, a_cmx a)) l'.
  Proof.
    intros A l l' f an f' an' r NE H H'. apply omap_spec in H, H'.
    assert (G : Forall2 (fun a b => to_instance a f an = to_instance b f' an') l l').
    { clear NE. revert r l' H H'. induction l as [|a l IH]; intros r l' H H'; cbn [map] in H.
      - inversion H; subst. inversion H' as [E|]; destruct l'; [constructor|discriminate E].
      - inversion H as [|x y xs ys E F]; subst. destruct l' as [|a' l']; cbn [map] in H'; [inversion H'|].
        inversion H' as [|x' y' xs' ys' E' F']; subst.
        constructor; [apply (instance_inj _ _ _ E E')|apply (IH _ _ F F')]. }
    clear H H'. destruct G as [|a b l l' E G]; [congruence|].
    unfold to_instance in E. injection E as E1 E2 E3 E4 E5 E6 E7.
    split; [destruct f as [x y], f' as [x' y']; cbn [spends_enabled outputs_enabled] in *; congruence|]. split; [exact E1|].
    cbn [map]. f_equal; [congruence|]. clear -G.
    induction G as [|x y l l' E G IH]; [reflexivity|]. cbn [map]. rewrite IH. f_equal.
    unfold to_instance in E. congruence.
  Qed.

  (** * C53 *)
  Lemma verify_proof_total : forall halo2 V (b : bundle authorized signature V),
    (exists ok, verify_proof halo2 b = Ret ok) <-> (forall a, In a (b_actions b) -> a_rk a <> pt_id).
  Proof.
    intros halo2 V b. unfold verify_proof, proof_verify, to_instances.
    assert (G : (exists is, omap to_halo2_instance (map (fun a => to_instance a (b_flags b) (b_anchor b)) (b_actions b)) = Ret is) <->
                (forall a, In a (b_actions b) -> a_rk a <> pt_id)).
    { induction (b_actions b) as [|a l IH].
      - split; [intros _ a []|]. intros _. exists []. reflexivity.
      - cbn [map omap]. rewrite halo2_instance_ret. unfold to_instance at 1. cbn [i_rk]. destruct (pt_is_id (a_rk a)) eqn:E.
        + split; [intros [is H]; discriminate H|]. intro H. exfalso. apply (H a (or_introl eq_refl)). apply (is_id_true L). exact E.
        + cbn [obind]. split.
          * intros [is H] x [<- | Hx]; [apply (is_id_false L); exact E|]. apply IH; [|exact Hx].
            destruct (omap to_halo2_instance _) as [is'|w|]; cbn [obind] in H; try discriminate H. exists is'. reflexivity.
          * intro H. destruct (proj2 IH) as [is' E']; [intros x Hx; apply H; right; exact Hx|].
            rewrite E'. cbn [obind]. eexists. reflexivity. }
    split.
    - intros [ok H]. apply G. destruct (omap to_halo2_instance _) as [is|w|]; cbn [obind] in H; try discriminate H. exists is. reflexivity.
    - intro H. apply G in H as [is H]. rewrite H. cbn [obind]. eexists. reflexivity.
  Qed.

  (** * C25 *)
  Lemma find_map_spec : forall K R (f : K -> outcome (option R)) l,
    (forall k, In k l -> exists r, f k = Ret r) ->
    exists r, find_map f l = Ret r /\
      (forall x, r = Some x <-> exists j k, nth_error l j = Some k /\ f k = Ret (Some x) /\
                 forall i k', (i < j)%nat -> nth_error l i = Some k' -> f k' = Ret None).
  Proof.
    induction l as [|k l IH]; intro T; cbn [find_map].
    - exists None. split; [reflexivity|]. intro x. split; [discriminate|]. intros (j & k & H & _). destruct j; discriminate H.
    - destruct (T k (or_introl eq_refl)) as [rk E]. rewrite E. cbn [obind].
      destruct IH as (r & E' & S); [intros k' Hk; apply T; right; exact Hk|].
      destruct rk as [y|].
      + exists (Some y). split; [reflexivity|]. intro x. split.
        * intro H. injection H as <-. exists 0%nat, k. split; [reflexivity|]. split; [exact E|]. intros i k' Hi. lia.
        * intros ([|j] & k2 & Hk & Hf & Hb); cbn [nth_error] in Hk; [congruence|].
          specialize (Hb 0%nat k ltac:(lia) eq_refl). congruence.
      + exists r. split; [exact E'|]. intro x. rewrite S. split.
        * intros (j & k2 & Hk & Hf & Hb). exists (Datatypes.S j), k2. split; [exact Hk|]. split; [exact Hf|].
          intros [|i] k' Hi Hn; cbn [nth_error] in Hn; [congruence|]. apply (Hb i); [lia|exact Hn].
        * intros ([|j] & k2 & Hk & Hf & Hb); cbn [nth_error] in Hk; [congruence|].
          exists j, k2. split; [exact Hk|]. split; [exact Hf|]. intros i k' Hi Hn. apply (Hb (Datatypes.S i)); [lia|exact Hn].
  Qed.

  Lemma enum_filter_map_spec : forall A B (f : nat -> A -> outcome (option B)) l i0,
    (forall i a, nth_error l i = Some a -> exists r, f (i0 + i)%nat a = Ret r) ->
    exists res, enum_filter_map f i0 l = Ret res /\
      exists idx, map snd idx = res /\ StronglySorted lt (map fst idx) /\
        (forall i, In i (map fst idx) -> (i0 <= i)%nat) /\
        (forall i x, In (i, x) idx <-> exists a, (i0 <= i)%nat /\ nth_error l (i - i0) = Some a /\ f i a = Ret (Some x)).
  Proof.
    induction l as [|a l IH]; intros i0 T; cbn [enum_filter_map].
    - exists []. split; [reflexivity|]. exists []. split; [reflexivity|]. split; [constructor|]. split; [intros i []|].
      intros i x. split; [intros []|]. intros (a & _ & H & _). destruct (i - i0)%nat; discriminate H.
    - destruct (T 0%nat a eq_refl) as [r E]. rewrite Nat.add_0_r in E. rewrite E. cbn [obind].
      destruct (IH (S i0)) as (res & E' & idx & M & SS & LB & IN).
      { intros i b H. replace (S i0 + i)%nat with (i0 + S i)%nat by lia. apply T. exact H. }
      rewrite E'. cbn [obind]. eexists. split; [reflexivity|].
      assert (STEP : forall i x, In (i, x) idx <-> exists b, (i0 < i)%nat /\ nth_error (a :: l) (i - i0) = Some b /\ f i b = Ret (Some x)).
      { intros i x. rewrite IN. split; intros (b & H1 & H2 & H3); exists b; (split; [lia|]); split; try assumption.
        - replace (i - i0)%nat with (S (i - S i0)) by lia. exact H2.
        - replace (i - i0)%nat with (S (i - S i0)) in H2 by lia. exact H2. }
      destruct r as [y|].
      + exists ((i0, y) :: idx). cbn [map fst snd]. split; [rewrite M; reflexivity|].
        split; [constructor; [exact SS|apply Forall_forall; intros i Hi; specialize (LB i Hi); lia]|].
        split; [intros i [<- | Hi]; [lia|specialize (LB i Hi); lia]|].
        intros i x. cbn [In]. rewrite STEP. split.
        * intros [H | (b & H1 & H2)]; [|exists b; split; [lia|exact H2]]. assert (i = i0) by congruence. assert (x = y) by congruence. subst.
          exists a. split; [lia|]. rewrite Nat.sub_diag. split; [reflexivity|exact E].
        * intros (b & H1 & H2 & H3). destruct (Nat.eq_dec i i0) as [->|N].
          -- left. rewrite Nat.sub_diag in H2. cbn [nth_error] in H2. congruence.
          -- right. exists b. split; [lia|]. split; assumption.
      + exists idx. split; [exact M|]. split; [exact SS|]. split; [intros i Hi; specialize (LB i Hi); lia|].
        intros i x. rewrite STEP. split; intros (b & H1 & H2 & H3).
        * exists b. split; [lia|]. split; assumption.
        * destruct (Nat.eq_dec i i0) as [->|N]; [|exists b; split; [lia|split; assumption]].
          rewrite Nat.sub_diag in H2. cbn [nth_error] in H2. congruence.
  Qed.

  (** The shape shared by the two scanning functions. *)
  Lemma scan_spec : forall K A R (try : K -> A -> outcome (option R)) keys acts,
    (forall k a, In k keys -> In a acts -> exists r, try k a = Ret r) ->
    exists res, enum_filter_map (fun idx a => find_map (fun k => let! d := try k a in
                   Ret (match d with Some x => Some (idx, k, x) | None => None end)) keys) 0 acts = Ret res /\
      scan_of try keys acts res.
  Proof.
    intros K A R try keys acts T.
    assert (FM : forall (idx : nat) a, In a acts -> exists r, find_map (fun k => let! d := try k a in
                   Ret (match d with Some x => Some (idx, k, x) | None => None end)) keys = Ret r /\
       (forall i k x, r = Some (i, k, x) <-> i = idx /\ first_hit try keys a k x)).
    { intros idx a Ha. destruct (find_map_spec K _ (fun k => let! d := try k a in
                   Ret (match d with Some x => Some (idx, k, x) | None => None end)) keys) as (r & E & S).
      - intros k Hk. destruct (T k a Hk Ha) as [d Ed]. rewrite Ed. cbn [obind]. eexists. reflexivity.
      - exists r. split; [exact E|]. intros i k x. rewrite S. unfold first_hit. split.
        + intros (j & k2 & Hj & Hf & Hb). destruct (T k2 a (nth_error_In _ _ Hj) Ha) as [d Ed]. rewrite Ed in Hf. cbn [obind] in Hf.
          destruct d as [x'|]; [|discriminate Hf]. assert (k2 = k) by congruence. assert (x' = x) by congruence. assert (i = idx) by congruence. subst.
          split; [reflexivity|]. exists j. split; [exact Hj|]. split; [exact Ed|]. intros i' k' Hi Hn.
          destruct (T k' a (nth_error_In _ _ Hn) Ha) as [d' Ed']. specialize (Hb i' k' Hi Hn). cbn beta in Hb. rewrite Ed' in Hb. cbn [obind] in Hb.
          destruct d'; [discriminate Hb|exact Ed'].
        + intros (-> & j & Hj & Hf & Hb). exists j, k. split; [exact Hj|]. rewrite Hf. cbn [obind]. split; [reflexivity|].
          intros i' k' Hi Hn. rewrite (Hb i' k' Hi Hn). reflexivity. }
    destruct (enum_filter_map_spec _ _ (fun idx a => find_map (fun k => let! d := try k a in
                   Ret (match d with Some x => Some (idx, k, x) | None => None end)) keys) acts 0) as (res & E & idx & M & SS & _ & IN).
    { intros i a H. destruct (FM (0 + i)%nat a (nth_error_In _ _ H)) as (r & Er & _). exists r. exact Er. }
    exists res. split; [exact E|].
    assert (KEYED : forall i x, In (i, x) idx -> fst (fst x) = i).
    { intros i [[i' k] x] H. apply IN in H as (a & _ & Ha & Hf). rewrite Nat.sub_0_r in Ha.
      destruct (FM i a (nth_error_In _ _ Ha)) as (r & Er & S). rewrite Er in Hf. injection Hf as ->.
      apply (S i' k x). reflexivity. }
    split.
    - rewrite <- M, map_map. replace (map (fun x => fst (fst (snd x))) idx) with (map fst idx); [exact SS|].
      apply map_ext_in. intros [i x] H. symmetry. apply (KEYED i x H).
    - intros i k x. rewrite <- M, in_map_iff. split.
      + intros ([i' y] & Hy & H). cbn [snd] in Hy. subst y. pose proof (KEYED _ _ H) as Ei. cbn [fst] in Ei. subst i'.
        apply IN in H as (a & _ & Ha & Hf). rewrite Nat.sub_0_r in Ha. exists a. split; [exact Ha|].
        destruct (FM i a (nth_error_In _ _ Ha)) as (r & Er & S). rewrite Er in Hf. injection Hf as ->. apply (S i k x). reflexivity.
      + intros (a & Ha & FH). exists (i, (i, k, x)). split; [reflexivity|]. apply IN. exists a. split; [lia|]. rewrite Nat.sub_0_r.
        split; [exact Ha|]. destruct (FM i a (nth_error_In _ _ Ha)) as (r & Er & S). rewrite Er. f_equal. apply S. split; [reflexivity|exact FH].
  Qed.

  Definition flatten_entry {K} (e : nat * K * (note * address * bytes)) : nat * K * note * address * bytes :=
    let '(i, k, (n, a, m)) := e in (i, k, n, a, m).

  Lemma enum_filter_map_map : forall A B D (g : B -> D) (f : nat -> A -> outcome (option B)) (f' : nat -> A -> outcome (option D)) l i,
    (forall i a, f' i a = let! x := f i a in Ret (option_map g x)) ->
    enum_filter_map f' i l = let! x := enum_filter_map f i l in Ret (map g x).
  Proof.
    induction l as [|a l IH]; intros i H; cbn [enum_filter_map obind]; [reflexivity|].
    rewrite H. destruct (f i a) as [x|w|]; cbn [obind]; try reflexivity. rewrite (IH (Datatypes.S i) H).
    destruct (enum_filter_map f (Datatypes.S i) l); cbn [obind]; try reflexivity. destruct x; reflexivity.
  Qed.
  Lemma find_map_map : forall A B D (g : B -> D) (f : A -> outcome (option B)) (f' : A -> outcome (option D)) l,
    (forall a, f' a = let! x := f a in Ret (option_map g x)) ->
    find_map f' l = let! x := find_map f l in Ret (option_map g x).
  Proof.
    induction l as [|a l IH]; intro H; cbn [find_map obind]; [reflexivity|].
    rewrite H. destruct (f a) as [[x|]|w|]; cbn [obind option_map]; try reflexivity. apply (IH H).
  Qed.

  Lemma decrypt_all : forall T S V (into : V -> Z) (b : bundle T S V) keys, gd_fallback_ok ->
    bundle_ok into b -> Forall ivk_ok keys ->
    (exists res, decrypt_outputs_with_keys b keys = Ret (map flatten_entry res) /\
       scan_of (fun k i => decrypt_output_with_key b i k) keys (seq 0 (length (b_actions b))) res) /\
    (forall i k, (length (b_actions b) <= i)%nat -> decrypt_output_with_key b i k = Ret None).
  Proof.
    intros T S V into b keys GD K HK. split.
    2:{ intros i k H. unfold decrypt_output_with_key. apply nth_error_None in H. rewrite H. reflexivity. }
    pose proof (proj1 (Forall_forall _ _) HK) as FK. pose proof (proj1 (Forall_forall _ _) (bo_actions _ _ K)) as FA.
    destruct (scan_spec _ _ _ (@try_note_decryption C OR S) keys (b_actions b)) as (res & E & SC & IN).
    { intros k a Hk Ha. destruct (FA a Ha) as [N X CT]. destruct (full_sound L _ k a GD (FK k Hk) CT N X) as (r & Er & _). exists r. exact Er. }
    exists res. split.
    - unfold decrypt_outputs_with_keys.
      rewrite (enum_filter_map_map _ _ _ flatten_entry (fun idx a => find_map (fun k => let! d := try_note_decryption k a in
                   Ret (match d with Some x => Some (idx, k, x) | None => None end)) keys)).
      + rewrite E. reflexivity.
      + intros i a. apply find_map_map. intro k. destruct (try_note_decryption k a) as [[[[n to] m]|]|w|]; reflexivity.
    - split; [exact SC|]. intros i k x. rewrite IN.
      assert (D : forall a k', nth_error (b_actions b) i = Some a -> decrypt_output_with_key b i k' = try_note_decryption k' a)
        by (intros a k' Ha; unfold decrypt_output_with_key; rewrite Ha; reflexivity).
      split.
      + intros (a & Ha & j & H1 & H2 & H3). exists i. split.
        * assert (LT : (i < length (b_actions b))%nat) by (apply nth_error_Some; congruence).
          rewrite (nth_error_nth' _ 0%nat) by (rewrite seq_length; exact LT). rewrite seq_nth by exact LT. reflexivity.
        * exists j. split; [exact H1|]. rewrite (D a _ Ha). split; [exact H2|]. intros i' k' Hi Hn. rewrite (D a _ Ha). apply (H3 i' k' Hi Hn).
      + intros (i' & Hi & j & H1 & H2 & H3). 
        assert (LT : (i < length (b_actions b))%nat) by (rewrite <- (seq_length (length (b_actions b)) 0); apply nth_error_Some; congruence).
        rewrite (nth_error_nth' _ 0%nat) in Hi by (rewrite seq_length; exact LT). rewrite seq_nth in Hi by exact LT.
        assert (i' = i) by (injection Hi as <-; reflexivity). subst i'.
        destruct (nth_error (b_actions b) i) as [a|] eqn:Ha; [|apply nth_error_None in Ha; lia].
        exists a. split; [reflexivity|]. exists j. split; [exact H1|]. rewrite <- (D a _ eq_refl). split; [exact H2|].
        intros i' k' Hi' Hn. rewrite <- (D a _ eq_refl). apply (H3 i' k' Hi' Hn).
  Qed.

  Lemma recover_all : forall T S V (into : V -> Z) (b : bundle T S V) (keys : list bytes),
    bundle_ok into b ->
    (exists res, recover_outputs_with_ovks b keys = Ret (map flatten_entry res) /\
       scan_of (fun k i => recover_output_with_ovk b i k) keys (seq 0 (length (b_actions b))) res) /\
    (forall i k, (length (b_actions b) <= i)%nat -> recover_output_with_ovk b i k = Ret None).
  Proof.
    intros T S V into b keys K. split.
    2:{ intros i k H. unfold recover_output_with_ovk. apply nth_error_None in H. rewrite H. reflexivity. }
    pose proof (proj1 (Forall_forall _ _) (bo_actions _ _ K)) as FA.
    destruct (scan_spec _ _ _ (@try_output_recovery C OR S) keys (b_actions b)) as (res & E & SC & IN).
    { intros k a Hk Ha. destruct (FA a Ha) as [N X CT]. destruct (recovery_sound L _ k a CT N X) as (r & Er & _). exists r. exact Er. }
    exists res. split.
    - unfold recover_outputs_with_ovks.
      rewrite (enum_filter_map_map _ _ _ flatten_entry (fun idx a => find_map (fun k => let! d := try_output_recovery k a in
                   Ret (match d with Some x => Some (idx, k, x) | None => None end)) keys)).
      + rewrite E. reflexivity.
      + intros i a. apply find_map_map. intro k. destruct (try_output_recovery k a) as [[[[n to] m]|]|w|]; reflexivity.
    - split; [exact SC|]. intros i k x. rewrite IN.
      assert (D : forall a k', nth_error (b_actions b) i = Some a -> recover_output_with_ovk b i k' = try_output_recovery k' a)
        by (intros a k' Ha; unfold recover_output_with_ovk; rewrite Ha; reflexivity).
      split.
      + intros (a & Ha & j & H1 & H2 & H3). exists i. split.
        * assert (LT : (i < length (b_actions b))%nat) by (apply nth_error_Some; congruence).
          rewrite (nth_error_nth' _ 0%nat) by (rewrite seq_length; exact LT). rewrite seq_nth by exact LT. reflexivity.
        * exists j. split; [exact H1|]. rewrite (D a _ Ha). split; [exact H2|]. intros i' k' Hi Hn. rewrite (D a _ Ha). apply (H3 i' k' Hi Hn).
      + intros (i' & Hi & j & H1 & H2 & H3). 
        assert (LT : (i < length (b_actions b))%nat) by (rewrite <- (seq_length (length (b_actions b)) 0); apply nth_error_Some; congruence).
        rewrite (nth_error_nth' _ 0%nat) in Hi by (rewrite seq_length; exact LT). rewrite seq_nth in Hi by exact LT.
        assert (i' = i) by (injection Hi as <-; reflexivity). subst i'.
        destruct (nth_error (b_actions b) i) as [a|] eqn:Ha; [|apply nth_error_None in Ha; lia].
        exists a. split; [reflexivity|]. exists j. split; [exact H1|]. rewrite <- (D a _ eq_refl). split; [exact H2|].
        intros i' k' Hi' Hn. rewrite <- (D a _ eq_refl). apply (H3 i' k' Hi' Hn).
  Qed.
End Bundle.
