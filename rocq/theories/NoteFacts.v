(** Proofs about src/note.rs and src/note/. *)
From Coq Require Import String ZArith List Bool Lia.
From Coq Require Import Init.Byte.
From Verif Require Import Prelude Fields Curve Oracles Sinsemilla RedPallas Value Keys Note
  PreludeFacts CurveFacts ValueFacts CodecFacts KeysSpec KeysFacts NoteSpec SinsSpec SinsFacts.
Import ListNotations.
Open Scope Z_scope.

#[local] Opaque sins_commit prf_expand to_scalar to_base le_bits bytes_bits msg_words sins_Q commit_R lin.

Lemma pow255_Z : 2 ^ Z.of_nat 255 = 2 ^ 255. Proof. reflexivity. Qed.

Lemma base_bits_inj : forall x y, is_base x -> is_base y -> base_bits x = base_bits y -> x = y.
Proof.
  intros x y Hx Hy H. unfold base_bits, l_orchard_base in H. pose proof pmod_lt_pow255. unfold is_base in *.
  apply (le_bits_inj 255); rewrite ?pow255_Z; try lia. exact H.
Qed.
Lemma base_bits_length : forall x, length (base_bits x) = 255%nat.
Proof. intro x. apply le_bits_length. Qed.
Lemma value_bits_length : forall v, length (note_value_bits v) = 64%nat.
Proof. intro v. unfold note_value_bits. rewrite bytes_bits_length, le_bytes_length. reflexivity. Qed.

Section Note.
  Context {C : Curve} {OR : @Oracles C}.
  Variable L : CurveLaws C.

  Lemma bytes_bits_len32 : forall P : point, length (bytes_bits (pt_encode P)) = 256%nat.
  Proof. intro P. rewrite bytes_bits_length, encode_length. reflexivity. Qed.

  Lemma note_msg_length : forall g pk v rho psi,
    length (note_commit_msg (pt_encode g) (pt_encode pk) v rho psi) = 1086%nat.
  Proof.
    intros. unfold note_commit_msg. rewrite !app_length, !bytes_bits_len32, value_bits_length, !base_bits_length.
    reflexivity.
  Qed.

  Lemma note_msg_inj : forall g pk v rho psi g' pk' v' rho' psi',
    is_u64 v -> is_u64 v' -> is_base rho -> is_base rho' -> is_base psi -> is_base psi' ->
    note_commit_msg (pt_encode g) (pt_encode pk) v rho psi =
    note_commit_msg (pt_encode g') (pt_encode pk') v' rho' psi' ->
    g = g' /\ pk = pk' /\ v = v' /\ rho = rho' /\ psi = psi'.
  Proof.
    intros g pk v rho psi g' pk' v' rho' psi' Hv Hv' Hr Hr' Hp Hp' H. unfold note_commit_msg in H.
    apply app_inj_len in H as [H1 H]; [|rewrite !bytes_bits_len32; reflexivity].
    apply app_inj_len in H as [H2 H]; [|rewrite !bytes_bits_len32; reflexivity].
    apply app_inj_len in H as [H3 H]; [|rewrite !value_bits_length; reflexivity].
    apply app_inj_len in H as [H4 H5]; [|rewrite !base_bits_length; reflexivity].
    apply bytes_bits_inj in H1; [|rewrite !encode_length; reflexivity].
    apply bytes_bits_inj in H2; [|rewrite !encode_length; reflexivity].
    unfold note_value_bits in H3. apply bytes_bits_inj in H3; [|rewrite !le_bytes_length; reflexivity].
    apply (le_bytes_inj 8) in H3; [|exact Hv|exact Hv'].
    apply base_bits_inj in H4; [|assumption|assumption]. apply base_bits_inj in H5; [|assumption|assumption].
    split; [apply (encode_inj L); exact H1|]. split; [apply (encode_inj L); exact H2|]. auto.
  Qed.

  Lemma psi_range : forall rs rho, is_base (rseed_psi rs rho).
  Proof. intros. apply to_base_range. Qed.
  Lemma rcm_range : forall rs rho, is_scalar (rseed_rcm rs rho).
  Proof. intros. apply to_scalar_range. Qed.

  Lemma commitment_spec : forall n, commitment n =
    match sins_commit "z.cash:Orchard-NoteCommit" (note_msg n) (rseed_rcm (n_rseed n) (n_rho n)) with
    | Some cm => Ret cm | None => Panic "Note::commitment" end.
  Proof. intro n. reflexivity. Qed.

  (** Equality of notes is equality of extracted commitments; when it holds, the contents and
      the trapdoor agree or the two messages give a relation between the generators. *)
  Lemma note_eq_spec : forall a b, note_eqb a b = Ret true <->
    exists ca cb, commitment a = Ret ca /\ commitment b = Ret cb /\ pt_x ca = pt_x cb.
  Proof.
    intros a b. unfold note_eqb. split.
    - intro H. inv_ret. rename a0 into ca, a1 into cb. exists ca, cb. split; [assumption|]. split; [assumption|].
      match goal with X : (_ =? _) = true |- _ => apply Z.eqb_eq in X; exact X end.
    - intros (ca & cb & Ha & Hb & E). rewrite Ha, Hb. cbn [obind]. unfold cmx_of, extract_p. rewrite E, Z.eqb_refl. reflexivity.
  Qed.

  Lemma same_cmx : forall a b ca cb, note_ok a -> note_ok b ->
    commitment a = Ret ca -> commitment b = Ret cb -> pt_x ca = pt_x cb ->
    (note_contents a = note_contents b /\ rseed_rcm (n_rseed a) (n_rho a) = rseed_rcm (n_rseed b) (n_rho b)) \/
    sins_relation_R (sins_Q "z.cash:Orchard-NoteCommit-M") (commit_R "z.cash:Orchard-NoteCommit")
      (msg_words (note_msg a)) (msg_words (note_msg b))
      (rseed_rcm (n_rseed a) (n_rho a)) (rseed_rcm (n_rseed b) (n_rho b)).
  Proof.
    intros a b ca cb Ka Kb Ha Hb E. rewrite commitment_spec in Ha, Hb.
    destruct (sins_commit _ (note_msg a) _) as [x|] eqn:Ea; [|discriminate Ha]. injection Ha as ->.
    destruct (sins_commit _ (note_msg b) _) as [y|] eqn:Eb; [|discriminate Hb]. injection Hb as ->.
    assert (LB : (length (note_msg a) <= 2530)%nat) by (unfold note_msg; rewrite note_msg_length; lia).
    assert (LE : length (note_msg a) = length (note_msg b)) by (unfold note_msg; rewrite !note_msg_length; reflexivity).
    pose proof (fun NE => commit_collision L _ _ _ _ _ ca cb LE LB NE Ea Eb E) as K.
    change ("z.cash:Orchard-NoteCommit" ++ "-M")%string with "z.cash:Orchard-NoteCommit-M"%string in K.
    destruct (list_eq_dec bool_dec (note_msg a) (note_msg b)) as [M|M].
    - destruct (Z.eq_dec (rseed_rcm (n_rseed a) (n_rho a)) (rseed_rcm (n_rseed b) (n_rho b))) as [R|R].
      + left. split; [|exact R]. clear K LB LE. unfold note_msg in M.
        apply note_msg_inj in M as (M1 & M2 & M3 & M4 & M5); try apply psi_range;
          try apply (no_value _ Ka); try apply (no_value _ Kb); try apply (no_rho _ Ka); try apply (no_rho _ Kb).
        unfold note_contents. rewrite M1, M2, M3, M5, M4. reflexivity.
      + right. apply K.
        intro X. apply R. pose proof (rcm_range (n_rseed a) (n_rho a)) as RA. pose proof (rcm_range (n_rseed b) (n_rho b)) as RB.
        unfold is_scalar in *. apply (f_equal snd) in X. cbn [snd] in X.
        rewrite Z.mod_small in X by exact RA. rewrite Z.mod_small in X by exact RB. exact X.
    - right. apply K. intro X. apply M. apply (f_equal fst) in X. exact X.
  Qed.

  Lemma from_parts_spec : forall a v rho rs n, note_from_parts a v rho rs = Some n ->
    n = mk_note a v rho rs /\ exists cm, commitment n = Ret cm.
  Proof.
    intros a v rho rs n H. unfold note_from_parts in H. unfold commitment.
    destruct (commitment_inner (mk_note a v rho rs)) as [cm|] eqn:E; [|discriminate H].
    cbn [is_some] in H. injection H as <-. split; [reflexivity|]. exists cm. rewrite E. reflexivity.
  Qed.

  Lemma from_parts_none : forall a v rho rs, note_from_parts a v rho rs = None ->
    sins_exception (sins_Q "z.cash:Orchard-NoteCommit-M") (msg_words (note_msg (mk_note a v rho rs))).
  Proof.
    intros a v rho rs H. unfold note_from_parts in H.
    destruct (commitment_inner (mk_note a v rho rs)) as [cm|] eqn:E; [discriminate H|].
    change "z.cash:Orchard-NoteCommit-M"%string with ("z.cash:Orchard-NoteCommit" ++ "-M")%string.
    apply (commit_none L _ _ (rseed_rcm rs rho)). exact E.
  Qed.

  (** * Random seeds *)

  Lemma esk_inner_some : forall rs rho x, rseed_esk_inner rs rho = Some x -> is_scalar x /\ x <> 0.
  Proof.
    intros rs rho x H. unfold rseed_esk_inner in H. apply nonzero_some in H as [-> N].
    split; [apply to_scalar_range|exact N].
  Qed.

  Lemma rseed_from_bytes_spec : forall b rho s, rseed_from_bytes b rho = Some s ->
    s = b /\ exists e, rseed_esk s rho = Ret e /\ is_scalar e /\ e <> 0.
  Proof.
    intros b rho s H. unfold rseed_from_bytes in H. destruct (rseed_esk_inner b rho) as [x|] eqn:E; [|discriminate H].
    cbn [is_some] in H. injection H as <-. split; [reflexivity|]. exists x. unfold rseed_esk. rewrite E.
    split; [reflexivity|]. apply (esk_inner_some _ _ _ E).
  Qed.

  Lemma rseed_from_bytes_none : forall b rho, rseed_from_bytes b rho = None <->
    exists w, rseed_esk b rho = Panic w.
  Proof.
    intros b rho. unfold rseed_from_bytes, rseed_esk. destruct (rseed_esk_inner b rho); cbn [is_some unwrap]; split; intro H.
    - discriminate H.
    - destruct H as [w H]. discriminate H.
    - eexists. reflexivity.
    - reflexivity.
  Qed.

  Lemma rng_bytes_length : forall n r, length (fst (rng_bytes n r)) = n.
  Proof. intros n r. unfold rng_bytes. destruct (o_rng_bytes r n). apply fit_length. Qed.

  Lemma rseed_random_spec : forall fuel rho r s r', rseed_random fuel rho r = Ret (s, r') ->
    length s = 32%nat /\ rseed_from_bytes s rho = Some s.
  Proof.
    induction fuel as [|fuel IH]; intros rho r s r' H; [discriminate H|]. cbn [rseed_random] in H.
    pose proof (rng_bytes_length 32 r) as HL. destruct (rng_bytes 32 r) as [b r1]. cbn [fst] in HL.
    destruct (rseed_from_bytes b rho) as [s'|] eqn:E.
    - injection H as <- <-. destruct (rseed_from_bytes_spec _ _ _ E) as [-> _]. split; assumption.
    - apply (IH _ _ _ _ H).
  Qed.

  (** Note::new gives a well-formed note with a commitment and an esk, for exactly the
      requested recipient, value and rho. *)
  Lemma note_new_spec : forall fuel a v rho r n r', note_new fuel a v rho r = Ret (n, r') ->
    n_recipient n = a /\ n_value n = v /\ n_rho n = rho /\ length (n_rseed n) = 32%nat /\
    (exists cm, commitment n = Ret cm) /\ (exists e, note_esk n = Ret e /\ is_scalar e /\ e <> 0).
  Proof.
    induction fuel as [|fuel IH]; intros a v rho r n r' H; [discriminate H|]. cbn [note_new] in H.
    destruct (rseed_random (S fuel) rho r) as [[s r1]|w|] eqn:E; cbn [obind] in H; try discriminate H.
    destruct (note_from_parts a v rho s) as [n'|] eqn:F; [|apply (IH _ _ _ _ _ _ H)].
    assert (n' = n) by congruence. subst n'. destruct (from_parts_spec _ _ _ _ _ F) as [-> CM].
    destruct (rseed_random_spec _ _ _ _ _ E) as [HL HR].
    cbn [n_recipient n_value n_rho n_rseed]. repeat split; try assumption.
    unfold note_esk. cbn [n_rseed n_rho]. apply (rseed_from_bytes_spec _ _ _ HR).
  Qed.

  (** * Spending keys from randomness, dummy notes *)

  Lemma sk_random_spec : forall fuel r sk r', sk_random fuel r = Ret (sk, r') ->
    length sk = 32%nat /\ sk_from_bytes sk = Ret (Some sk).
  Proof.
    induction fuel as [|fuel IH]; intros r sk r' H; [discriminate H|]. cbn [sk_random] in H.
    pose proof (rng_bytes_length 32 r) as HL. destruct (rng_bytes 32 r) as [b r1]. cbn [fst] in HL.
    destruct (sk_from_bytes b) as [[s|]|w|] eqn:E; cbn [obind] in H; try discriminate H.
    - injection H as <- <-. pose proof (sk_from_bytes_some _ _ E). subst s. split; assumption.
    - apply (IH _ _ _ H).
  Qed.

  Lemma nf_dummy_range : forall r, is_base (fst (nf_dummy r)).
  Proof. intro r. unfold nf_dummy. destruct (o_rng_point r) as [P r']. apply (x_range L). Qed.

  Lemma note_dummy_spec : forall fuel rho r sk f n r',
    gd_fallback_ok -> (forall x, rho = Some x -> is_base x) ->
    note_dummy fuel rho r = Ret (sk, f, n, r') ->
    sk_from_bytes sk = Ret (Some sk) /\ fvk_from_sk sk = Ret f /\ note_ok n /\ n_value n = 0 /\
    fvk_address_at f (div_index_of_u32 0) External = Ret (n_recipient n) /\
    (forall x, rho = Some x -> n_rho n = x) /\
    (exists cm, commitment n = Ret cm) /\ (exists e, note_esk n = Ret e /\ is_scalar e /\ e <> 0).
  Proof.
    intros fuel rho r sk f n r' GD HR H. unfold note_dummy in H.
    destruct (sk_random fuel r) as [[sk0 r1]|w|] eqn:E1; cbn [obind] in H; try discriminate H.
    destruct (fvk_from_sk sk0) as [f0|w|] eqn:E2; cbn [obind] in H; try discriminate H.
    destruct (fvk_address_at f0 (div_index_of_u32 0) External) as [a|w|] eqn:E3; cbn [obind] in H; try discriminate H.
    set (p := match rho with Some x => (x, r1) | None => let (nf, r'0) := nf_dummy r1 in (rho_from_nf_old nf, r'0) end) in *.
    assert (HP : is_base (fst p)).
    { unfold p. destruct rho as [x|]; [apply HR; reflexivity|].
      pose proof (nf_dummy_range r1) as X. destruct (nf_dummy r1) as [nf r2]. exact X. }
    assert (HQ : forall x, rho = Some x -> fst p = x) by (intros x ->; reflexivity).
    destruct p as [rho' r2]. cbn [fst] in HP, HQ.
    destruct (note_new fuel a 0 rho' r2) as [[n0 r3]|w|] eqn:E4; cbn [obind] in H; try discriminate H.
    injection H as <- <- <- <-.
    destruct (sk_random_spec _ _ _ _ E1) as [SL SO].
    destruct (note_new_spec _ _ _ _ _ _ _ E4) as (N1 & N2 & N3 & N4 & N5 & N6).
    split; [exact SO|]. split; [exact E2|]. split.
    - constructor.
      + rewrite N1. destruct (sk_usable L _ _ SO) as (_ & f1 & F1 & _ & _ & _ & _ & U).
        rewrite E2 in F1. injection F1 as <-. destruct (U External) as ((k & HK & OK) & _).
        unfold fvk_address_at in E3. rewrite HK in E3. cbn [obind] in E3. injection E3 as <-.
        apply (ivk_addresses_ok L k GD OK). apply le_bytes_length.
      + rewrite N2. unfold is_u64. lia.
      + rewrite N3. exact HP.
      + exact N4.
    - split; [exact N2|]. split; [rewrite N1; exact E3|]. split; [|split; assumption].
      intros x X. rewrite N3. apply HQ. exact X.
  Qed.

  (** * Nullifiers *)

  Lemma prf_nf_range : forall a b, is_base (prf_nf a b).
  Proof. intros. unfold prf_nf. apply Z.mod_pos_bound. apply pmod_pos. Qed.

  Lemma nf_derive_ret : forall nk rho psi cm,
    nf_derive nk rho psi cm =
      Ret (pt_x (pt_add (pt_mul ((prf_nf nk rho + psi) mod pmod) nullifier_K) cm)).
  Proof.
    intros. unfold nf_derive. rewrite mod_r_p_ret; [reflexivity|]. apply Z.mod_pos_bound. apply pmod_pos.
  Qed.

  Lemma nullifier_total : forall n f cm, commitment n = Ret cm ->
    exists nf, note_nullifier n f = Ret nf /\ is_base nf /\
      nf = pt_x (pt_add (pt_mul ((prf_nf (fvk_nk f) (n_rho n) + rseed_psi (n_rseed n) (n_rho n)) mod pmod) nullifier_K) cm).
  Proof.
    intros n f cm H. unfold note_nullifier. rewrite H. cbn [obind]. rewrite nf_derive_ret.
    eexists. split; [reflexivity|]. split; [apply (x_range L)|reflexivity].
  Qed.

  (** * Statements assembled for ThmNote.v *)

  Lemma equal_notes : forall a b, note_ok a -> note_ok b -> note_eqb a b = Ret true ->
    exists ca cb, commitment a = Ret ca /\ commitment b = Ret cb /\ pt_x ca = pt_x cb /\
    ((note_contents a = note_contents b /\
      rseed_rcm (n_rseed a) (n_rho a) = rseed_rcm (n_rseed b) (n_rho b)) \/
     sins_relation_R (sins_Q "z.cash:Orchard-NoteCommit-M") (commit_R "z.cash:Orchard-NoteCommit")
       (msg_words (note_msg a)) (msg_words (note_msg b))
       (rseed_rcm (n_rseed a) (n_rho a)) (rseed_rcm (n_rseed b) (n_rho b))).
  Proof.
    intros a b Ka Kb H. apply note_eq_spec in H as (ca & cb & Ha & Hb & E). exists ca, cb.
    split; [exact Ha|]. split; [exact Hb|]. split; [exact E|]. apply (same_cmx a b ca cb); assumption.
  Qed.

  Lemma from_parts_full : forall a v rho rs,
    (forall n, note_from_parts a v rho rs = Some n ->
       n = mk_note a v rho rs /\ (exists cm, commitment n = Ret cm) /\
       forall f, exists nf, note_nullifier n f = Ret nf) /\
    (note_from_parts a v rho rs = None -> exists w, commitment (mk_note a v rho rs) = Panic w).
  Proof.
    intros a v rho rs. split.
    - intros n H. destruct (from_parts_spec _ _ _ _ _ H) as [E [cm CM]]. split; [exact E|]. split; [exists cm; exact CM|].
      intro f. unfold note_nullifier. rewrite CM. cbn [obind]. rewrite nf_derive_ret. eexists. reflexivity.
    - intro H. unfold note_from_parts in H. unfold commitment.
      destruct (commitment_inner _); [discriminate H|]. eexists. reflexivity.
  Qed.

  Lemma esk_same_rho : forall b rho rseed, rseed_from_bytes b rho = Some rseed ->
    rseed = b /\
    forall a v n, note_from_parts a v rho rseed = Some n ->
    exists e, note_esk n = Ret e /\ is_scalar e /\ e <> 0.
  Proof.
    intros b rho rseed H. destruct (rseed_from_bytes_spec _ _ _ H) as [-> E]. split; [reflexivity|].
    intros a v n N. destruct (from_parts_spec _ _ _ _ _ N) as [-> _]. exact E.
  Qed.
End Note.
