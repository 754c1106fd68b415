(** What build makes of a plan: actions, value balance, panics (C08-C16). *)
From Coq Require Import String ZArith List Bool Lia Permutation.
From Coq Require Import Init.Byte.
From Verif Require Import Prelude Fields Curve Oracles RedPallas Value Keys Note Tree Action NoteEnc Bundle Builder
  PreludeFacts CurveFacts CodecFacts FieldFacts ValueFacts KeysSpec KeysFacts NoteSpec NoteFacts NoteEncSpec NoteEncFacts
  Spec BundleSpec BundleFacts BuilderSpec BuilderFacts RngSpec RngFacts.
Import ListNotations.
Open Scope Z_scope.

(** No panic, except when [bad] holds. *)
Definition np {A} (bad : Prop) (m : outcome A) : Prop := match m with Panic _ => bad | _ => True end.
Lemma np_bind : forall A B bad (m : outcome A) (k : A -> outcome B),
  np bad m -> (forall a, m = Ret a -> np bad (k a)) -> np bad (obind m k).
Proof. intros A B bad [a|w|] k H H1; cbn [obind np] in *; [apply H1; reflexivity|exact H|exact I]. Qed.
Lemma np_ret : forall A bad (m : outcome A) a, m = Ret a -> np bad m.
Proof. intros A bad m a ->. exact I. Qed.

(** * Sums *)

Lemma osum_ret : forall vs acc,
  osum (map Ret vs) acc =
  Ret (match acc with
       | None => None
       | Some a => match fold_left (fun acc v => match acc with
                                                 | Ok a => match value_sum_add a v with Some s => Ok s | None => Err OverflowError end
                                                 | Err e => Err e end) vs (Ok a) with Ok s => Some s | Err _ => None end
       end).
Proof.
  induction vs as [|v vs IH]; intros [a|]; cbn [map osum fold_left]; try reflexivity.
  - cbn [obind]. rewrite IH. destruct (value_sum_add a v) as [s|]; [reflexivity|].
    replace (fold_left _ vs (Err OverflowError)) with (@Err overflow_error Z OverflowError); [reflexivity|].
    clear. induction vs as [|v vs IH]; cbn [fold_left]; [reflexivity|exact IH].
  - rewrite IH. reflexivity.
Qed.
Lemma osum_fold : forall vs, osum (map Ret vs) (Some 0) =
  Ret (match value_sum_fold vs with Ok s => Some s | Err _ => None end).
Proof. intro vs. apply osum_ret. Qed.

Lemma zsum_perm : forall a b, Permutation a b -> zsum a = zsum b.
Proof. induction 1; cbn [zsum]; lia. Qed.
Lemma zsum_zero : forall l, Forall (fun x => x = 0) l -> zsum l = 0.
Proof. induction 1 as [|x l H _ IH]; cbn [zsum]; lia. Qed.
Lemma zsum_nonneg : forall l, Forall is_u64 l -> 0 <= zsum l.
Proof. induction 1 as [|x l H _ IH]; cbn [zsum]; unfold is_u64 in *; lia. Qed.
Lemma zsum_firstn : forall l n, Forall is_u64 l -> 0 <= zsum (firstn n l) <= zsum l.
Proof.
  intros l n H. revert n. induction H as [|x l H _ IH]; intros [|n]; cbn [zsum firstn]; try lia.
  - pose proof (zsum_nonneg (firstn 0 l) ltac:(constructor)). specialize (IH 0%nat). cbn [firstn zsum] in IH. unfold is_u64 in H. lia.
  - specialize (IH n). unfold is_u64 in H. lia.
Qed.
Lemma zsum_map_sub : forall A (f g : A -> Z) l, zsum (map (fun x => f x - g x) l) = zsum (map f l) - zsum (map g l).
Proof. intros A f g. induction l as [|x l IH]; cbn [map zsum]; lia. Qed.
Lemma zsum_map_opp : forall A (f : A -> Z) l, zsum (map (fun x => 0 - f x) l) = - zsum (map f l).
Proof. intros A f. induction l as [|x l IH]; cbn [map zsum]; lia. Qed.
Lemma firstn_map : forall A B (f : A -> B) n l, firstn n (map f l) = map f (firstn n l).
Proof. intros A B f. induction n as [|n IH]; intros [|x l]; cbn [firstn map]; try reflexivity. rewrite IH. reflexivity. Qed.

Section Build.
  Context {C : Curve} {OR : @Oracles C}.
  Variable L : CurveLaws C.

  (** * Random values *)

  Lemma rng_scalar_range : forall r, is_scalar (fst (rng_scalar r)).
  Proof. intro r. unfold rng_scalar. destruct (rng_bytes 64 r) as [w r1]. cbn [fst]. apply to_scalar_range. Qed.
  Lemma rng_base_range : forall r, is_base (fst (rng_base r)).
  Proof. intro r. unfold rng_base. destruct (rng_bytes 64 r) as [w r1]. cbn [fst]. apply to_base_range. Qed.

  Lemma random_bases_ok : forall n r, length (fst (random_bases n r)) = n /\ Forall is_base (fst (random_bases n r)).
  Proof.
    induction n as [|n IH]; intro r; cbn [random_bases]; [split; [reflexivity|constructor]|].
    pose proof (rng_base_range r) as X. destruct (rng_base r) as [x r1].
    destruct (IH r1) as [I1 I2]. destruct (random_bases n r1) as [l r2]. cbn [fst] in *.
    split; [cbn [length]; congruence|constructor; assumption].
  Qed.
  Lemma dummy_path_ok : forall r, path_ok (fst (mp_dummy r)).
  Proof.
    intro r. unfold mp_dummy, rng_u32. pose proof (rng_bytes_length 4 r) as L4. destruct (rng_bytes 4 r) as [b r1].
    destruct (random_bases_ok merkle_depth r1) as [I1 I2]. destruct (random_bases merkle_depth r1) as [l r2]. cbn [fst] in *.
    constructor; cbn [mp_position mp_auth_path]; [|exact I1|exact I2].
    pose proof (le_val_range b) as R. rewrite L4 in R. change (256 ^ Z.of_nat 4) with (2 ^ 32) in R. exact R.
  Qed.

  Lemma sk_random_fresh : forall fuel r sk r', sk_random fuel r = Ret (sk, r') -> fresh_sk sk.
  Proof.
    induction fuel as [|fuel IH]; intros r sk r' H; cbn [sk_random] in H; [discriminate H|].
    destruct (rng_bytes 32 r) as [b r1] eqn:E. destruct (sk_from_bytes b) as [[s|]|w|] eqn:E2; cbn [obind] in H; try discriminate H.
    - injection H as <- <-. pose proof (sk_from_bytes_some _ _ E2). subst s. split; [exact E2|]. exists r. rewrite E. reflexivity.
    - apply (IH _ _ _ H).
  Qed.
  Lemma sk_random_np : forall fuel r0 r, draws r0 [] r -> np (rng_hits_zero_key r0) (sk_random fuel r).
  Proof.
    induction fuel as [|fuel IH]; intros r0 r D; cbn [sk_random]; [exact I|].
    destruct (rng_bytes 32 r) as [b r1] eqn:E.
    assert (D1 : draws r0 [Bytes b] r1) by apply (draws_after _ r _ _ D (bytes_draws _ _ _ _ E)).
    pose proof (draws_none _ _ _ D1) as D2.
    destruct (Z.eq_dec (ask_inner b) 0) as [Z0 | NZ].
    - assert (B : rng_hits_zero_key r0) by (exists b, r1; split; [exact D1|split; [apply (bytes_len _ _ _ _ E)|exact Z0]]).
      destruct (sk_from_bytes b) as [[s|]|w|]; cbn [obind np]; auto; apply IH; exact D2.
    - destruct (sk_from_bytes_total L b NZ) as [o ->]. cbn [obind]. destruct o; [exact I|apply IH; exact D2].
  Qed.

  Lemma rseed_random_np : forall bad fuel rho r, np bad (rseed_random fuel rho r).
  Proof.
    intro bad. induction fuel as [|fuel IH]; intros rho r; cbn [rseed_random]; [exact I|].
    destruct (rng_bytes 32 r) as [b r1]. destruct (rseed_from_bytes b rho); [exact I|apply IH].
  Qed.
  Lemma note_new_np : forall bad fuel a v rho r, np bad (note_new fuel a v rho r).
  Proof.
    intro bad. induction fuel as [|fuel IH]; intros a v rho r; cbn [note_new]; [exact I|].
    apply np_bind; [apply rseed_random_np|]. intros [s r1] _. destruct (note_from_parts a v rho s); [exact I|apply IH].
  Qed.

  (** * Dummies *)

  #[local] Opaque sk_from_bytes ivk_derive_inner fvk_from_sk ask_from_sk prf_expand rng_bytes sk_random note_new.

  Lemma fresh_address : forall sk f, fresh_sk sk -> fvk_from_sk sk = Ret f ->
    exists a, fvk_address_at f (div_index_of_u32 0) External = Ret a.
  Proof.
    intros sk f [S _] F. destruct (sk_usable L _ _ S) as (_ & f1 & F1 & _ & _ & _ & _ & U).
    assert (f1 = f) by congruence. subst f1. destruct (U External) as ((k & HK & _) & _).
    unfold fvk_address_at. rewrite HK. cbn [obind]. eexists. reflexivity.
  Qed.
  Lemma fresh_address_ok : forall sk f a, gd_fallback_ok -> fresh_sk sk -> fvk_from_sk sk = Ret f ->
    fvk_address_at f (div_index_of_u32 0) External = Ret a -> address_ok a.
  Proof.
    intros sk f a GD [S _] F HA. destruct (sk_usable L _ _ S) as (_ & f1 & F1 & _ & _ & _ & _ & U).
    assert (f1 = f) by congruence. subst f1. destruct (U External) as ((k & HK & OK) & _).
    unfold fvk_address_at in HA. rewrite HK in HA. cbn [obind] in HA. injection HA as <-.
    apply (ivk_addresses_ok L k GD OK). apply le_bytes_length.
  Qed.
  Lemma fresh_fvk : forall sk, fresh_sk sk -> exists f ask, fvk_from_sk sk = Ret f /\ ask_from_sk sk = Ret ask /\ fvk_ak f = ak_of_ask ask.
  Proof.
    intros sk [S _]. destruct (sk_from_bytes_inv _ _ S) as (_ & f & ask & ke & ki & fi & H1 & H2 & H3 & _). eauto.
  Qed.

  Lemma spend_dummy_np : forall fuel r0 r, draws r0 [] r -> np (rng_hits_zero_key r0) (spend_dummy fuel r).
  Proof.
    intros fuel r0 r DR. unfold spend_dummy. apply np_bind; [|intros [[[sk f] n] r1] _; destruct (mp_dummy r1); exact I].
    unfold note_dummy. apply np_bind; [apply sk_random_np; exact DR|]. intros [sk r1] E. apply sk_random_fresh in E.
    destruct (fresh_fvk _ E) as (f & ask & F & _). rewrite F. cbn [obind].
    destruct (fresh_address _ _ E F) as [a ->]. cbn [obind].
    destruct (nf_dummy r1) as [nf r2]. apply np_bind; [apply note_new_np|]. intros [n r3] _. exact I.
  Qed.
  Lemma spend_dummy_spec : forall fuel r s r', gd_fallback_ok -> spend_dummy fuel r = Ret (s, r') -> dummy_spend s.
  Proof.
    intros fuel r s r' GD H. unfold spend_dummy in H.
    destruct (note_dummy fuel None r) as [[[[sk f] n] r1]|w|] eqn:E; cbn [obind] in H; try discriminate H.
    pose proof (dummy_path_ok r1) as PO. destruct (mp_dummy r1) as [path r2]. injection H as <- <-.
    destruct (note_dummy_spec L fuel None r sk f n r1 GD ltac:(intros x X; discriminate X) E) as (N1 & N2 & N3 & N4 & N5 & _ & N6 & _).
    constructor; cbn [s_dummy_sk s_fvk s_note s_scope s_path]; auto.
    exists sk. split; [reflexivity|]. split; [|exact N2]. unfold note_dummy in E.
    destruct (sk_random fuel r) as [[sk0 q1]|w|] eqn:E1; cbn [obind] in E; try discriminate E.
    destruct (fvk_from_sk sk0) as [f0|w|]; cbn [obind] in E; try discriminate E.
    destruct (fvk_address_at f0 _ External) as [a|w|]; cbn [obind] in E; try discriminate E.
    destruct (nf_dummy q1) as [nf q2].
    destruct (note_new fuel a 0 _ q2) as [[n0 q3]|w|]; cbn [obind] in E; try discriminate E.
    injection E as -> _ _ _. apply (sk_random_fresh _ _ _ _ E1).
  Qed.

  Lemma output_dummy_np : forall fuel r0 r, draws r0 [] r -> np (rng_hits_zero_key r0) (output_dummy fuel r).
  Proof.
    intros fuel r0 r DR. unfold output_dummy. apply np_bind; [apply sk_random_np; exact DR|]. intros [sk r1] E. apply sk_random_fresh in E.
    destruct (fresh_fvk _ E) as (f & ask & F & _). rewrite F. cbn [obind].
    destruct (fresh_address _ _ E F) as [a ->]. exact I.
  Qed.
  Lemma output_dummy_spec : forall fuel r o r', output_dummy fuel r = Ret (o, r') -> dummy_output o.
  Proof.
    intros fuel r o r' H. unfold output_dummy in H.
    destruct (sk_random fuel r) as [[sk r1]|w|] eqn:E; cbn [obind] in H; try discriminate H.
    destruct (fvk_from_sk sk) as [f|w|] eqn:F; cbn [obind] in H; try discriminate H.
    destruct (fvk_address_at f _ External) as [a|w|] eqn:A; cbn [obind] in H; try discriminate H.
    injection H as <- <-. constructor; cbn [output_info_new o_value o_ovk o_memo o_recipient]; try reflexivity.
    exists sk, f. split; [apply (sk_random_fresh _ _ _ _ E)|]. split; [exact F|exact A].
  Qed.

  Lemma spend_dummy_later : forall fuel r s r', spend_dummy fuel r = Ret (s, r') -> draws r [] r'.
  Proof.
    intros fuel r s r' H. unfold spend_dummy in H.
    destruct (note_dummy fuel None r) as [[[[sk f] n] r1]|w|] eqn:E; cbn [obind] in H; try discriminate H.
    destruct (mp_dummy r1) as [path r2] eqn:E'. injection H as <- <-. apply (draws_after _ r1); [|apply (mp_dummy_draws _ _ _ E')].
    unfold note_dummy in E. destruct (sk_random fuel r) as [[sk0 q1]|w|] eqn:E1; cbn [obind] in E; try discriminate E.
    destruct (fvk_from_sk sk0) as [f0|w|]; cbn [obind] in E; try discriminate E.
    destruct (fvk_address_at f0 _ External) as [a|w|]; cbn [obind] in E; try discriminate E.
    destruct (nf_dummy q1) as [nf q2] eqn:EN. unfold nf_dummy in EN. destruct (o_rng_point q1) as [P q] eqn:EP. injection EN as <- <-.
    destruct (note_new fuel a 0 _ q) as [[n0 q3]|w|] eqn:E2; cbn [obind] in E; try discriminate E. injection E as _ _ _ <-.
    apply (draws_after _ q1); [apply (draws_none _ _ _ (proj1 (sk_random_draws _ _ _ _ E1)))|].
    apply (draws_after _ q); [apply (draws_none _ _ _ (point_draws _ _ _ EP))|].
    apply (draws_none _ _ _ (proj1 (note_new_draws _ _ _ _ _ _ _ E2))).
  Qed.
  Lemma output_dummy_later : forall fuel r o r', output_dummy fuel r = Ret (o, r') -> draws r [] r'.
  Proof.
    intros fuel r o r' H. unfold output_dummy in H.
    destruct (sk_random fuel r) as [[sk r1]|w|] eqn:E; cbn [obind] in H; try discriminate H.
    destruct (fvk_from_sk sk) as [f|w|] eqn:F; cbn [obind] in H; try discriminate H.
    destruct (fvk_address_at f _ External) as [a|w|] eqn:A; cbn [obind] in H; try discriminate H.
    injection H as _ <-. apply (draws_none _ _ _ (proj1 (sk_random_draws _ _ _ _ E))).
  Qed.

  Lemma pad_dummies_np : forall A bad r0 (dummy : rng -> outcome (A * rng)), (forall r, draws r0 [] r -> np bad (dummy r)) ->
    (forall r d r', dummy r = Ret (d, r') -> draws r [] r') ->
    forall n r, draws r0 [] r -> np bad (pad_dummies dummy n r).
  Proof.
    intros A bad r0 dummy H HL. induction n as [|n IH]; intros r D; cbn [pad_dummies]; [exact I|].
    apply np_bind; [apply H; exact D|]. intros [d r1] E. apply np_bind; [|intros [l r2] _; exact I].
    apply IH. apply (draws_after _ r); [exact D|apply (HL _ _ _ E)].
  Qed.
  Lemma pad_dummies_later : forall A (dummy : rng -> outcome (A * rng)), (forall r d r', dummy r = Ret (d, r') -> draws r [] r') ->
    forall n r l r', pad_dummies dummy n r = Ret (l, r') -> draws r [] r'.
  Proof.
    intros A dummy H. induction n as [|n IH]; intros r l r' E; cbn [pad_dummies] in E.
    - injection E as _ <-. apply draws_nil.
    - destruct (dummy r) as [[d r1]|w|] eqn:E1; cbn [obind] in E; try discriminate E.
      destruct (pad_dummies dummy n r1) as [[l' r2]|w|] eqn:E2; cbn [obind] in E; try discriminate E.
      injection E as _ <-. apply (draws_after _ r1); [apply (H _ _ _ E1)|apply (IH _ _ _ E2)].
  Qed.
  Lemma pre_actions_np : forall fuel n sp ou r, np (rng_hits_zero_key r) (pre_actions fuel n sp ou r).
  Proof.
    intros fuel n sp ou r. unfold pre_actions, pad.
    apply np_bind.
    { apply np_bind; [|intros [l r1] _; exact I].
      apply (pad_dummies_np _ _ r); [intros q D; apply spend_dummy_np; exact D|apply spend_dummy_later|apply draws_nil]. }
    intros [l1 r1] E. apply np_bind.
    { apply np_bind; [|intros [l r2] _; exact I].
      apply (pad_dummies_np _ _ r); [intros q D; apply output_dummy_np; exact D|apply output_dummy_later|].
      destruct (pad_dummies (spend_dummy fuel) (n - length sp) r) as [[l q]|w|] eqn:E1; cbn [obind] in E; try discriminate E.
      injection E as _ <-. apply (pad_dummies_later _ _ (spend_dummy_later fuel) _ _ _ _ E1). }
    intros [l2 r2] _. destruct (shuffle (enumerate l1) r2) as [a r3]. destruct (shuffle (enumerate l2) r3) as [b r4]. exact I.
  Qed.

  (** * One action *)

  Record spend_good (s : spend_info) : Prop := {
    sg_note : note_ok (s_note s);
    sg_commits : exists cm, commitment (s_note s) = Ret cm;
    sg_rivk : exists rivk, fvk_rivk_scope (s_fvk s) (s_scope s) = Ret rivk;
    sg_dummy : forall sk, s_dummy_sk s = Some sk -> exists ask, ask_from_sk sk = Ret ask
  }.
  Record output_good (o : output_info) : Prop := {
    og_recipient : address_ok (o_recipient o);
    og_value : is_u64 (o_value o)
  }.

  Lemma rivk_scope_ret : forall f s, pt_y (fvk_ak f) mod 2 = 0 -> exists r, fvk_rivk_scope f s = Ret r.
  Proof.
    intros f [|] H; [eexists; reflexivity|]. destruct (rivk_internal_ret L f H) as (r & E & _). exists r. exact E.
  Qed.
  Lemma legal_good : forall t anchor s, spend_legal t anchor s -> spend_good s.
  Proof.
    intros t anchor s H. constructor.
    - apply (sl_note _ _ _ H).
    - apply (sl_commits _ _ _ H).
    - apply rivk_scope_ret. apply (fo_sign _ (sl_fvk _ _ _ H)).
    - intros sk X. rewrite (sl_real _ _ _ H) in X. discriminate X.
  Qed.
  Lemma dummy_good : forall s, dummy_spend s -> spend_good s.
  Proof.
    intros s H. destruct (ds_fresh _ H) as (sk & S1 & S2 & S3). constructor.
    - apply (ds_note _ H).
    - apply (ds_commits _ H).
    - rewrite (ds_scope _ H). eexists. reflexivity.
    - intros sk' X. assert (sk' = sk) by congruence. subst sk'. destruct (fresh_fvk _ S2) as (f & ask & _ & A & _). eauto.
  Qed.
  Lemma legal_output_good : forall t o, output_legal t o -> output_good o.
  Proof. intros t o H. constructor; [apply (ol_recipient _ _ H)|apply (ol_value _ _ H)]. Qed.
  Lemma dummy_output_good : forall o, gd_fallback_ok -> dummy_output o -> output_good o.
  Proof.
    intros o GD H. constructor.
    - destruct (do_fresh _ H) as (sk & f & F1 & F2 & F3). apply (fresh_address_ok sk f _ GD F1 F2 F3).
    - rewrite (do_zero _ H). unfold is_u64. lia.
  Qed.

  #[local] Opaque commitment note_nullifier fvk_rivk_scope ask_from_sk encrypt_note_plaintext encrypt_outgoing_plaintext note_esk.

  Lemma value_sum_ret : forall a, spend_good (ai_spend a) -> output_good (ai_output a) ->
    ai_value_sum a = Ret (n_value (s_note (ai_spend a)) - o_value (ai_output a)) /\
    value_sum_ok (n_value (s_note (ai_spend a)) - o_value (ai_output a)).
  Proof.
    intros a S O. unfold ai_value_sum. apply note_value_sub_exact; [apply (no_value _ (sg_note _ S))|apply (og_value _ O)].
  Qed.

  Lemma ai_build_np : forall bad fuel a r, spend_good (ai_spend a) -> output_good (ai_output a) -> np bad (ai_build fuel a r).
  Proof.
    intros bad fuel a r S O. unfold ai_build. destruct (value_sum_ret a S O) as [-> VO]. cbn [obind].
    rewrite (derive_cv_ret L) by exact VO. cbn [obind].
    destruct (sg_commits _ S) as [cm HC]. destruct (nullifier_total L _ (s_fvk (ai_spend a)) _ HC) as (nf & -> & _). cbn [obind].
    destruct (rng_scalar r) as [alpha r1]. apply np_bind; [apply note_new_np|]. intros [n r2] E.
    apply note_new_spec in E as (_ & _ & _ & _ & (cn & CN) & (e & ES & _)). rewrite CN. cbn [obind].
    unfold encryptor_new. rewrite ES. cbn [obind].
    destruct (encrypt_outgoing_plaintext _ _ _ _) as [out r3].
    apply np_bind.
    { destruct (s_dummy_sk (ai_spend a)) as [sk|] eqn:D; [|exact I].
      destruct (sg_dummy _ S _ D) as [ask A]. cbn [opt_omap]. rewrite A. exact I. }
    intros d _. unfold from_action_context_unchecked. rewrite HC. cbn [obind].
    destruct (sg_rivk _ S) as [rivk ->]. exact I.
  Qed.

  Lemma ai_build_spec : forall fuel a r act w r', spend_good (ai_spend a) -> output_good (ai_output a) ->
    is_scalar (ai_rcv a) -> ai_build fuel a r = Ret (act, w, r') ->
    exists n alpha, action_of (ai_spend a) (ai_output a) n alpha (ai_rcv a) act w.
  Proof.
    intros fuel a r act w r' S O RS H. unfold ai_build in H. destruct (value_sum_ret a S O) as [VE VO]. rewrite VE in H. cbn [obind] in H.
    rewrite (derive_cv_ret L) in H by exact VO. cbn [obind] in H.
    destruct (sg_commits _ S) as [cm HC]. destruct (nullifier_total L _ (s_fvk (ai_spend a)) _ HC) as (nf & NF & NB & _).
    rewrite NF in H. cbn [obind] in H.
    pose proof (rng_scalar_range r) as AR. destruct (rng_scalar r) as [alpha r1]. cbn [fst] in AR.
    destruct (note_new fuel _ _ _ r1) as [[n r2]|z|] eqn:E; cbn [obind] in H; try discriminate H.
    apply note_new_spec in E as (N1 & N2 & N3 & N4 & (cn & CN) & (e & ES & _)). rewrite CN in H. cbn [obind] in H.
    destruct (encryptor_new (o_ovk (ai_output a)) n (o_memo (ai_output a))) as [en|z|] eqn:EN; cbn [obind] in H; try discriminate H.
    destruct (encrypt_outgoing_plaintext en _ _ r2) as [out r3] eqn:EO.
    destruct (opt_omap ask_from_sk (s_dummy_sk (ai_spend a))) as [da|z|] eqn:ED; cbn [obind] in H; try discriminate H.
    unfold from_action_context_unchecked in H. rewrite HC in H. cbn [obind] in H.
    destruct (fvk_rivk_scope (s_fvk (ai_spend a)) (s_scope (ai_spend a))) as [rivk|z|] eqn:RV; cbn [obind] in H; try discriminate H.
    injection H as <- <- <-. exists n, alpha. constructor; cbn [a_nf a_rk a_cv a_auth a_cmx a_ct sm_parts sm_dummy_ask].
    - exact NF.
    - reflexivity.
    - reflexivity.
    - exact AR.
    - exact RS.
    - constructor; [rewrite N1; apply (og_recipient _ O)|rewrite N2; apply (og_value _ O)|rewrite N3; exact NB|exact N4].
    - exact N1.
    - exact N2.
    - exact N3.
    - exists r2, en, cn. cbn [a_nf a_cmx a_ct a_cv ct_epk ct_enc ct_out].
      split; [exact EN|]. split; [exact CN|]. split; [symmetry; exact N3|]. split; [reflexivity|]. split; [reflexivity|].
      split; [reflexivity|]. rewrite EO. reflexivity.
    - reflexivity.
    - destruct (s_dummy_sk (ai_spend a)) as [sk|]; cbn [opt_omap] in ED.
      + destruct (ask_from_sk sk) as [ask|z|] eqn:A; cbn [obind] in ED; try discriminate ED. injection ED as <-. exists ask. auto.
      + injection ED as <-. reflexivity.
    - exists cm, rivk. split; [exact HC|]. split; [exact RV|]. reflexivity.
  Qed.

  Lemma build_actions_np : forall bad fuel l r, Forall (fun a => spend_good (ai_spend a) /\ output_good (ai_output a)) l ->
    np bad (build_actions fuel l r).
  Proof.
    intros bad fuel. induction l as [|a l IH]; intros r H; cbn [build_actions]; [exact I|].
    inversion H as [|? ? [H1 H2] H3]; subst. apply np_bind; [apply ai_build_np; assumption|].
    intros [[act w] r1] _. apply np_bind; [apply IH; exact H3|]. intros [[acts ws] r2] _. exact I.
  Qed.

  (** The actions and witnesses, position by position. *)
  Definition act_of_info (a : action_info) (act : action signing_metadata) (w : witness) : Prop :=
    exists n alpha, action_of (ai_spend a) (ai_output a) n alpha (ai_rcv a) act w.
  Lemma build_actions_spec : forall fuel l r acts ws r',
    Forall (fun a => spend_good (ai_spend a) /\ output_good (ai_output a) /\ is_scalar (ai_rcv a)) l ->
    build_actions fuel l r = Ret (acts, ws, r') ->
    length acts = length l /\ length ws = length l /\
    (forall k a, nth_error l k = Some a -> exists act w,
       nth_error acts k = Some act /\ nth_error ws k = Some w /\ act_of_info a act w).
  Proof.
    intro fuel. induction l as [|a l IH]; intros r acts ws r' H E; cbn [build_actions] in E.
    - injection E as <- <- <-. split; [reflexivity|]. split; [reflexivity|]. intros [|k] a X; discriminate X.
    - inversion H as [|? ? (H1 & H2 & H3) H4]; subst.
      destruct (ai_build fuel a r) as [[[act w] r1]|z|] eqn:E1; cbn [obind] in E; try discriminate E.
      destruct (build_actions fuel l r1) as [[[acts1 ws1] r2]|z|] eqn:E2; cbn [obind] in E; try discriminate E.
      injection E as <- <- <-. destruct (IH _ _ _ _ H4 E2) as (A1 & A2 & A3).
      split; [cbn [length]; congruence|]. split; [cbn [length]; congruence|].
      intros [|k] b X; cbn [nth_error] in *.
      + assert (b = a) by congruence. subst b. exists act, w. split; [reflexivity|]. split; [reflexivity|].
        apply (ai_build_spec _ _ _ _ _ _ H1 H2 H3 E1).
      + apply A3. exact X.
  Qed.

  (** * The value balance *)

  Definition info_good (a : action_info) : Prop :=
    spend_good (ai_spend a) /\ output_good (ai_output a) /\ is_scalar (ai_rcv a).
  Definition info_value (a : action_info) : Z := n_value (s_note (ai_spend a)) - o_value (ai_output a).

  Lemma info_values : forall pre, Forall info_good pre ->
    map ai_value_sum pre = map Ret (map info_value pre) /\ Forall value_sum_ok (map info_value pre).
  Proof.
    induction 1 as [|a l (H1 & H2 & H3) _ [I1 I2]]; cbn [map]; [split; [reflexivity|constructor]|].
    destruct (value_sum_ret a H1 H2) as [V1 V2]. rewrite V1, I1. split; [reflexivity|constructor; assumption].
  Qed.

  Lemma acts_cvs : forall pre acts ws,
    length acts = length pre ->
    (forall k a, nth_error pre k = Some a -> exists act w,
       nth_error acts k = Some act /\ nth_error ws k = Some w /\ act_of_info a act w) ->
    map a_cv acts = map (fun vr => cv_of (fst vr) (snd vr)) (map (fun a => (info_value a, ai_rcv a)) pre).
  Proof.
    induction pre as [|a pre IH]; intros [|act acts] ws HL H; cbn [length] in HL; try lia; [reflexivity|].
    destruct (H 0%nat a eq_refl) as (act' & w & H1 & H2 & n & alpha & H3). cbn [nth_error] in H1.
    assert (act' = act) by congruence. subst act'. cbn [map fst snd].
    rewrite (ac_cv _ _ _ _ _ _ _ H3). destruct ws as [|w' ws]; [discriminate H2|].
    rewrite (IH acts ws) by (try lia; intros k b K; apply (H (S k) b K)). reflexivity.
  Qed.

  Section V.
    Context {V : Type}.
    Variable try_from : Z -> option V.

    Lemma trapdoor_sum_scalar : forall l, is_scalar (trapdoor_sum l).
    Proof. intro l. rewrite trapdoor_sum_spec. apply Z.mod_pos_bound. apply qmod_pos. Qed.

    Lemma i64_value_sum : forall v, i64_ok v -> value_sum_ok v.
    Proof. unfold i64_ok, value_sum_ok. lia. Qed.

    Lemma binding_consistent : forall pre acts ws vb,
      length acts = length pre ->
      (forall k a, nth_error pre k = Some a -> exists act w,
         nth_error acts k = Some act /\ nth_error ws k = Some w /\ act_of_info a act w) ->
      vb = zsum (map info_value pre) ->
      cv_sub (cv_sum (map a_cv acts)) (cv_of vb 0) = vk_of Binding (trapdoor_sum (map ai_rcv pre)).
    Proof.
      intros pre acts ws vb HL H HV. unfold cv_sub. rewrite (acts_cvs _ _ _ HL H).
      rewrite (binding_key_algebra L (map (fun a => (info_value a, ai_rcv a)) pre) vb).
      - rewrite map_map. reflexivity.
      - rewrite map_map. exact HV.
    Qed.

    Lemma vk_eqb_refl : forall P, vk_eqb P P = true.
    Proof. intro P. apply bytes_eqb_refl. Qed.

    #[local] Opaque vk_eqb vk_of cv_of trapdoor_sum build_actions.

    Lemma finish_np : forall bad fuel pre meta f anchor r, Forall info_good pre ->
      np bad (finish try_from fuel pre meta f anchor r).
    Proof.
      intros bad fuel pre meta f anchor r G. unfold finish. destruct (info_values pre G) as [-> VO].
      rewrite osum_fold. cbn [obind]. destruct (value_sum_fold_spec _ VO) as [FS _].
      destruct (value_sum_fold (map info_value pre)) as [vb|e] eqn:EF; [|exact I].
      destruct (proj1 (FS vb) eq_refl) as [EV _].
      destruct (i64_try_from vb) as [i|e] eqn:EI; [|exact I].
      assert (IO : i64_ok vb).
      { unfold i64_try_from in EI. destruct ((- 2 ^ 63 <=? vb) && (vb <? 2 ^ 63)) eqn:B; [|discriminate EI].
        apply andb_true_iff in B as [B1 B2]. unfold i64_ok. lia. }
      destruct (try_from i) as [v|]; [|exact I].
      rewrite (into_bsk_ret _ (trapdoor_sum_scalar _)). cbn [obind].
      apply np_bind.
      { apply build_actions_np. eapply Forall_impl; [|exact G]. intros a (H1 & H2 & _). auto. }
      intros [[acts ws] r1] E. apply (build_actions_spec _ _ _ _ _ _ G) in E as (A1 & A2 & A3).
      rewrite (derive_cv_ret L) by (apply i64_value_sum; exact IO). cbn [obind]. rewrite (into_bvk_ret L). cbn [obind].
      rewrite (binding_consistent _ _ _ _ A1 A3 EV), vk_eqb_refl. exact I.
    Qed.

    (** What a finished build looks like. *)
    Lemma finish_spec : forall fuel pre meta f anchor r res r', Forall info_good pre ->
      finish try_from fuel pre meta f anchor r = Ret (res, r') ->
      match res with
      | Err e => e = BE_ValueSum /\
          (try_from (zsum (map info_value pre)) = None \/ ~ i64_ok (zsum (map info_value pre)) \/
           exists n, ~ value_sum_ok (zsum (firstn n (map info_value pre))))
      | Ok o =>
          i64_ok (zsum (map info_value pre)) /\
          exists v, try_from (zsum (map info_value pre)) = Some v /\
          match o with
          | None => pre = []
          | Some (b, m) => pre <> [] /\ m = meta /\ b_flags b = f /\ b_anchor b = anchor /\ b_value_balance b = v /\
              length (b_actions b) = length pre /\ length (up_circuits (ip_proof (b_auth b))) = length pre /\
              (forall k a, nth_error pre k = Some a -> exists act w,
                 nth_error (b_actions b) k = Some act /\ nth_error (up_circuits (ip_proof (b_auth b))) k = Some w /\ act_of_info a act w) /\
              cv_sub (cv_sum (map a_cv (b_actions b))) (cv_of (zsum (map info_value pre)) 0) =
                vk_of Binding (ua_bsk (ip_sigs (b_auth b))) /\
              is_scalar (ua_bsk (ip_sigs (b_auth b)))
          end
      end.
    Proof.
      intros fuel pre meta f anchor r res r' G H. unfold finish in H. destruct (info_values pre G) as [EV0 VO]. rewrite EV0 in H.
      rewrite osum_fold in H. cbn [obind] in H. destruct (value_sum_fold_spec _ VO) as [FS FE].
      destruct (value_sum_fold (map info_value pre)) as [vb|[]] eqn:EF.
      2:{ injection H as <- <-. split; [reflexivity|]. right. right. destruct (proj1 FE eq_refl) as (n & _ & N). exists n. exact N. }
      destruct (proj1 (FS vb) eq_refl) as [EV _]. rewrite <- EV.
      destruct (i64_try_from_spec vb) as [I1 I2].
      destruct (i64_try_from vb) as [i|e] eqn:EI.
      2:{ injection H as <- <-. split; [reflexivity|]. right. left. intro X. discriminate (I1 X). }
      assert (IO : i64_ok vb).
      { unfold i64_try_from in EI. destruct ((- 2 ^ 63 <=? vb) && (vb <? 2 ^ 63)) eqn:B; [|discriminate EI].
        apply andb_true_iff in B as [B1 B2]. unfold i64_ok. lia. }
      specialize (I1 IO). assert (i = vb) by congruence. subst i.
      destruct (try_from vb) as [v|] eqn:TF.
      2:{ injection H as <- <-. split; [reflexivity|]. left. reflexivity. }
      rewrite (into_bsk_ret _ (trapdoor_sum_scalar _)) in H. cbn [obind] in H.
      destruct (build_actions fuel pre r) as [[[acts ws] r1]|w|] eqn:E; cbn [obind] in H; try discriminate H.
      apply (build_actions_spec _ _ _ _ _ _ G) in E as (A1 & A2 & A3).
      rewrite (derive_cv_ret L) in H by (apply i64_value_sum; exact IO). cbn [obind] in H. rewrite (into_bvk_ret L) in H. cbn [obind] in H.
      pose proof (binding_consistent _ _ _ _ A1 A3 EV) as BC. rewrite BC, vk_eqb_refl in H. cbn [assert_ obind] in H.
      injection H as <- <-. split; [exact IO|]. exists v. split; [reflexivity|].
      destruct acts as [|act acts].
      - destruct pre; [reflexivity|discriminate A1].
      - split; [intros ->; discriminate A1|]. cbn [b_flags b_anchor b_value_balance b_actions b_auth ip_proof ip_sigs up_circuits ua_bsk].
        split; [reflexivity|]. split; [reflexivity|]. split; [reflexivity|]. split; [reflexivity|].
        split; [exact A1|]. split; [exact A2|]. split; [exact A3|]. split; [exact BC|apply trapdoor_sum_scalar].
    Qed.

    (** * The whole build *)

    Lemma planned_good : forall b n pre meta fuel, gd_fallback_ok -> builder_legal b ->
      planned (bl_spends b) (bl_outputs b) n pre meta fuel -> Forall info_good pre.
    Proof.
      intros b n pre meta fuel GD [LS LO] P. apply Forall_forall. intros a IN.
      split; [|split].
      - destruct (pl_spends _ _ _ _ _ _ P) as (ds & PM & D).
        assert (X : In (ai_spend a) (bl_spends b ++ ds)) by (apply (Permutation_in _ PM), in_map, IN).
        apply in_app_iff in X as [X | X].
        + apply (legal_good (bl_type b) (bl_anchor b)). apply (proj1 (Forall_forall _ _) LS _ X).
        + destruct (proj1 (Forall_forall _ _) D _ X) as (r0 & r1 & E). apply dummy_good. apply (spend_dummy_spec _ _ _ _ GD E).
      - destruct (pl_outputs _ _ _ _ _ _ P) as (ds & PM & D).
        assert (X : In (ai_output a) (bl_outputs b ++ ds)) by (apply (Permutation_in _ PM), in_map, IN).
        apply in_app_iff in X as [X | X].
        + apply (legal_output_good (bl_type b)). apply (proj1 (Forall_forall _ _) LO _ X).
        + destruct (proj1 (Forall_forall _ _) D _ X) as (r0 & r1 & E). apply (dummy_output_good _ GD). apply (output_dummy_spec _ _ _ _ E).
      - apply (proj1 (Forall_forall _ _) (pl_rcv _ _ _ _ _ _ P) _ IN).
    Qed.

    Lemma planned_sums : forall b n pre meta fuel, gd_fallback_ok ->
      planned (bl_spends b) (bl_outputs b) n pre meta fuel ->
      zsum (map (fun a => n_value (s_note (ai_spend a))) pre) = spent b /\
      zsum (map (fun a => o_value (ai_output a)) pre) = sent b.
    Proof.
      intros b n pre meta fuel GD P. split.
      - destruct (pl_spends _ _ _ _ _ _ P) as (ds & PM & D). rewrite <- (map_map ai_spend (fun s => n_value (s_note s))).
        rewrite (zsum_perm _ _ (Permutation_map _ PM)), map_app, zsum_app. unfold spent.
        rewrite (zsum_zero (map _ ds)); [lia|]. apply Forall_map. eapply Forall_impl; [|exact D].
        intros s (r0 & r1 & E). apply (ds_zero _ (spend_dummy_spec _ _ _ _ GD E)).
      - destruct (pl_outputs _ _ _ _ _ _ P) as (ds & PM & D). rewrite <- (map_map ai_output o_value).
        rewrite (zsum_perm _ _ (Permutation_map _ PM)), map_app, zsum_app. unfold sent.
        rewrite (zsum_zero (map _ ds)); [lia|]. apply Forall_map. eapply Forall_impl; [|exact D].
        intros s (r0 & r1 & E). apply (do_zero _ (output_dummy_spec _ _ _ _ E)).
    Qed.

    Lemma anchors_ret : forall t anchor l, Forall (spend_legal t anchor) l -> all_anchors_match l anchor = Ret true.
    Proof.
      intros t anchor. induction 1 as [|s l H _ IH]; cbn [all_anchors_match]; [reflexivity|].
      destruct (sl_commits _ _ _ H) as [cm HC]. destruct (anchor_spec s anchor cm HC) as (ok & -> & W). cbn [obind].
      rewrite (proj2 W (sl_witnessed _ _ _ H)). exact IH.
    Qed.

    Lemma legal_num_actions : forall b, builder_legal b ->
      exists n, num_actions (bl_type b) (length (bl_spends b)) (length (bl_outputs b)) = Ok n /\
        (length (bl_spends b) <= n)%nat /\ (length (bl_outputs b) <= n)%nat /\
        negb (spends_enabled (bt_flags (bl_type b))) && Nat.ltb 0 (length (bl_spends b)) = false /\
        negb (outputs_enabled (bt_flags (bl_type b))) && Nat.ltb 0 (length (bl_outputs b)) = false.
    Proof.
      intros b [LS LO].
      assert (ES : spends_enabled (bt_flags (bl_type b)) = true \/ length (bl_spends b) = 0%nat).
      { destruct LS as [|s l H _]; [right; reflexivity|left; apply (sl_enabled _ _ _ H)]. }
      assert (EO : outputs_enabled (bt_flags (bl_type b)) = true \/ length (bl_outputs b) = 0%nat).
      { destruct LO as [|o l H _]; [right; reflexivity|left; apply (ol_enabled _ _ H)]. }
      pose proof (num_actions_spec (bl_type b) (length (bl_spends b)) (length (bl_outputs b))) as N. cbn zeta in N.
      destruct (num_actions _ _ _) as [n|e].
      - destruct N as (N1 & N2 & ->). exists (match bl_type b with
          | Transactional _ required => if required || negb (Nat.eqb (length (bl_spends b)) 0 && Nat.eqb (length (bl_outputs b)) 0)
              then Nat.max 2 (Nat.max (length (bl_spends b)) (length (bl_outputs b))) else 0%nat
          | Coinbase => length (bl_outputs b) end).
        split; [reflexivity|].
        assert (G1 : negb (spends_enabled (bt_flags (bl_type b))) && Nat.ltb 0 (length (bl_spends b)) = false).
        { destruct ES as [-> | ->]; [reflexivity|apply andb_false_r]. }
        assert (G2 : negb (outputs_enabled (bt_flags (bl_type b))) && Nat.ltb 0 (length (bl_outputs b)) = false).
        { destruct EO as [-> | ->]; [reflexivity|apply andb_false_r]. }
        assert (G : (length (bl_spends b) <= match bl_type b with
          | Transactional _ required => if required || negb (Nat.eqb (length (bl_spends b)) 0 && Nat.eqb (length (bl_outputs b)) 0)
              then Nat.max 2 (Nat.max (length (bl_spends b)) (length (bl_outputs b))) else 0%nat
          | Coinbase => length (bl_outputs b) end)%nat /\ (length (bl_outputs b) <= match bl_type b with
          | Transactional _ required => if required || negb (Nat.eqb (length (bl_spends b)) 0 && Nat.eqb (length (bl_outputs b)) 0)
              then Nat.max 2 (Nat.max (length (bl_spends b)) (length (bl_outputs b))) else 0%nat
          | Coinbase => length (bl_outputs b) end)%nat).
        { destruct (bl_type b) as [fl req|] eqn:ET.
          - destruct (Nat.eqb_spec (length (bl_spends b)) 0); destruct (Nat.eqb_spec (length (bl_outputs b)) 0);
              destruct req; cbn [orb negb andb]; lia.
          - destruct ES as [X | X]; [discriminate X|lia]. }
        destruct G as [G3 G4]. auto.
      - exfalso. destruct N as [[A B] | [A B]]; [destruct ES as [X | X]|destruct EO as [X | X]]; try congruence; lia.
    Qed.

    Lemma build_np : forall fuel b r, gd_fallback_ok -> builder_legal b -> np (rng_hits_zero_key r) (build try_from fuel b r).
    Proof.
      intros fuel b r GD LB. unfold build, build_bundle.
      destruct (legal_num_actions b LB) as (n & -> & N1 & N2 & -> & ->).
      rewrite (anchors_ret _ _ _ (proj1 LB)). cbn [obind negb].
      apply np_bind; [apply pre_actions_np|]. intros [[pre meta] r1] E.
      apply (pre_actions_spec _ _ _ _ _ _ _ _ N1 N2) in E. apply finish_np. apply (planned_good _ _ _ _ _ GD LB E).
    Qed.

    Lemma plan_built : forall b n pre meta fuel (bd : @unauthorized_bundle C V),
      gd_fallback_ok -> planned (bl_spends b) (bl_outputs b) n pre meta fuel ->
      length (b_actions bd) = length pre -> length (up_circuits (ip_proof (b_auth bd))) = length pre ->
      (forall k a, nth_error pre k = Some a -> exists act w,
         nth_error (b_actions bd) k = Some act /\ nth_error (up_circuits (ip_proof (b_auth bd))) k = Some w /\ act_of_info a act w) ->
      built b (map (fun a => (ai_spend a, ai_output a)) pre) bd meta.
    Proof.
      intros b n pre meta fuel bd GD P A1 A2 A3. constructor.
      - rewrite map_length. exact A1.
      - rewrite map_length. exact A2.
      - intros k s o K. apply map_nth_some in K as (a & K1 & K2). assert (s = ai_spend a /\ o = ai_output a) as [-> ->] by (split; congruence).
        destruct (A3 k a K1) as (act & w & B1 & B2 & nn & alpha & B3). exists act, w, nn, alpha, (ai_rcv a). auto.
      - rewrite map_map. destruct (pl_spends _ _ _ _ _ _ P) as (ds & PM & D). exists ds. split; [exact PM|].
        eapply Forall_impl; [|exact D]. intros s (r0 & r1 & E). apply (spend_dummy_spec _ _ _ _ GD E).
      - rewrite map_map. destruct (pl_outputs _ _ _ _ _ _ P) as (ds & PM & D). exists ds. split; [exact PM|].
        eapply Forall_impl; [|exact D]. intros s (r0 & r1 & E). apply (output_dummy_spec _ _ _ _ E).
      - intros i s H. destruct (pl_spend_index _ _ _ _ _ _ P i s H) as (k & a & K1 & K2 & K3). exists k, (ai_output a).
        split; [exact K1|]. rewrite nth_error_map, K2. cbn [option_map]. congruence.
      - intros i o H. destruct (pl_output_index _ _ _ _ _ _ P i o H) as (k & a & K1 & K2 & K3). exists k, (ai_spend a).
        split; [exact K1|]. rewrite nth_error_map, K2. cbn [option_map]. congruence.
      - exact (pl_spend_distinct _ _ _ _ _ _ P).
      - exact (pl_output_distinct _ _ _ _ _ _ P).
      - intros i H. apply nth_error_None. rewrite (pl_spend_len _ _ _ _ _ _ P). exact H.
      - intros i H. apply nth_error_None. rewrite (pl_output_len _ _ _ _ _ _ P). exact H.
    Qed.

    Lemma prefix_ok : forall pre k, Forall info_good pre ->
      zsum (map (fun a => n_value (s_note (ai_spend a))) pre) < 2 ^ 64 ->
      zsum (map (fun a => o_value (ai_output a)) pre) < 2 ^ 64 ->
      value_sum_ok (zsum (firstn k (map info_value pre))).
    Proof.
      intros pre k G HS HO. rewrite firstn_map. unfold info_value.
      rewrite (zsum_map_sub _ (fun a => n_value (s_note (ai_spend a))) (fun a => o_value (ai_output a))). rewrite <- !firstn_map.
      assert (U1 : Forall is_u64 (map (fun a => n_value (s_note (ai_spend a))) pre)).
      { apply Forall_map. eapply Forall_impl; [|exact G]. intros a (X & _). apply (no_value _ (sg_note _ X)). }
      assert (U2 : Forall is_u64 (map (fun a => o_value (ai_output a)) pre)).
      { apply Forall_map. eapply Forall_impl; [|exact G]. intros a (_ & X & _). apply (og_value _ X). }
      pose proof (zsum_firstn _ k U1). pose proof (zsum_firstn _ k U2). unfold value_sum_ok. lia.
    Qed.

    (** Everything about a returning build. *)
    Lemma build_spec : forall fuel b r res r', gd_fallback_ok -> builder_legal b ->
      build try_from fuel b r = Ret (res, r') ->
      exists n, num_actions (bl_type b) (length (bl_spends b)) (length (bl_outputs b)) = Ok n /\
      match res with
      | Err e => e = BE_ValueSum /\
          (spent b < 2 ^ 64 -> sent b < 2 ^ 64 -> i64_ok (spent b - sent b) -> try_from (spent b - sent b) = None)
      | Ok o =>
          i64_ok (spent b - sent b) /\
          exists v, try_from (spent b - sent b) = Some v /\
          match o with
          | None => n = 0%nat
          | Some (bd, meta) =>
              n <> 0%nat /\ length (b_actions bd) = n /\ b_flags bd = bt_flags (bl_type b) /\ b_anchor bd = bl_anchor b /\
              b_value_balance bd = v /\ (exists plan, built b plan bd meta) /\
              cv_sub (cv_sum (map a_cv (b_actions bd))) (cv_of (spent b - sent b) 0) = vk_of Binding (ua_bsk (ip_sigs (b_auth bd))) /\
              is_scalar (ua_bsk (ip_sigs (b_auth bd)))
          end
      end.
    Proof.
      intros fuel b r res r' GD LB H. unfold build, build_bundle in H.
      destruct (legal_num_actions b LB) as (n & NA & N1 & N2 & G1 & G2). rewrite NA, G1, G2 in H.
      rewrite (anchors_ret _ _ _ (proj1 LB)) in H. cbn [obind negb] in H.
      destruct (pre_actions fuel n (bl_spends b) (bl_outputs b) r) as [[[pre meta] r1]|w|] eqn:E; cbn [obind] in H; try discriminate H.
      apply (pre_actions_spec _ _ _ _ _ _ _ _ N1 N2) in E.
      pose proof (planned_good _ _ _ _ _ GD LB E) as G. destruct (planned_sums _ _ _ _ _ GD E) as [S1 S2].
      assert (SV : zsum (map info_value pre) = spent b - sent b).
      { unfold info_value. rewrite (zsum_map_sub _ (fun a => n_value (s_note (ai_spend a))) (fun a => o_value (ai_output a))). lia. }
      apply (finish_spec _ _ _ _ _ _ _ _ G) in H. rewrite SV in H. exists n. split; [exact NA|].
      destruct res as [o|e].
      - destruct H as (IO & v & TF & H). split; [exact IO|]. exists v. split; [exact TF|].
        destruct o as [[bd m]|].
        + destruct H as (P0 & -> & B1 & B2 & B3 & B4 & B5 & B6 & B7 & B8). pose proof (pl_length _ _ _ _ _ _ E) as PL.
          split; [intros ->; destruct pre; [apply P0; reflexivity|discriminate PL]|].
          split; [congruence|]. split; [exact B1|]. split; [exact B2|]. split; [exact B3|].
          split; [|split; [exact B7|exact B8]]. eexists. apply (plan_built b n pre meta fuel bd GD E B4 B5 B6).
        + subst pre. rewrite <- (pl_length _ _ _ _ _ _ E). reflexivity.
      - destruct H as [-> H]. split; [reflexivity|]. intros U1 U2 IO. destruct H as [H | [H | (k & H)]]; [exact H|contradiction|].
        exfalso. apply H. apply (prefix_ok pre k G); lia.
    Qed.

    (** * The properties, one by one *)

    Lemma value_balance_spec : forall b, builder_legal b ->
      exists res, value_balance try_from b = Ret res /\
        (forall v, res = Ok v -> i64_ok (spent b - sent b) /\ try_from (spent b - sent b) = Some v) /\
        (forall v, spent b < 2 ^ 64 -> sent b < 2 ^ 64 -> i64_ok (spent b - sent b) ->
           try_from (spent b - sent b) = Some v -> res = Ok v).
    Proof.
      intros b [LS LO]. unfold value_balance.
      set (vs := map (fun s => n_value (s_note s)) (bl_spends b) ++ map (fun o => 0 - o_value o) (bl_outputs b)).
      assert (U1 : Forall is_u64 (map (fun s => n_value (s_note s)) (bl_spends b))).
      { apply Forall_map. eapply Forall_impl; [|exact LS]. intros s X. apply (no_value _ (sl_note _ _ _ X)). }
      assert (U2 : Forall is_u64 (map o_value (bl_outputs b))).
      { apply Forall_map. eapply Forall_impl; [|exact LO]. intros s X. apply (ol_value _ _ X). }
      assert (EQ : map (fun s => note_value_sub (n_value (s_note s)) 0) (bl_spends b) ++
                   map (fun o => note_value_sub 0 (o_value o)) (bl_outputs b) = map Ret vs).
      { unfold vs. rewrite map_app, !map_map. f_equal; apply map_ext_in; intros x IN.
        - replace (n_value (s_note x)) with (n_value (s_note x) - 0) at 2 by lia. apply note_value_sub_exact; [|unfold is_u64; lia].
          apply (no_value _ (sl_note _ _ _ (proj1 (Forall_forall _ _) LS _ IN))).
        - apply note_value_sub_exact; [unfold is_u64; lia|]. apply (ol_value _ _ (proj1 (Forall_forall _ _) LO _ IN)). }
      assert (VO : Forall value_sum_ok vs).
      { unfold vs. apply Forall_app. split; [eapply Forall_impl; [|exact U1]; intros a; unfold is_u64, value_sum_ok; lia|].
        apply Forall_map. pose proof (proj1 (Forall_map _ _ _) U2) as U3. eapply Forall_impl; [|exact U3]. intros a; unfold is_u64, value_sum_ok; lia. }
      assert (SV : zsum vs = spent b - sent b) by (unfold vs; rewrite zsum_app, zsum_map_opp; unfold spent, sent; lia).
      rewrite EQ, osum_fold. cbn [obind]. destruct (value_sum_fold_spec _ VO) as [FS FE].
      eexists. split; [reflexivity|].
      destruct (value_sum_fold vs) as [s|[]] eqn:EF.
      - destruct (proj1 (FS s) eq_refl) as [ES _]. rewrite SV in ES. subst s.
        destruct (i64_try_from_spec (spent b - sent b)) as [I1 I2].
        destruct (i64_try_from (spent b - sent b)) as [i|e] eqn:EI.
        + assert (IO : i64_ok (spent b - sent b)).
          { unfold i64_try_from in EI. destruct ((- 2 ^ 63 <=? spent b - sent b) && (spent b - sent b <? 2 ^ 63)) eqn:B; [|discriminate EI].
            apply andb_true_iff in B as [B1 B2]. unfold i64_ok. lia. }
          specialize (I1 IO). assert (i = spent b - sent b) by congruence. subst i. split.
          * intros v X. destruct (try_from (spent b - sent b)) as [x|]; [|discriminate X]. split; [exact IO|congruence].
          * intros v _ _ _ ->. reflexivity.
        + split; [intros v X; discriminate X|]. intros v _ _ IO. discriminate (I1 IO).
      - split; [intros v X; discriminate X|]. intros v H1 H2 _ _. exfalso.
        destruct (proj1 FE eq_refl) as (k & _ & N). apply N. unfold vs. rewrite firstn_app, zsum_app.
        rewrite (firstn_map _ _ (fun o => 0 - o_value o)), zsum_map_opp, <- (firstn_map _ _ o_value).
        pose proof (zsum_firstn _ k U1). pose proof (zsum_firstn _ (k - length (map (fun s => n_value (s_note s)) (bl_spends b))) U2).
        unfold spent, sent in *. unfold value_sum_ok. lia.
    Qed.

    Lemma build_outcome : forall t anchor b fuel r, gd_fallback_ok -> reachable t anchor b ->
      (forall why, build try_from fuel b r = Panic why -> rng_hits_zero_key r) /\
      (forall res r', build try_from fuel b r = Ret (res, r') ->
         res = Err BE_ValueSum \/ exists o, res = Ok o).
    Proof.
      intros t anchor b fuel r GD RB. destruct (reachable_legal L _ _ _ RB) as (LB & _). split.
      - intros why E. pose proof (build_np fuel b r GD LB) as N. rewrite E in N. exact N.
      - intros res r' E. apply (build_spec _ _ _ _ _ GD LB) in E as (n & _ & H). destruct res as [o|e]; [eauto|].
        destruct H as [-> _]. auto.
    Qed.

    Lemma build_shape : forall t anchor b fuel r o r', gd_fallback_ok -> reachable t anchor b ->
      build try_from fuel b r = Ret (Ok o, r') ->
      exists n, num_actions t (length (bl_spends b)) (length (bl_outputs b)) = Ok n /\
        (o = None <-> n = 0%nat) /\
        forall bd meta, o = Some (bd, meta) -> length (b_actions bd) = n /\ b_flags bd = bt_flags t /\ b_anchor bd = anchor.
    Proof.
      intros t anchor b fuel r o r' GD RB E. destruct (reachable_legal L _ _ _ RB) as (LB & TB & AB).
      apply (build_spec _ _ _ _ _ GD LB) in E as (n & NA & _ & v & _ & H). rewrite TB in NA. exists n. split; [exact NA|].
      destruct o as [[bd m]|].
      - destruct H as (N0 & H1 & H2 & H3 & _). rewrite TB in H2. rewrite AB in H3. split.
        + split; [intro X; discriminate X|intro X; contradiction].
        + intros bd' m' X. assert (bd' = bd) by congruence. subst bd'. auto.
      - split; [split; auto|]. intros bd m X. discriminate X.
    Qed.

    Lemma build_plan : forall t anchor b fuel r bd meta r', gd_fallback_ok -> reachable t anchor b ->
      build try_from fuel b r = Ret (Ok (Some (bd, meta)), r') -> exists plan, built b plan bd meta.
    Proof.
      intros t anchor b fuel r bd meta r' GD RB E. destruct (reachable_legal L _ _ _ RB) as (LB & _).
      apply (build_spec _ _ _ _ _ GD LB) in E as (n & _ & _ & v & _ & _ & _ & _ & _ & _ & P & _). exact P.
    Qed.

    Lemma build_balance : forall t anchor b, gd_fallback_ok -> reachable t anchor b ->
      (forall fuel r bd meta r', build try_from fuel b r = Ret (Ok (Some (bd, meta)), r') ->
         try_from (spent b - sent b) = Some (b_value_balance bd)) /\
      (exists res, value_balance try_from b = Ret res /\
         forall v, res = Ok v -> try_from (spent b - sent b) = Some v) /\
      (forall v, spent b < 2 ^ 64 -> sent b < 2 ^ 64 -> i64_ok (spent b - sent b) -> try_from (spent b - sent b) = Some v ->
         value_balance try_from b = Ret (Ok v) /\
         forall fuel r res r', build try_from fuel b r = Ret (res, r') -> exists o, res = Ok o).
    Proof.
      intros t anchor b GD RB. destruct (reachable_legal L _ _ _ RB) as (LB & _).
      destruct (value_balance_spec b LB) as (res & E & V1 & V2). split; [|split].
      - intros fuel r bd meta r' H. apply (build_spec _ _ _ _ _ GD LB) in H as (n & _ & _ & v & TF & _ & _ & _ & _ & BV & _). congruence.
      - exists res. split; [exact E|]. intros v X. apply (V1 v X).
      - intros v H1 H2 H3 H4. split; [rewrite E, (V2 v H1 H2 H3 H4); reflexivity|].
        intros fuel r res' r' H. apply (build_spec _ _ _ _ _ GD LB) in H as (n & _ & H). destruct res' as [o|e]; [eauto|].
        destruct H as [_ H]. specialize (H H1 H2 H3). congruence.
    Qed.

    Lemma build_binding : forall (into : V -> Z) t anchor b fuel r bd meta r',
      (forall i v, try_from i = Some v -> into v = i) -> gd_fallback_ok -> reachable t anchor b ->
      build try_from fuel b r = Ret (Ok (Some (bd, meta)), r') ->
      is_scalar (ua_bsk (ip_sigs (b_auth bd))) /\
      binding_validating_key into bd = Ret (vk_of Binding (ua_bsk (ip_sigs (b_auth bd)))).
    Proof.
      intros into t anchor b fuel r bd meta r' LAW GD RB E. destruct (reachable_legal L _ _ _ RB) as (LB & _).
      apply (build_spec _ _ _ _ _ GD LB) in E as (n & _ & IO & v & TF & _ & _ & _ & _ & BV & _ & BC & BS).
      split; [exact BS|]. unfold binding_validating_key. rewrite BV, (LAW _ _ TF). unfold value_sum_from_raw.
      rewrite (derive_cv_ret L) by (apply i64_value_sum; exact IO). cbn [obind]. rewrite (into_bvk_ret L). f_equal. exact BC.
    Qed.

    Lemma build_readable : forall t anchor b fuel r bd meta r' i o, gd_fallback_ok -> reachable t anchor b ->
      build try_from fuel b r = Ret (Ok (Some (bd, meta)), r') -> nth_error (bl_outputs b) i = Some o ->
      exists k a n, output_action_index meta i = Some k /\ nth_error (b_actions bd) k = Some a /\
        n_recipient n = o_recipient o /\ n_value n = o_value o /\
        (forall key, ivk_ok key -> owned_by key (o_recipient o) ->
           decrypt_output_with_key bd k key = Ret (Some (n, o_recipient o, o_memo o)) /\
           try_compact_note_decryption key (compact_of_action a) = Ret (Some (n, o_recipient o))) /\
        (forall ovk, o_ovk o = Some ovk ->
           recover_output_with_ovk bd k ovk = Ret (Some (n, o_recipient o, o_memo o))).
    Proof.
      intros t anchor b fuel r bd meta r' i o GD RB E Hi. destruct (reachable_legal L _ _ _ RB) as (LB & _).
      destruct (build_plan _ _ _ _ _ _ _ _ GD RB E) as [plan B].
      destruct (bu_output_index _ _ _ _ B i o Hi) as (k & s & K1 & K2).
      destruct (bu_each _ _ _ _ B k s o K2) as (a & w & n & alpha & rcv & A1 & _ & A).
      assert (OL : length (o_memo o) = 512%nat).
      { apply (ol_memo (bl_type b)). apply (proj1 (Forall_forall _ _) (proj2 LB)). apply (nth_error_In _ _ Hi). }
      destruct (ac_encrypts _ _ _ _ _ _ _ A) as [r0 EN].
      destruct (encrypts_roundtrip L _ _ _ _ _ _ GD (ac_note _ _ _ _ _ _ _ A) OL EN) as (_ & D1 & D2).
      rewrite (ac_recipient _ _ _ _ _ _ _ A) in D1, D2.
      exists k, a, n. split; [exact K1|]. split; [exact A1|]. split; [apply (ac_recipient _ _ _ _ _ _ _ A)|].
      split; [apply (ac_value _ _ _ _ _ _ _ A)|]. split.
      - intros key KO OW. destruct (D1 key KO OW) as [X Y]. split; [|exact Y].
        unfold decrypt_output_with_key. rewrite A1. exact X.
      - intros ovk X. unfold recover_output_with_ovk. rewrite A1. apply (D2 ovk X).
    Qed.

    Lemma build_metadata : forall t anchor b fuel r bd meta r', gd_fallback_ok -> reachable t anchor b ->
      build try_from fuel b r = Ret (Ok (Some (bd, meta)), r') ->
      (forall i s, nth_error (bl_spends b) i = Some s ->
         exists k a, spend_action_index meta i = Some k /\ nth_error (b_actions bd) k = Some a /\
           note_nullifier (s_note s) (s_fvk s) = Ret (a_nf a)) /\
      (forall i o, nth_error (bl_outputs b) i = Some o ->
         exists k a n r0, output_action_index meta i = Some k /\ nth_error (b_actions bd) k = Some a /\
           n_recipient n = o_recipient o /\ n_value n = o_value o /\ encrypts (o_ovk o) n (o_memo o) r0 a) /\
      (forall i j k, spend_action_index meta i = Some k -> spend_action_index meta j = Some k -> i = j) /\
      (forall i j k, output_action_index meta i = Some k -> output_action_index meta j = Some k -> i = j) /\
      (forall i, (length (bl_spends b) <= i)%nat -> spend_action_index meta i = None) /\
      (forall i, (length (bl_outputs b) <= i)%nat -> output_action_index meta i = None).
    Proof.
      intros t anchor b fuel r bd meta r' GD RB E. destruct (build_plan _ _ _ _ _ _ _ _ GD RB E) as [plan B].
      split; [|split; [|split; [|split; [|split]]]].
      - intros i s H. destruct (bu_spend_index _ _ _ _ B i s H) as (k & o & K1 & K2).
        destruct (bu_each _ _ _ _ B k s o K2) as (a & w & n & alpha & rcv & A1 & _ & A).
        exists k, a. split; [exact K1|]. split; [exact A1|]. apply (ac_nf _ _ _ _ _ _ _ A).
      - intros i o H. destruct (bu_output_index _ _ _ _ B i o H) as (k & s & K1 & K2).
        destruct (bu_each _ _ _ _ B k s o K2) as (a & w & n & alpha & rcv & A1 & _ & A).
        destruct (ac_encrypts _ _ _ _ _ _ _ A) as [r0 EN].
        exists k, a, n, r0. split; [exact K1|]. split; [exact A1|]. split; [apply (ac_recipient _ _ _ _ _ _ _ A)|].
        split; [apply (ac_value _ _ _ _ _ _ _ A)|exact EN].
      - exact (bu_spend_distinct _ _ _ _ B).
      - exact (bu_output_distinct _ _ _ _ B).
      - exact (bu_spend_past _ _ _ _ B).
      - exact (bu_output_past _ _ _ _ B).
    Qed.

    (** Every action comes from the plan. *)
    Lemma each_action : forall b plan (bd : @unauthorized_bundle C V) meta k a, built b plan bd meta -> nth_error (b_actions bd) k = Some a ->
      exists s o w n alpha rcv, nth_error plan k = Some (s, o) /\ nth_error (up_circuits (ip_proof (b_auth bd))) k = Some w /\
        action_of s o n alpha rcv a w.
    Proof.
      intros b plan bd meta k a B H.
      assert (K : (k < length plan)%nat) by (rewrite <- (bu_actions _ _ _ _ B); apply nth_error_Some; congruence).
      destruct (nth_error plan k) as [[s o]|] eqn:E; [|apply nth_error_None in E; lia].
      destruct (bu_each _ _ _ _ B k s o E) as (a' & w & n & alpha & rcv & A1 & A2 & A). assert (a' = a) by congruence. subst a'.
      exists s, o, w, n, alpha, rcv. auto.
    Qed.

    Lemma build_chaining : forall t anchor b fuel r bd meta r' k a, gd_fallback_ok -> reachable t anchor b ->
      build try_from fuel b r = Ret (Ok (Some (bd, meta)), r') -> nth_error (b_actions bd) k = Some a ->
      exists s n cm w alpha rcv,
        note_nullifier (s_note s) (s_fvk s) = Ret (a_nf a) /\
        n_rho n = a_nf a /\ commitment n = Ret cm /\ a_cmx a = pt_x cm /\
        nth_error (up_circuits (ip_proof (b_auth bd))) k = Some w /\ witness_of s n alpha rcv w /\
        a_cv a = pt_add (pt_mul (n_value (s_note s) - n_value n) value_base_V) (pt_mul rcv value_base_R) /\
        a_rk a = pt_add (fvk_ak (s_fvk s)) (pt_mul alpha (basepoint SpendAuth)).
    Proof.
      intros t anchor b fuel r bd meta r' k a GD RB E H. destruct (build_plan _ _ _ _ _ _ _ _ GD RB E) as [plan B].
      destruct (each_action _ _ _ _ _ _ B H) as (s & o & w & n & alpha & rcv & P1 & P2 & A).
      destruct (ac_encrypts _ _ _ _ _ _ _ A) as (r0 & e & cm & _ & CM & _ & CX & _).
      exists s, n, cm, w, alpha, rcv. split; [apply (ac_nf _ _ _ _ _ _ _ A)|]. split; [apply (ac_rho _ _ _ _ _ _ _ A)|].
      split; [exact CM|]. split; [exact CX|]. split; [exact P2|]. split; [apply (ac_witness _ _ _ _ _ _ _ A)|].
      split; [rewrite (ac_value _ _ _ _ _ _ _ A); apply (ac_cv _ _ _ _ _ _ _ A)|apply (ac_rk _ _ _ _ _ _ _ A)].
    Qed.
  End V.
End Build.
