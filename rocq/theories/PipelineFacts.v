(** From the builder to the validator (C61). *)
From Coq Require Import String ZArith List Bool Lia.
From Coq Require Import Init.Byte.
From Verif Require Import Prelude PreludeFacts Fields Curve CurveFacts Oracles Spec Sinsemilla SinsSpec RedPallas Value Keys KeysSpec Note NoteSpec
  Tree TreeSpec Action NoteEnc NoteEncSpec NoteEncFacts Bundle Batch Builder Signing BundleSpec BundleFacts BatchFacts BuilderSpec BuilderFacts BuildFacts
  SigningSpec SigningFacts Halo2 Circuit CircuitSpec CircuitFacts CircuitBuildFacts PipelineSpec.
Import ListNotations.
Open Scope Z_scope.

Section Facts.
  Context {C : Curve} {OR : @Oracles C} (L : CurveLaws C) {V : Type}.
  #[local] Opaque sins_hash_words sins_Q msg_words synthesize.

  Lemma effects_instances : forall T S T' S' (b : bundle T S V) (b' : bundle T' S' V), effects b = effects b' ->
    to_instances b = to_instances b'.
  Proof.
    intros T S T' S' b b' H. unfold to_instances.
    pose proof (f_equal b_actions H) as H1. pose proof (f_equal b_flags H) as H2. pose proof (f_equal b_anchor H) as H3.
    cbn [effects b_actions b_flags b_anchor] in H1, H2, H3. rewrite H2, H3.
    apply (f_equal (map (fun a => to_instance a (b_flags b') (b_anchor b')))) in H1. rewrite !map_map in H1. exact H1.
  Qed.

  Lemma effects_nth : forall T S T' S' (b : bundle T S V) (b' : bundle T' S' V) k a, effects b = effects b' ->
    nth_error (b_actions b) k = Some a -> exists a', nth_error (b_actions b') k = Some a' /\ action_effects a' = action_effects a.
  Proof.
    intros T S T' S' b b' k a H N. pose proof (f_equal b_actions H) as H1. cbn [effects b_actions] in H1.
    apply (f_equal (fun l => nth_error l k)) in H1. rewrite !nth_error_map, N in H1. cbn [option_map] in H1.
    destruct (nth_error (b_actions b') k) as [a'|]; [|discriminate H1]. exists a'. split; [reflexivity|].
    cbn [option_map] in H1. congruence.
  Qed.

  (** The proof a history ends with was made from the witnesses of the built bundle. *)
  Section Hist.
    Context (halo2 : list witness -> list (list Z) -> rng -> option bytes * rng) (b0 : @unauthorized_bundle C V) (sighash : bytes).

    Definition proof_made (pr : bool) : proof_stage pr -> Prop :=
      match pr return proof_stage pr -> Prop with
      | false => fun p => p = ip_proof (b_auth b0)
      | true => fun p => exists is r r', omap to_halo2_instance (to_instances b0) = Ret is /\
                  halo2 (up_circuits (ip_proof (b_auth b0))) is r = (Some p, r')
      end.

    Lemma append_auth : forall P (b b' : @partial_bundle C V P) s, append_signature b s = Ok b' -> b_auth b' = b_auth b.
    Proof.
      intros P b b' s H. unfold append_signature, map_authorization in H. destruct (map_ctx _ _ _) as [acts n].
      destruct n as [|[|n]]; try discriminate H. assert (E : b' = mk_bundle acts (b_flags b) (b_value_balance b) (b_anchor b) (b_auth b)) by congruence.
      rewrite E. reflexivity.
    Qed.
    Lemma append_all_auth : forall P l (b b' : @partial_bundle C V P), append_signatures b l = Ok b' -> b_auth b' = b_auth b.
    Proof.
      intros P. induction l as [|s l IH]; intros b b' H; cbn [append_signatures] in H; [congruence|].
      destruct (append_signature b s) as [b1|e] eqn:E; [|discriminate H]. rewrite (IH _ _ H). apply (append_auth _ _ _ _ E).
    Qed.
    Lemma prepare_proof : forall P (b : bundle (in_progress P unauthorized) signing_metadata V) r,
      ip_proof (b_auth (fst (prepare b r sighash))) = ip_proof (b_auth b).
    Proof.
      intros P b r. unfold prepare, map_authorization. destruct (map_ctx _ _ _) as [acts r1].
      destruct (sign Binding _ sighash r1) as [s r2]. reflexivity.
    Qed.
    Lemma sign_auth : forall P (b : @partial_bundle C V P) r ask, b_auth (fst (bundle_sign b r ask)) = b_auth b.
    Proof. intros P b r ask. unfold bundle_sign, map_authorization. destruct (map_ctx _ _ _) as [acts r1]. reflexivity. Qed.

    Lemma history_proof : forall pr b, history halo2 b0 sighash pr b -> proof_made pr (ip_proof (b_auth b)).
    Proof.
      intros pr b H. induction H as [r|r b1 r1 r2 E|pr b r ask H IH|pr b s b' H IH E|pr b l b' H IH E|b r b' r' H IH E].
      - apply prepare_proof.
      - destruct (create_proof_ok _ _ _ _ _ _ _ E) as (_ & _ & _ & _ & _ & is & r3 & I & P). exists is, r, r3.
        split; [exact I|]. rewrite <- (prepare_proof _ b1 r2) in P. exact P.
      - rewrite sign_auth. exact IH.
      - rewrite (append_auth _ _ _ _ E). exact IH.
      - rewrite (append_all_auth _ _ _ _ E). exact IH.
      - destruct (create_proof_ok _ _ _ _ _ _ _ E) as (_ & _ & _ & _ & _ & is & r3 & I & P). exists is, r, r3.
        split; [rewrite (effects_instances _ _ _ _ b0 b) by (symmetry; apply (history_keeps_effects _ _ _ _ _ H)); exact I|].
        cbn [proof_made] in IH. rewrite <- IH. exact P.
    Qed.
  End Hist.

  (** All stored witnesses satisfy the circuit. *)
  Lemma built_lengths : forall b plan (bd : @unauthorized_bundle C V) meta, built b plan bd meta ->
    length (b_actions bd) = length (up_circuits (ip_proof (b_auth bd))).
  Proof. intros b plan bd meta B. rewrite (bu_actions _ _ _ _ B). symmetry. apply (bu_witnesses _ _ _ _ B). Qed.

  Lemma forall_or : forall A B (R : A -> B -> Prop) (X : Prop) l l', length l = length l' ->
    (forall k a b, nth_error l k = Some a -> nth_error l' k = Some b -> R a b \/ X) -> Forall2 R l l' \/ X.
  Proof.
    intros A B R X. induction l as [|a l IH]; intros [|b l'] HL H; try discriminate HL; [left; constructor|].
    destruct (H 0%nat a b eq_refl eq_refl) as [H0|H0]; [|right; exact H0].
    destruct (IH l') as [H1|H1]; [cbn [length] in HL; lia| |left; constructor; assumption|right; exact H1].
    intros k x y Hx Hy. apply (H (S k)); assumption.
  Qed.
  Lemma Forall2_nth : forall A B (R : A -> B -> Prop) l l', Forall2 R l l' -> forall k a b,
    nth_error l k = Some a -> nth_error l' k = Some b -> R a b.
  Proof.
    intros A B R l l' H. induction H as [|x y l l' E H IH]; intros [|k] a b Ha Hb; cbn [nth_error] in *; try discriminate Ha.
    - congruence.
    - apply (IH k); assumption.
  Qed.
  Lemma Forall2_len : forall A B (R : A -> B -> Prop) l l', Forall2 R l l' -> length l = length l'.
  Proof. intros A B R l l' H. induction H as [|x y l l' E H IH]; cbn [length]; [reflexivity|]. rewrite IH. reflexivity. Qed.

  Lemma stored_witnesses : forall (try_from : Z -> option V) t anchor b fuel r bd meta r' is,
    gd_fallback_ok -> basepoint SpendAuth <> pt_id -> is_base anchor -> reachable t anchor b ->
    build try_from fuel b r = Ret (Ok (Some (bd, meta)), r') -> omap to_halo2_instance (to_instances bd) = Ret is ->
    Forall2 provable_instance (up_circuits (ip_proof (b_auth bd))) is \/
    undefined_merkle_hash (up_circuits (ip_proof (b_auth bd))).
  Proof.
    intros try_from t anchor b fuel r bd meta r' is GD G HA RB E HI. apply omap_spec in HI.
    destruct (build_plan L _ _ _ _ _ _ _ _ _ GD RB E) as [plan B].
    pose proof (Forall2_len _ _ _ _ _ HI) as LI. unfold to_instances in LI. rewrite map_length in LI.
    pose proof (built_lengths _ _ _ _ B) as LB.
    apply forall_or; [congruence|]. intros k w i KW KI.
    assert (exists a, nth_error (b_actions bd) k = Some a) as [a KA].
    { destruct (nth_error (b_actions bd) k) as [a|] eqn:N; [exists a; reflexivity|]. apply nth_error_None in N.
      assert (H : (k < length (up_circuits (ip_proof (b_auth bd))))%nat) by (apply nth_error_Some; congruence). lia. }
    assert (TI : to_halo2_instance (to_instance a (b_flags bd) (b_anchor bd)) = Ret i).
    { refine (Forall2_nth _ _ _ _ _ HI k _ i _ KI). unfold to_instances. rewrite nth_error_map, KA. reflexivity. }
    destruct (builder_complete L try_from t anchor b fuel r bd meta r' k a w i GD G HA RB E KA KW TI) as [(_ & c & S1 & S2 & _)|(h & x & y & I & N)].
    - left. exists c. split; assumption.
    - right. exists w, h, x, y. split; [apply (nth_error_In _ _ KW)|]. split; assumption.
  Qed.

  Theorem pipeline_valid : forall halo2_prove halo2_verify (try_from : Z -> option V) (into : V -> Z) t anchor b fuel r b0 meta r' sighash
    (b1 : partial_bundle bytes) bd,
    (forall i v, try_from i = Some v -> into v = i) -> proofs_verify halo2_prove halo2_verify ->
    gd_fallback_ok -> basepoint SpendAuth <> pt_id -> is_base anchor -> reachable t anchor b ->
    build try_from fuel b r = Ret (Ok (Some (b0, meta)), r') ->
    history halo2_prove b0 sighash true b1 -> finalize b1 = Ret (Ok bd) ->
    bundle_valid halo2_verify into bd sighash \/ undefined_merkle_hash (up_circuits (ip_proof (b_auth b0))).
  Proof.
    intros prove ver try_from into t anchor b fuel r b0 meta r' sighash b1 bd LAW PV GD G HA RB E H F.
    destruct (history_valid L prove try_from into t anchor b fuel r b0 meta r' sighash b1 bd LAW GD RB E H F) as [V1 V2].
    destruct (history_proof prove b0 sighash true b1 H) as (is & r1 & r2 & I & PR).
    destruct (stored_witnesses try_from t anchor b fuel r b0 meta r' is GD G HA RB E I) as [W|W]; [left|right; exact W].
    split; [exact V1|]. split; [exact V2|]. unfold verify_proof, proof_verify.
    destruct (history_final_effects prove b0 sighash b1 bd into H F) as (EF & _).
    rewrite (effects_instances _ _ _ _ _ _ EF), I. cbn [obind]. f_equal.
    destruct (finalize_ok _ _ F) as (_ & _ & FP & _). rewrite FP. apply (PV _ _ _ _ _ W PR).
  Qed.

  (** From a built bundle to an accepted one. *)
  Lemma create_proof_total : forall halo2 (b : @unauthorized_bundle C V) r is p r1,
    b_actions b <> [] -> omap to_halo2_instance (to_instances b) = Ret is ->
    halo2 (up_circuits (ip_proof (b_auth b))) is r = (Some p, r1) -> exists b', create_proof halo2 b r = Ret (Ok b', r1).
  Proof.
    intros halo2 b r is p r1 NE HI HP. unfold create_proof, try_map_authorization. rewrite try_map_id.
    destruct (b_actions b) as [|a l] eqn:EA; [congruence|]. cbn [length Nat.eqb negb assert_ obind]. rewrite <- EA.
    unfold proof_create. fold (to_instances b). rewrite HI. cbn [obind]. rewrite HP. cbn [obind]. eexists. reflexivity.
  Qed.

  Lemma sign_all_history : forall halo2 b0 sighash pr asks (b : @partial_bundle C V (proof_stage pr)) r,
    history halo2 b0 sighash pr b -> history halo2 b0 sighash pr (fst (sign_all b r asks)).
  Proof.
    intros halo2 b0 sighash pr. induction asks as [|ask l IH]; intros b r H; cbn [sign_all]; [exact H|].
    destruct (bundle_sign b r ask) as [b' r'] eqn:E. apply IH. replace b' with (fst (bundle_sign b r ask)) by (rewrite E; reflexivity).
    apply H_sign. exact H.
  Qed.
  Lemma applied_history : forall halo2 (b0 : @unauthorized_bundle C V) sighash r1 b1 r3 r2 asks bd,
    create_proof halo2 b0 r1 = Ret (Ok b1, r3) -> apply_signatures b1 r2 sighash asks = Ret (Ok bd) ->
    exists b2, history halo2 b0 sighash true b2 /\ finalize b2 = Ret (Ok bd).
  Proof.
    intros halo2 b0 sighash r1 b1 r3 r2 asks bd CP AB. unfold apply_signatures in AB.
    destruct (prepare b1 r2 sighash) as [p r4] eqn:EP.
    assert (H : history halo2 b0 sighash true p).
    { replace p with (fst (prepare b1 r2 sighash)) by (rewrite EP; reflexivity). apply (H_prove_prepare halo2 b0 sighash r1 b1 r3 r2 CP). }
    exists (fst (sign_all p r4 asks)). split; [apply (sign_all_history halo2 b0 sighash true asks p r4 H)|].
    destruct (sign_all p r4 asks) as [q r5]. exact AB.
  Qed.
  Lemma valid_added : forall ver (into : V -> Z) bd sighash, bundle_valid ver into bd sighash ->
    exists bt, add_all into batch_new [(bd, sighash)] = Ret bt.
  Proof.
    intros ver into bd sighash (_ & (bvk & B & _) & VP). cbn [add_all]. unfold add_bundle. rewrite B. cbn [obind].
    unfold verify_proof, proof_verify in VP. destruct (omap to_halo2_instance (to_instances bd)) as [is|w|]; cbn [obind] in VP; try discriminate VP.
    cbn [obind]. eexists. reflexivity.
  Qed.

  Theorem pipeline_completes : forall halo2_prove halo2_verify (try_from : Z -> option V) (into : V -> Z) t anchor b fuel r b0 meta r' sighash asks r1 r2,
    (forall i v, try_from i = Some v -> into v = i) -> proofs_verify halo2_prove halo2_verify -> prover_succeeds halo2_prove ->
    gd_fallback_ok -> basepoint SpendAuth <> pt_id -> is_base anchor -> reachable t anchor b ->
    build try_from fuel b r = Ret (Ok (Some (b0, meta)), r') -> (forall a, In a (b_actions b0) -> a_rk a <> pt_id) -> covers asks b ->
    (exists b1 r3 bd bt,
       create_proof halo2_prove b0 r1 = Ret (Ok b1, r3) /\ apply_signatures b1 r2 sighash asks = Ret (Ok bd) /\
      effects bd = effects b0 /\ bundle_valid halo2_verify into bd sighash /\
      add_all into batch_new [(bd, sighash)] = Ret bt /\ forall r4, validate halo2_verify bt r4 = true) \/
    undefined_merkle_hash (up_circuits (ip_proof (b_auth b0))).
  Proof.
    intros prove ver try_from into t anchor b fuel r b0 meta r' sighash asks r1 r2 LAW PV PS GD G HA RB E RK CV.
    destruct (build_plan L _ _ _ _ _ _ _ _ _ GD RB E) as [plan B].
    assert (OI : exists is, omap to_halo2_instance (to_instances b0) = Ret is).
    { unfold to_instances. clear -RK L. induction (b_actions b0) as [|a l IH]; [exists []; reflexivity|]. cbn [map omap].
      rewrite (halo2_instance_ret L). cbn [to_instance i_rk]. rewrite (proj2 (is_id_false L (a_rk a)) (RK a (or_introl eq_refl))).
      destruct IH as [is IH]; [intros x Hx; apply RK; right; exact Hx|]. rewrite IH. cbn [obind]. eexists. reflexivity. }
    destruct OI as [is OI].
    destruct (stored_witnesses try_from t anchor b fuel r b0 meta r' is GD G HA RB E OI) as [W|W]; [|right; exact W].
    destruct (PS _ is r1 W) as (p & r3 & HP).
    assert (NE : b_actions b0 <> []).
    { destruct (build_shape L try_from _ _ _ _ _ _ _ GD RB E) as (n & _ & N0 & SH). destruct (SH _ _ eq_refl) as (LN & _).
      intro X. rewrite X in LN. pose proof (proj2 N0 (eq_sym LN)) as Y. discriminate Y. }
    destruct (create_proof_total prove b0 r1 is p r3 NE OI HP) as [b1 CP].
    destruct (apply_signatures_spec L prove try_from t anchor b fuel r b0 meta r' r1 b1 r3 sighash asks r2 GD RB E CP) as [A _].
    destruct (A CV) as [bd AB].
    destruct (applied_history prove b0 sighash r1 b1 r3 r2 asks bd CP AB) as (b2 & H2 & F2).
    destruct (pipeline_valid prove ver try_from into t anchor b fuel r b0 meta r' sighash b2 bd LAW PV GD G HA RB E H2 F2) as [BV|X].
    - left. destruct (history_final_effects prove b0 sighash b2 bd into H2 F2) as (EF & _).
      destruct (valid_added ver into bd sighash BV) as (bt & AD).
      exists b1, r3, bd, bt. split; [exact CP|]. split; [exact AB|]. split; [exact EF|]. split; [exact BV|]. split; [exact AD|].
      intro r4. apply (complete L ver into _ _ r4 AD). intros x sh [X|[]]. assert (x = bd) by congruence. assert (sh = sighash) by congruence. subst x sh. exact BV.
    - right. exact X.
  Qed.

  (** * Reading the final bundle *)
  Theorem final_readable : forall halo2_prove (try_from : Z -> option V) t anchor b fuel r b0 meta r' sighash
    (b1 : partial_bundle bytes) bd i o,
    gd_fallback_ok -> reachable t anchor b -> build try_from fuel b r = Ret (Ok (Some (b0, meta)), r') ->
    history halo2_prove b0 sighash true b1 -> finalize b1 = Ret (Ok bd) ->
    nth_error (bl_outputs b) i = Some o ->
    exists k a n, output_action_index meta i = Some k /\ nth_error (b_actions bd) k = Some a /\
      n_recipient n = o_recipient o /\ n_value n = o_value o /\
      (forall key, ivk_ok key -> owned_by key (o_recipient o) ->
         decrypt_output_with_key bd k key = Ret (Some (n, o_recipient o, o_memo o)) /\
         try_compact_note_decryption key (compact_of_action a) = Ret (Some (n, o_recipient o))) /\
      (forall ovk, o_ovk o = Some ovk ->
         recover_output_with_ovk bd k ovk = Ret (Some (n, o_recipient o, o_memo o))).
  Proof.
    intros prove try_from t anchor b fuel r b0 meta r' sighash b1 bd i o GD RB E H F HO.
    destruct (build_readable L try_from t anchor b fuel r b0 meta r' i o GD RB E HO) as (k & a & n & K1 & K2 & K3 & K4 & K5 & K6).
    destruct (history_final_effects prove b0 sighash b1 bd (fun _ => 0) H F) as (EF & _).
    destruct (effects_nth _ _ _ _ _ bd k a (eq_sym EF) K2) as (a' & N & EA).
    exists k, a', n. split; [exact K1|]. split; [exact N|]. split; [exact K3|]. split; [exact K4|].
    unfold decrypt_output_with_key, recover_output_with_ovk in *. rewrite N. rewrite K2 in K5, K6. split.
    - intros key O1 O2. destruct (K5 key O1 O2) as [D1 D2]. split.
      + rewrite <- D1. change (try_note_decryption key (action_effects a') = try_note_decryption key (action_effects a)). rewrite EA. reflexivity.
      + rewrite <- D2. change (try_compact_note_decryption key (compact_of_action (action_effects a')) = try_compact_note_decryption key (compact_of_action (action_effects a))).
        rewrite EA. reflexivity.
    - intros ovk HK. rewrite <- (K6 ovk HK). change (try_output_recovery ovk (action_effects a') = try_output_recovery ovk (action_effects a)).
      rewrite EA. reflexivity.
  Qed.

  (** * What acceptance means (C62) *)
  Lemma statements_or : forall (is : list instance) insts ks, Forall (fun i => is_base (i_anchor i)) is ->
    Forall2 (fun i l => to_halo2_instance i = Ret l) is insts -> Forall2 circuit_sat insts ks ->
    Forall2 action_statement is (map cells_witness ks) \/ exists k, In k ks /\ undefined_hash k.
  Proof.
    intros is insts ks HB H. revert ks. induction H as [|i l is insts E H IH]; intros ks HK; inversion HK as [|l' k insts' ks' S HK']; subst.
    - left. constructor.
    - apply Forall_cons_iff in HB as [B1 B2]. destruct (IH B2 _ HK') as [I|(k' & I1 & I2)].
      + destruct (circuit_sound L i l k B1 E S) as [ST|U].
        * left. cbn [map]. constructor; assumption.
        * right. exists k. split; [left; reflexivity|exact U].
      + right. exists k'. split; [right; exact I1|exact I2].
  Qed.

  Lemma signers_know : forall (b : bundle authorized signature V) ws (sk : action signature -> Z) ,
    (forall a, In a (b_actions b) -> a_rk a = vk_of SpendAuth (sk a)) -> Forall2 action_statement (to_instances b) ws ->
    Forall2 (fun a w => w_ak w = pt_mul (sk a - w_alpha w) (basepoint SpendAuth)) (b_actions b) ws.
  Proof.
    intros b ws sk H. unfold to_instances. revert ws H. generalize (b_flags b), (b_anchor b). induction (b_actions b) as [|a l IH]; intros f an ws H F;
      inversion F as [|i w is ws' S F']; subst; constructor.
    - pose proof (st_rk _ _ S) as RK. cbn [to_instance i_rk] in RK. rewrite (H a (or_introl eq_refl)) in RK.
      unfold vk_randomize, vk_of in RK. rewrite (mul_sub L), RK. unfold pt_sub.
      rewrite <- (add_assoc L), (add_neg_r L), (add_id_r L). reflexivity.
    - apply (IH f an); [intros x Hx; apply H; right; exact Hx|exact F'].
  Qed.

  Theorem valid_means : forall halo2_verify extract sx bx (into : V -> Z) b sighash,
    finds_cells halo2_verify extract -> finds_keys SpendAuth sx -> finds_keys Binding bx ->
    is_base (b_anchor b) -> i64_ok (into (b_value_balance b)) -> Z.of_nat (length (b_actions b)) < 2 ^ 180 ->
    bundle_valid halo2_verify into b sighash ->
    exists is bvk, omap to_halo2_instance (to_instances b) = Ret is /\ binding_validating_key into b = Ret bvk /\
      accepted_means into b (extract (au_proof (b_auth b)) is) (fun a => sx (a_rk a) sighash (a_auth a))
        (bx bvk sighash (au_binding_sig (b_auth b))).
  Proof.
    intros ver extract sx bx into b sighash XC XS XB HA HV HL (V1 & (bvk & BK & V2) & V3).
    unfold verify_proof, proof_verify in V3. destruct (omap to_halo2_instance (to_instances b)) as [is|w|] eqn:EI; cbn [obind] in V3; try discriminate V3.
    assert (VP : ver (au_proof (b_auth b)) is = true) by congruence. clear V3.
    exists is, bvk. split; [reflexivity|]. split; [exact BK|]. apply omap_spec in EI.
    assert (AB : Forall (fun i => is_base (i_anchor i)) (to_instances b)).
    { unfold to_instances. apply Forall_forall. intros i HI. apply in_map_iff in HI as (a & <- & _). exact HA. }
    unfold accepted_means. cbv zeta. set (ks := extract (au_proof (b_auth b)) is).
    destruct (statements_or _ _ ks AB EI (XC _ _ VP)) as [ST|U]; [|right; left; exact U].
    pose proof (XB _ _ _ V2) as EB. rewrite EB in BK.
    destruct (value_conserved L into b _ _ ST HV HL BK) as [S0|[S1 S2]].
    - left. split; [exact ST|]. split; [exact S0|]. apply signers_know; [|exact ST].
      intros a HI. apply (XS _ _ _ (V1 a HI)).
    - right. right. split; [exact S1|]. exact S2.
  Qed.

  Theorem batch_means : forall halo2_verify extract sx bx (into : V -> Z) l bt r b sighash,
    finds_cells halo2_verify extract -> finds_keys SpendAuth sx -> finds_keys Binding bx ->
    add_all into batch_new l = Ret bt -> validate halo2_verify bt r = true -> In (b, sighash) l ->
    is_base (b_anchor b) -> i64_ok (into (b_value_balance b)) -> Z.of_nat (length (b_actions b)) < 2 ^ 180 ->
    (exists is bvk, omap to_halo2_instance (to_instances b) = Ret is /\ binding_validating_key into b = Ret bvk /\
       accepted_means into b (extract (au_proof (b_auth b)) is) (fun a => sx (a_rk a) sighash (a_auth a))
         (bx bvk sighash (au_binding_sig (b_auth b)))) \/
    (exists es, Forall2 (fun i E => sig_error i = Some E) (bt_signatures bt) es /\
       combination (coefficients (length (bt_signatures bt)) r) es = pt_id /\ exists E, In E es /\ E <> pt_id).
  Proof.
    intros ver extract sx bx into l bt r b sighash XC XS XB AD VL HI HA HV HL.
    destruct (sound L ver into l bt r AD VL) as [_ [BV|X]]; [left|right; exact X].
    apply (valid_means ver); try assumption. apply BV. exact HI.
  Qed.
End Facts.
