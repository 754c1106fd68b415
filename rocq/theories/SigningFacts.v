(** Proofs about prepare, sign, append_signature, finalize and create_proof. *)
From Coq Require Import String ZArith List Bool Lia Permutation.
From Coq Require Import Init.Byte.
From Verif Require Import Prelude Fields Curve Oracles RedPallas Value Keys Note Tree Action NoteEnc Bundle Builder Signing
  PreludeFacts CurveFacts KeysSpec KeysFacts NoteSpec NoteEncSpec BundleSpec BundleFacts BuilderSpec BuilderFacts BuildFacts SigningSpec.
Import ListNotations.
Open Scope Z_scope.

Section Signing.
  Context {C : Curve} {OR : @Oracles C} (L : CurveLaws C) {V : Type}.

  Lemma a_map_effects : forall A B (f : A -> B) (a : action A), action_effects (a_map f a) = action_effects a.
  Proof. reflexivity. Qed.
  Lemma effects_rk : forall A B (a : action A) (b : action B), action_effects a = action_effects b -> a_rk a = a_rk b.
  Proof. intros A B a b H. apply (f_equal a_rk) in H. exact H. Qed.

  (** * map_ctx and try_map_ctx *)
  Lemma map_ctx_spec : forall R A B (f : R -> A -> B * R) l r,
    Forall2 (fun (a : action A) (a' : action B) => action_effects a' = action_effects a /\ exists r0, a_auth a' = fst (f r0 (a_auth a)))
      l (fst (map_ctx f r l)).
  Proof.
    intros R A B f. induction l as [|a l IH]; intro r; cbn [map_ctx]; [constructor|].
    destruct (f r (a_auth a)) as [b r1] eqn:E. specialize (IH r1). destruct (map_ctx f r1 l) as [bs r2]. cbn [fst] in *.
    constructor; [|exact IH]. split; [reflexivity|]. exists r. rewrite E. reflexivity.
  Qed.
  Lemma Forall2_effects : forall A B (l : list (action A)) (l' : list (action B)) (Q : action A -> action B -> Prop),
    Forall2 (fun a a' => action_effects a' = action_effects a /\ Q a a') l l' ->
    map action_effects l' = map action_effects l.
  Proof. intros A B l l' Q H. induction H as [|a a' l l' [H1 _] _ IH]; cbn [map]; [reflexivity|]. rewrite H1, IH. reflexivity. Qed.
  Lemma Forall2_mono : forall A B (P Q : A -> B -> Prop) l l', (forall a b, P a b -> Q a b) -> Forall2 P l l' -> Forall2 Q l l'.
  Proof. intros A B P Q l l' H F. induction F; constructor; auto. Qed.
  Lemma Forall2_inv_in : forall A B (P : A -> B -> Prop) l l' b, Forall2 P l l' -> In b l' -> exists a, In a l /\ P a b.
  Proof.
    intros A B P l l' b F. induction F as [|x y l l' H F IH]; intros HI; [contradiction|]. destruct HI as [-> | HI].
    - exists x. split; [left; reflexivity|exact H].
    - destruct (IH HI) as (a & I1 & I2). exists a. split; [right; exact I1|exact I2].
  Qed.
  Lemma Forall2_inv_in_l : forall A B (P : A -> B -> Prop) l l' a, Forall2 P l l' -> In a l -> exists b, In b l' /\ P a b.
  Proof.
    intros A B P l l' a F. induction F as [|x y l l' H F IH]; intros HI; [contradiction|]. destruct HI as [-> | HI].
    - exists y. split; [left; reflexivity|exact H].
    - destruct (IH HI) as (b & I1 & I2). exists b. split; [right; exact I1|exact I2].
  Qed.

  (** * sign *)
  Lemma ak_eqb_eq : forall a b : point, ak_eqb a b = true <-> a = b.
  Proof.
    intros a b. unfold ak_eqb, vk_eqb, vk_to_bytes. rewrite bytes_eqb_eq. split; [apply (encode_inj L)|congruence].
  Qed.

  Lemma sign_spec : forall P sighash (b : @partial_bundle C V P) r ask, authorizable sighash b ->
    effects (fst (bundle_sign b r ask)) = effects b /\ b_auth (fst (bundle_sign b r ask)) = b_auth b /\
    Forall2 (sign_effect sighash ask) (b_actions b) (b_actions (fst (bundle_sign b r ask))).
  Proof.
    intros P sighash b r ask [SH AZ]. unfold bundle_sign, map_authorization.
    pose proof (map_ctx_spec _ _ _ (fun r s => (fun r partial m =>
         match m with
         | Unsigned p =>
             if ak_eqb (sp_ak p) (ak_of_ask ask) then
               let (s, r') := sign SpendAuth (sk_randomize ask (sp_alpha p))
                                (pa_sighash (ip_sigs partial)) r in
               (Signed s, r')
             else (Unsigned p, r)
         | Signed s => (Signed s, r)
         end) r (b_auth b) s) (b_actions b) r) as M. cbv beta in M.
    destruct (map_ctx _ r (b_actions b)) as [acts r1]. cbn [fst b_auth b_actions] in *.
    split; [unfold effects; cbn [b_actions b_flags b_value_balance b_anchor]; f_equal; apply (Forall2_effects _ _ _ _ _ M)|].
    split; [reflexivity|]. clear r r1.
    rewrite Forall_forall in AZ. revert AZ. induction M as [|a a' l l' [E1 [r0 E2]] M IH]; intro AZ; [constructor|].
    constructor; [|apply IH; intros x HX; apply AZ; right; exact HX].
    specialize (AZ a (or_introl eq_refl)). split; [exact E1|]. destruct (a_auth a) as [p|s]; [|exact E2].
    destruct (ak_eqb (sp_ak p) (ak_of_ask ask)) eqn:EA.
    - apply ak_eqb_eq in EA. split; [|congruence]. intros _.
      destruct (sign SpendAuth (sk_randomize ask (sp_alpha p)) (pa_sighash (ip_sigs (b_auth b))) r0) as [s r1] eqn:ES.
      cbn [fst] in E2. exists s. split; [exact E2|]. rewrite AZ, EA, SH in *.
      pose proof (randomized_signature L ask (sp_alpha p) sighash r0) as K. rewrite ES in K. exact K.
    - split; [|intros _; exact E2]. intro X. apply ak_eqb_eq in X. congruence.
  Qed.

  Lemma sign_authorizable : forall P sighash (b : @partial_bundle C V P) r ask, authorizable sighash b ->
    authorizable sighash (fst (bundle_sign b r ask)).
  Proof.
    intros P sighash b r ask AZ. destruct (sign_spec P sighash b r ask AZ) as (_ & E & F). destruct AZ as [SH AZ].
    constructor; [rewrite E; exact SH|]. rewrite Forall_forall in *. intros a' HI.
    destruct (Forall2_inv_in _ _ _ _ _ _ F HI) as (a & H1 & E1 & E2). specialize (AZ a H1).
    apply effects_rk in E1. destruct (a_auth a) as [p|s] eqn:EA.
    - destruct E2 as [X Y]. destruct (pt_eq_dec L (sp_ak p) (ak_of_ask ask)) as [E0|N].
      + destruct (X E0) as (s & -> & HV). rewrite E1. exact HV.
      + rewrite (Y N), E1. exact AZ.
    - rewrite E2, E1. exact AZ.
  Qed.

  (** * append_signature *)
  Section Append.
    Context (sighash : bytes) (s : signature).

    Definition app_step (n : nat) (m : maybe_signed) : maybe_signed * nat :=
      match m with
      | Unsigned p => if verify SpendAuth (vk_randomize (sp_ak p) (sp_alpha p)) sighash s then (Signed s, S n) else (Unsigned p, n)
      | Signed s' => (Signed s', n)
      end.
    Definition fits (a : action maybe_signed) : bool :=
      match a_auth a with
      | Unsigned p => verify SpendAuth (vk_randomize (sp_ak p) (sp_alpha p)) sighash s
      | Signed _ => false
      end.
    Lemma map_ctx_count : forall l n, map_ctx app_step n l =
      (map (fun a => a_map (fun m => if fits a then Signed s else m) a) l, (n + length (filter fits l))%nat).
    Proof.
      induction l as [|a l IH]; intro n; cbn [map_ctx map filter]; [rewrite Nat.add_0_r; reflexivity|].
      assert (E : app_step n (a_auth a) = (if fits a then Signed s else a_auth a, if fits a then S n else n)).
      { unfold app_step, fits. destruct (a_auth a) as [p|s']; [destruct (verify _ _ _ _); reflexivity|reflexivity]. }
      rewrite E, IH. destruct (fits a); cbn [length]; f_equal; lia.
    Qed.
    Lemma filter_none : forall l, (forall k a, nth_error l k = Some a -> fits a = false) -> filter fits l = [].
    Proof.
      induction l as [|a l IH]; intro H; cbn [filter]; [reflexivity|]. rewrite (H 0%nat a eq_refl).
      apply IH. intros k x E. apply (H (S k) x E).
    Qed.
    Lemma filter_one : forall l k, (forall j a, nth_error l j = Some a -> fits a = (j =? k)%nat) -> (k < length l)%nat ->
      length (filter fits l) = 1%nat.
    Proof.
      induction l as [|a l IH]; intros k H HK; cbn [length] in HK; [lia|]. cbn [filter]. rewrite (H 0%nat a eq_refl). destruct k as [|k]; cbn [Nat.eqb].
      - cbn [length]. rewrite filter_none; [reflexivity|]. intros j x E. apply (H (S j) x E).
      - apply (IH k); [intros j x E; apply (H (S j) x E)|lia].
    Qed.
    Lemma filter_two : forall l j k a b, (j < k)%nat -> nth_error l j = Some a -> nth_error l k = Some b ->
      fits a = true -> fits b = true -> (2 <= length (filter fits l))%nat.
    Proof.
      induction l as [|x l IH]; intros j k a b JK HJ HK FA FB; [destruct j; discriminate HJ|]. cbn [filter].
      destruct k as [|k]; [lia|]. cbn [nth_error] in HK. destruct j as [|j].
      - cbn [nth_error] in HJ. assert (x = a) by congruence. subst x. rewrite FA. cbn [length].
        assert (In b (filter fits l)) by (apply filter_In; split; [apply (nth_error_In _ _ HK)|exact FB]).
        destruct (filter fits l); [contradiction|cbn [length]; lia].
      - cbn [nth_error] in HJ. specialize (IH j k a b ltac:(lia) HJ HK FA FB). destruct (fits x); cbn [length]; lia.
    Qed.
  End Append.

  Lemma append_unfold : forall P (b : @partial_bundle C V P) s,
    append_signature b s =
      let sh := pa_sighash (ip_sigs (b_auth b)) in
      match length (filter (fits sh s) (b_actions b)) with
      | O => Err BE_InvalidExternalSignature
      | S O => Ok (mk_bundle (map (fun a => a_map (fun m => if fits sh s a then Signed s else m) a) (b_actions b))
                     (b_flags b) (b_value_balance b) (b_anchor b) (b_auth b))
      | _ => Err BE_DuplicateSignature
      end.
  Proof.
    intros P b s. unfold append_signature, map_authorization. cbv zeta. change (fun (r : nat) (s0 : maybe_signed) =>
      match s0 with
      | Unsigned p =>
          if verify SpendAuth (vk_randomize (sp_ak p) (sp_alpha p)) (pa_sighash (ip_sigs (b_auth b))) s
          then (Signed s, S r) else (Unsigned p, r)
      | Signed s' => (Signed s', r)
      end) with (app_step (pa_sighash (ip_sigs (b_auth b))) s).
    rewrite map_ctx_count. cbn [Nat.add]. destruct (length _) as [|[|n]]; reflexivity.
  Qed.

  Lemma good_fits : forall P sighash (b : @partial_bundle C V P) s k a, authorizable sighash b ->
    nth_error (b_actions b) k = Some a -> (fits (pa_sighash (ip_sigs (b_auth b))) s a = true <-> good_for b sighash s k).
  Proof.
    intros P sighash b s k a [SH AZ] H. rewrite SH. rewrite Forall_forall in AZ. pose proof (AZ a (nth_error_In _ _ H)) as RK.
    unfold fits, good_for, is_unsigned. destruct (a_auth a) as [p|s'] eqn:EA.
    - unfold vk_randomize. rewrite <- RK. split.
      + intro X. exists a. split; [exact H|]. split; [eauto|exact X].
      + intros (a' & E & _ & X). assert (a' = a) by congruence. subst a'. exact X.
    - split; [intro X; discriminate X|]. intros (a' & E & (p & EP) & _). assert (a' = a) by congruence. subst a'. congruence.
  Qed.

  Lemma append_spec : forall P sighash (b : @partial_bundle C V P) s, authorizable sighash b ->
    ((forall k, ~ good_for b sighash s k) -> append_signature b s = Err BE_InvalidExternalSignature) /\
    (forall j k, j <> k -> good_for b sighash s j -> good_for b sighash s k -> append_signature b s = Err BE_DuplicateSignature) /\
    (forall k, good_for b sighash s k -> (forall j, good_for b sighash s j -> j = k) ->
       exists b', append_signature b s = Ok b' /\ effects b' = effects b /\ b_auth b' = b_auth b /\
         forall j a, nth_error (b_actions b) j = Some a ->
           exists a', nth_error (b_actions b') j = Some a' /\ a_auth a' = if (j =? k)%nat then Signed s else a_auth a).
  Proof.
    intros P sighash b s AZ. rewrite append_unfold. cbv zeta. set (sh := pa_sighash (ip_sigs (b_auth b))).
    assert (GF : forall k a, nth_error (b_actions b) k = Some a -> (fits sh s a = true <-> good_for b sighash s k))
      by (intros k a H; apply (good_fits _ _ _ _ _ _ AZ H)).
    split; [|split].
    - intro N. rewrite filter_none; [reflexivity|]. intros k a H. destruct (fits sh s a) eqn:E; [|reflexivity].
      apply (GF k a H) in E. destruct (N k E).
    - assert (W : forall j k, (j < k)%nat -> good_for b sighash s j -> good_for b sighash s k ->
        (2 <= length (filter (fits sh s) (b_actions b)))%nat).
      { intros j k JK GJ GK. pose proof GJ as (a & HA & _). pose proof GK as (c & HC & _).
        apply (filter_two _ _ _ j k a c JK HA HC); [apply (GF j a HA); exact GJ|apply (GF k c HC); exact GK]. }
      intros j k JK GJ GK. assert (2 <= length (filter (fits sh s) (b_actions b)))%nat.
      { destruct (Nat.lt_trichotomy j k) as [X|[X|X]]; [apply (W j k X GJ GK)|contradiction|apply (W k j X GK GJ)]. }
      destruct (length _) as [|[|n]]; [lia|lia|reflexivity].
    - intros k GK U. assert (K : (k < length (b_actions b))%nat) by (destruct GK as (a & H & _); apply nth_error_Some; congruence).
      assert (FE : forall j a, nth_error (b_actions b) j = Some a -> fits sh s a = (j =? k)%nat).
      { intros j a H. destruct (Nat.eqb_spec j k) as [->|N].
        - apply (GF k a H). exact GK.
        - destruct (fits sh s a) eqn:E; [|reflexivity]. apply (GF j a H) in E. destruct (N (U j E)). }
      rewrite (filter_one _ _ _ k FE K). eexists. split; [reflexivity|]. split; [|split; [reflexivity|]].
      + unfold effects. cbn [b_actions b_flags b_value_balance b_anchor]. rewrite map_map. reflexivity.
      + intros j a H. cbn [b_actions]. rewrite nth_error_map, H. cbn [option_map]. eexists. split; [reflexivity|].
        cbn [a_map a_auth]. rewrite (FE j a H). reflexivity.
  Qed.

  Lemma append_ok : forall P sighash (b b' : @partial_bundle C V P) s, authorizable sighash b -> append_signature b s = Ok b' ->
    effects b' = effects b /\ b_auth b' = b_auth b /\ authorizable sighash b' /\
    Forall2 (fun a a' => match a_auth a with Signed s0 => a_auth a' = Signed s0
                        | Unsigned p => a_auth a' = Unsigned p \/ a_auth a' = Signed s end) (b_actions b) (b_actions b').
  Proof.
    intros P sighash b b' s AZ H. pose proof (good_fits P sighash b s) as GF. rewrite append_unfold in H. cbv zeta in H.
    destruct (length _) as [|[|n]]; [discriminate H| |discriminate H].
    assert (E : b' = mk_bundle (map (fun a => a_map (fun m => if fits (pa_sighash (ip_sigs (b_auth b))) s a then Signed s else m) a) (b_actions b))
                     (b_flags b) (b_value_balance b) (b_anchor b) (b_auth b)) by congruence. clear H. subst b'.
    cbn [b_auth]. split; [unfold effects; cbn [b_actions b_flags b_value_balance b_anchor]; rewrite map_map; reflexivity|].
    split; [reflexivity|]. split.
    - constructor; [exact (az_sighash _ _ AZ)|]. cbn [b_actions]. apply Forall_map. rewrite Forall_forall. intros a HI.
      cbn [a_map a_auth a_rk]. destruct (fits _ s a) eqn:E.
      + apply In_nth_error in HI as [k HK]. apply (GF k a AZ HK) in E as (a' & H1 & _ & HV). congruence.
      + exact (proj1 (Forall_forall _ _) (az_actions _ _ AZ) a HI).
    - cbn [b_actions]. clear GF AZ. induction (b_actions b) as [|a l IH]; cbn [map]; [constructor|]. constructor; [|exact IH]. cbn [a_map a_auth].
      unfold fits. destruct (a_auth a) as [p|s0]; [|reflexivity]. destruct (verify _ _ _ _); auto.
  Qed.
  Lemma append_all_ok : forall P sighash l (b b' : @partial_bundle C V P), authorizable sighash b -> append_signatures b l = Ok b' ->
    effects b' = effects b /\ b_auth b' = b_auth b /\ authorizable sighash b'.
  Proof.
    intros P sighash. induction l as [|s l IH]; intros b b' AZ H; cbn [append_signatures] in H.
    - assert (b' = b) by congruence. subst b'. auto.
    - destruct (append_signature b s) as [b1|e] eqn:E; [|discriminate H].
      destruct (append_ok _ _ _ _ _ AZ E) as (E1 & E2 & A1 & _). destruct (IH _ _ A1 H) as (F1 & F2 & A2).
      split; [congruence|]. split; [congruence|exact A2].
  Qed.

  (** * prepare *)
  Definition parts_match (a : action signing_metadata) : Prop :=
    a_rk a = pt_add (sp_ak (sm_parts (a_auth a))) (pt_mul (sp_alpha (sm_parts (a_auth a))) (basepoint SpendAuth)) /\
    forall ask, sm_dummy_ask (a_auth a) = Some ask -> ak_of_ask ask = sp_ak (sm_parts (a_auth a)).

  Lemma prepare_spec : forall P (b : bundle (in_progress P unauthorized) signing_metadata V) r sighash,
    Forall parts_match (b_actions b) ->
    let b' := fst (prepare b r sighash) in
    effects b' = effects b /\ authorizable sighash b' /\ ip_proof (b_auth b') = ip_proof (b_auth b) /\
    verify Binding (vk_of Binding (ua_bsk (ip_sigs (b_auth b)))) sighash (pa_binding_sig (ip_sigs (b_auth b'))) = true /\
    Forall2 (fun a a' => action_effects a' = action_effects a /\
               match sm_dummy_ask (a_auth a) with
               | Some _ => exists s, a_auth a' = Signed s
               | None => a_auth a' = Unsigned (sm_parts (a_auth a))
               end) (b_actions b) (b_actions b').
  Proof.
    intros P b r sighash PM. cbv zeta. unfold prepare, map_authorization.
    pose proof (map_ctx_spec _ _ _ (fun r s => (fun r (_ : in_progress P unauthorized) m =>
         match sm_dummy_ask m with
         | Some ask =>
             let (s, r') := sign SpendAuth (sk_randomize ask (sp_alpha (sm_parts m))) sighash r in
             (@Signed C s, r')
         | None => (Unsigned (sm_parts m), r)
         end) r (b_auth b) s) (b_actions b) r) as M. cbv beta in M.
    destruct (map_ctx _ r (b_actions b)) as [acts r1]. cbn [fst] in M.
    destruct (sign Binding (ua_bsk (ip_sigs (b_auth b))) sighash r1) as [bs r2] eqn:EB. cbn [fst b_auth b_actions ip_proof ip_sigs pa_binding_sig].
    assert (F : Forall2 (fun a a' => action_effects a' = action_effects a /\
               match sm_dummy_ask (a_auth a) with
               | Some _ => exists s, a_auth a' = Signed s /\ verify SpendAuth (a_rk a) sighash s = true
               | None => a_auth a' = Unsigned (sm_parts (a_auth a))
               end) (b_actions b) acts).
    { clear EB. induction M as [|a a' l l' [E1 [r0 E2]] M IH]; [constructor|]. inversion PM as [|? ? P1 P2]; subst.
      constructor; [|apply IH; exact P2]. split; [exact E1|]. destruct P1 as [RK DA].
      destruct (sm_dummy_ask (a_auth a)) as [ask|] eqn:ED; [|exact E2].
      destruct (sign SpendAuth (sk_randomize ask (sp_alpha (sm_parts (a_auth a)))) sighash r0) as [s r3] eqn:ES.
      exists s. split; [exact E2|]. rewrite RK, <- (DA ask eq_refl).
      pose proof (randomized_signature L ask (sp_alpha (sm_parts (a_auth a))) sighash r0) as K. rewrite ES in K. exact K. }
    split; [unfold effects; cbn [b_actions b_flags b_value_balance b_anchor]; f_equal; apply (Forall2_effects _ _ _ _ _ M)|].
    split; [|split; [reflexivity|split]].
    - constructor; [reflexivity|]. cbn [b_actions]. rewrite Forall_forall. intros a' HI.
      destruct (Forall2_inv_in _ _ _ _ _ _ F HI) as (a & H1 & E1 & E2). rewrite Forall_forall in PM. destruct (PM a H1) as [RK _].
      apply effects_rk in E1. destruct (sm_dummy_ask (a_auth a)).
      + destruct E2 as (s & -> & HV). rewrite E1. exact HV.
      + rewrite E2, E1. exact RK.
    - pose proof (sign_verifies L Binding (ua_bsk (ip_sigs (b_auth b))) sighash r1) as K. rewrite EB in K. exact K.
    - refine (Forall2_mono _ _ _ _ _ _ _ F). intros a a' [E1 E2]. split; [exact E1|].
      destruct (sm_dummy_ask (a_auth a)); [destruct E2 as (s & E & _); eauto|exact E2].
  Qed.

  (** * finalize *)
  Lemma try_finalize : forall (l : list (action maybe_signed)),
    ((exists a, In a l /\ is_unsigned a) /\
       try_map_ctx (fun (u : unit) m => (maybe_finalize m, u)) tt l = (Err BE_MissingSignatures, tt)) \/
    (exists l', try_map_ctx (fun (u : unit) m => (maybe_finalize m, u)) tt l = (Ok l', tt) /\
       Forall2 (fun a a' => action_effects a' = action_effects a /\ a_auth a = Signed (a_auth a')) l l').
  Proof.
    induction l as [|a l IH]; cbn [try_map_ctx]; [right; exists []; split; [reflexivity|constructor]|].
    destruct (a_auth a) as [p|s] eqn:EA; cbn [maybe_finalize a_try_map].
    - left. split; [exists a; split; [left; reflexivity|exists p; exact EA]|reflexivity].
    - destruct IH as [[(x & H1 & H2) ->]|(l' & -> & F)].
      + left. split; [exists x; split; [right; exact H1|exact H2]|reflexivity].
      + right. eexists. split; [reflexivity|]. constructor; [|exact F]. split; [reflexivity|exact EA].
  Qed.

  Lemma finalize_spec : forall b : @partial_bundle C V bytes, b_actions b <> [] ->
    ((exists a, In a (b_actions b) /\ is_unsigned a) -> finalize b = Ret (Err BE_MissingSignatures)) /\
    ((forall a, In a (b_actions b) -> ~ is_unsigned a) ->
       exists bd, finalize b = Ret (Ok bd) /\ effects bd = effects b /\
         map (fun a => Signed (a_auth a)) (b_actions bd) = map a_auth (b_actions b) /\
         au_proof (b_auth bd) = ip_proof (b_auth b) /\ au_binding_sig (b_auth bd) = pa_binding_sig (ip_sigs (b_auth b))).
  Proof.
    intros b NE. unfold finalize, try_map_authorization.
    destruct (try_finalize (b_actions b)) as [[(a & H1 & H2) ->]|(l' & -> & F)].
    - split; [reflexivity|]. intro N. destruct (N a H1 H2).
    - split.
      + intros (a & H1 & p & H2). destruct (Forall2_inv_in_l _ _ _ _ _ _ F H1) as (a' & _ & _ & E). congruence.
      + intros _. destruct l' as [|a' l']; [inversion F; subst; congruence|]. cbn [length Nat.eqb negb assert_ obind].
        eexists. split; [reflexivity|]. cbn [b_auth au_proof au_binding_sig].
        split; [unfold effects; cbn [b_actions b_flags b_value_balance b_anchor]; f_equal; apply (Forall2_effects _ _ _ _ _ F)|].
        split; [|split; reflexivity]. cbn [b_actions]. clear NE. induction F as [|x y l l2 [_ E] F IH]; [reflexivity|].
        cbn [map]. rewrite IH, E. reflexivity.
  Qed.
  Lemma finalize_ok : forall (b : @partial_bundle C V bytes) bd, finalize b = Ret (Ok bd) ->
    effects bd = effects b /\ map (fun a => Signed (a_auth a)) (b_actions bd) = map a_auth (b_actions b) /\
    au_proof (b_auth bd) = ip_proof (b_auth b) /\ au_binding_sig (b_auth bd) = pa_binding_sig (ip_sigs (b_auth b)).
  Proof.
    intros b bd H. destruct (b_actions b) as [|a l] eqn:E.
    - unfold finalize, try_map_authorization in H. rewrite E in H. discriminate H.
    - assert (NE : b_actions b <> []) by (rewrite E; discriminate). rewrite <- E. clear E a l.
      destruct (finalize_spec b NE) as [F1 F2]. destruct (try_finalize (b_actions b)) as [[X _]|(l' & _ & F)].
      + rewrite (F1 X) in H. discriminate H.
      + destruct F2 as (bd' & E & K).
        * intros a HI [p EP]. destruct (Forall2_inv_in_l _ _ _ _ _ _ F HI) as (a' & _ & _ & E). congruence.
        * assert (bd' = bd) by congruence. subst bd'. exact K.
  Qed.

  (** * create_proof *)
  Lemma try_map_id : forall A R E (l : list (action A)) (r : R),
    try_map_ctx (fun r a => (@Ok E A a, r)) r l = (Ok l, r).
  Proof.
    intros A R E. induction l as [|a l IH]; intro r; cbn [try_map_ctx]; [reflexivity|]. cbn [a_try_map]. rewrite IH.
    destruct a. reflexivity.
  Qed.
  Lemma create_proof_ok : forall halo2 Sg SA (b : bundle (in_progress unproven Sg) SA V) r b' r',
    create_proof halo2 b r = Ret (Ok b', r') ->
    b_actions b' = b_actions b /\ b_flags b' = b_flags b /\ b_value_balance b' = b_value_balance b /\ b_anchor b' = b_anchor b /\
    ip_sigs (b_auth b') = ip_sigs (b_auth b) /\
    exists is r1, omap to_halo2_instance (map (fun a => to_instance a (b_flags b) (b_anchor b)) (b_actions b)) = Ret is /\
      halo2 (up_circuits (ip_proof (b_auth b))) is r = (Some (ip_proof (b_auth b')), r1).
  Proof.
    intros halo2 Sg SA b r b' r' H. unfold create_proof, try_map_authorization in H. rewrite try_map_id in H.
    destruct (assert_ _ _) as [u|w|]; cbn [obind] in H; try discriminate H. unfold proof_create in H.
    destruct (omap to_halo2_instance _) as [is|w|]; cbn [obind] in H; try discriminate H.
    destruct (halo2 (up_circuits (ip_proof (b_auth b))) is r) as [[pr|] r1] eqn:EH; cbn [obind] in H; [|discriminate H].
    cbn [obind] in H. assert (E : b' = mk_bundle (b_actions b) (b_flags b) (b_value_balance b) (b_anchor b) (mk_progress pr (ip_sigs (b_auth b)))) by congruence.
    subst b'. cbn [b_actions b_flags b_value_balance b_anchor b_auth ip_sigs ip_proof]. do 5 (split; [reflexivity|]).
    exists is, r1. split; [reflexivity|exact EH].
  Qed.
  Lemma create_proof_effects : forall halo2 Sg SA (b : bundle (in_progress unproven Sg) SA V) r b' r',
    create_proof halo2 b r = Ret (Ok b', r') -> effects b' = effects b.
  Proof.
    intros halo2 Sg SA b r b' r' H. destruct (create_proof_ok _ _ _ _ _ _ _ H) as (E1 & E2 & E3 & E4 & _).
    unfold effects. congruence.
  Qed.

  (** * Built bundles *)
  Lemma plan_spend : forall b plan (bd : @unauthorized_bundle C V) meta s o, builder_legal b -> built b plan bd meta -> In (s, o) plan ->
    (In s (bl_spends b) /\ s_dummy_sk s = None) \/ dummy_spend s.
  Proof.
    intros b plan bd meta s o [LS _] B H. destruct (bu_spends _ _ _ _ B) as (ds & PE & DS).
    assert (I : In s (bl_spends b ++ ds)) by (apply (Permutation_in _ PE); apply (in_map fst) in H; exact H).
    apply in_app_or in I as [I|I]; [left|right].
    - split; [exact I|]. rewrite Forall_forall in LS. apply (sl_real _ _ _ (LS s I)).
    - rewrite Forall_forall in DS. apply (DS s I).
  Qed.
  Lemma built_action : forall b plan (bd : @unauthorized_bundle C V) meta a, builder_legal b -> built b plan bd meta -> In a (b_actions bd) ->
    parts_match a /\ exists s o, In (s, o) plan /\
      ((In s (bl_spends b) /\ sm_dummy_ask (a_auth a) = None) \/ sm_dummy_ask (a_auth a) <> None) /\
      sp_ak (sm_parts (a_auth a)) = fvk_ak (s_fvk s).
  Proof.
    intros b plan bd meta a LB B H. apply In_nth_error in H as [k HK].
    destruct (each_action _ _ _ _ _ _ B HK) as (s & o & w & n & alpha & rcv & P1 & _ & A).
    apply nth_error_In in P1. pose proof (ac_parts _ _ _ _ _ _ _ A) as EP. pose proof (ac_dummy _ _ _ _ _ _ _ A) as ED.
    assert (PS := plan_spend _ _ _ _ _ _ LB B P1). split; [split|].
    - rewrite EP. cbn [sp_ak sp_alpha]. apply (ac_rk _ _ _ _ _ _ _ A).
    - intros ask HA. rewrite EP. cbn [sp_ak]. destruct PS as [[_ N]|D].
      + rewrite N in ED. congruence.
      + destruct (ds_fresh _ D) as (sk & E1 & _ & F). rewrite E1 in ED. destruct ED as (ask' & K1 & K2).
        destruct (fvk_from_sk_spec _ _ F) as (ask2 & X1 & X2 & _). congruence.
    - exists s, o. split; [exact P1|]. split; [|rewrite EP; reflexivity]. destruct PS as [[I N]|D].
      + left. rewrite N in ED. auto.
      + right. destruct (ds_fresh _ D) as (sk & E1 & _). rewrite E1 in ED. destruct ED as (ask' & _ & K2). congruence.
  Qed.

  Lemma bvk_effects : forall T S T' S' (into : V -> Z) (b : bundle T S V) (b' : bundle T' S' V), effects b = effects b' ->
    binding_validating_key into b = binding_validating_key into b'.
  Proof.
    intros T S T' S' into b b' H. unfold binding_validating_key.
    pose proof (f_equal b_value_balance H) as H1. pose proof (f_equal b_actions H) as H2. cbn [effects b_value_balance b_actions] in H1, H2.
    apply (f_equal (map a_cv)) in H2. rewrite !map_map in H2. cbn [action_effects a_map a_cv] in H2.
    change (map (fun x : action S => a_cv x) (b_actions b)) with (map a_cv (b_actions b)) in H2.
    change (map (fun x : action S' => a_cv x) (b_actions b')) with (map a_cv (b_actions b')) in H2.
    rewrite H1, H2. reflexivity.
  Qed.

  Section Hist.
    Context (halo2 : list witness -> list (list Z) -> rng -> option bytes * rng) (b0 : @unauthorized_bundle C V) (sighash : bytes).

    Lemma history_effects : forall pr b, Forall parts_match (b_actions b0) -> history halo2 b0 sighash pr b ->
      effects b = effects b0 /\ authorizable sighash b /\
      verify Binding (vk_of Binding (ua_bsk (ip_sigs (b_auth b0)))) sighash (pa_binding_sig (ip_sigs (b_auth b))) = true.
    Proof.
      intros pr b PM H. induction H as [r|r b1 r1 r2 E|pr b r ask H IH|pr b s b' H IH E|pr b l b' H IH E|b r b' r' H IH E].
      - destruct (prepare_spec _ b0 r sighash PM) as (E1 & E2 & _ & E4 & _). auto.
      - destruct (create_proof_ok _ _ _ _ _ _ _ E) as (A1 & _ & _ & _ & A5 & _). pose proof (create_proof_effects _ _ _ _ _ _ _ E) as EE.
        assert (PM1 : Forall parts_match (b_actions b1)) by (rewrite A1; exact PM).
        destruct (prepare_spec _ b1 r2 sighash PM1) as (E1 & E2 & _ & E4 & _). rewrite A5 in E4. split; [exact (eq_trans E1 EE)|auto].
      - destruct IH as (E1 & E2 & E3). destruct (sign_spec _ _ _ r ask E2) as (F1 & F2 & _).
        split; [exact (eq_trans F1 E1)|]. split; [apply sign_authorizable; exact E2|rewrite F2; exact E3].
      - destruct IH as (E1 & E2 & E3). destruct (append_ok _ _ _ _ _ E2 E) as (F1 & F2 & F3 & _).
        split; [exact (eq_trans F1 E1)|]. split; [exact F3|rewrite F2; exact E3].
      - destruct IH as (E1 & E2 & E3). destruct (append_all_ok _ _ _ _ _ E2 E) as (F1 & F2 & F3).
        split; [exact (eq_trans F1 E1)|]. split; [exact F3|rewrite F2; exact E3].
      - destruct IH as (E1 & E2 & E3). destruct (create_proof_ok _ _ _ _ _ _ _ E) as (A1 & _ & _ & _ & A5 & _).
        pose proof (create_proof_effects _ _ _ _ _ _ _ E) as EE. split; [exact (eq_trans EE E1)|].
        destruct E2 as [S1 S2]. cbn [proof_stage] in *. split; [constructor; [rewrite A5; exact S1|rewrite A1; exact S2]|rewrite A5; exact E3].
    Qed.
  End Hist.

  Lemma history_valid : forall halo2 (try_from : Z -> option V) (into : V -> Z) t anchor b fuel r b0 meta r' sighash (b1 : partial_bundle bytes) bd,
    (forall i v, try_from i = Some v -> into v = i) ->
    gd_fallback_ok -> reachable t anchor b -> build try_from fuel b r = Ret (Ok (Some (b0, meta)), r') ->
    history halo2 b0 sighash true b1 -> finalize b1 = Ret (Ok bd) ->
    (forall a, In a (b_actions bd) -> verify SpendAuth (a_rk a) sighash (a_auth a) = true) /\
    exists bvk, binding_validating_key into bd = Ret bvk /\ verify Binding bvk sighash (au_binding_sig (b_auth bd)) = true.
  Proof.
    intros halo2 try_from into t anchor b fuel r b0 meta r' sighash b1 bd LAW GD RB E H F.
    destruct (reachable_legal L _ _ _ RB) as (LB & _). destruct (build_plan L _ _ _ _ _ _ _ _ _ GD RB E) as [plan B].
    destruct (build_binding L _ _ _ _ _ _ _ _ _ _ LAW GD RB E) as [_ BV].
    assert (PM : Forall parts_match (b_actions b0)) by (apply Forall_forall; intros a HI; apply (built_action _ _ _ _ _ LB B HI)).
    destruct (history_effects halo2 b0 sighash _ _ PM H) as (E1 & E2 & E3). cbn [proof_stage] in E1, E2, E3.
    destruct (finalize_ok _ _ F) as (F1 & F2 & _ & F4). split.
    - intros a HI. apply In_nth_error in HI as [k HK].
      assert (K1 : nth_error (map (fun a => Signed (a_auth a)) (b_actions bd)) k = Some (Signed (a_auth a))) by (rewrite nth_error_map, HK; reflexivity).
      rewrite F2, nth_error_map in K1. destruct (nth_error (b_actions b1) k) as [a1|] eqn:K2; [|discriminate K1]. cbn [option_map] in K1.
      pose proof (proj1 (Forall_forall _ _) (az_actions _ _ E2) a1 (nth_error_In _ _ K2)) as V1.
      assert (S1 : a_auth a1 = Signed (a_auth a)) by congruence. cbv beta in V1; rewrite S1 in V1.
      assert (RK : a_rk a = a_rk a1).
      { apply effects_rk. apply (f_equal b_actions) in F1. cbn [effects b_actions] in F1. apply (f_equal (fun l => nth_error l k)) in F1.
        rewrite !nth_error_map, HK, K2 in F1. cbn [option_map] in F1. congruence. }
      rewrite RK. exact V1.
    - eexists. split; [rewrite (bvk_effects _ _ _ _ into bd b0) by congruence; exact BV|]. rewrite F4. exact E3.
  Qed.

  (** * apply_signatures *)
  Definition signed_or_covered (asks : list Z) (a : action maybe_signed) : Prop :=
    match a_auth a with Signed _ => True | Unsigned p => exists ask, In ask asks /\ ak_of_ask ask = sp_ak p end.

  Lemma sign_all_spec : forall P sighash asks (b : @partial_bundle C V P) r, authorizable sighash b ->
    let b' := fst (sign_all b r asks) in
    effects b' = effects b /\ b_auth b' = b_auth b /\ authorizable sighash b' /\
    Forall2 (fun a a' => is_unsigned a' <-> ~ signed_or_covered asks a) (b_actions b) (b_actions b').
  Proof.
    intros P sighash. induction asks as [|ask asks IH]; intros b r AZ; cbv zeta; cbn [sign_all].
    - cbn [fst]. split; [reflexivity|]. split; [reflexivity|]. split; [exact AZ|]. clear AZ.
      induction (b_actions b) as [|a l IHl]; [constructor|]. constructor; [|exact IHl]. unfold is_unsigned, signed_or_covered.
      destruct (a_auth a) as [p|s]; split.
      + intros _ (k & [] & _).
      + intros _. eauto.
      + intros [p X]. discriminate X.
      + intro X. destruct (X I).
    - destruct (sign_spec P sighash b r ask AZ) as (E1 & E2 & F). pose proof (sign_authorizable P sighash b r ask AZ) as AZ1.
      destruct (bundle_sign b r ask) as [b1 r1]. cbn [fst] in *. specialize (IH b1 r1 AZ1). cbv zeta in IH.
      destruct IH as (G1 & G2 & G3 & G4). split; [congruence|]. split; [congruence|]. split; [exact G3|]. clear -F G4 L.
      revert G4. generalize (b_actions (fst (sign_all b1 r1 asks))). induction F as [|a a1 l l1 [S0 SE] F IHF]; intros l2 G4; inversion G4 as [|? a2 ? ? G5 G6]; subst; constructor; [|apply IHF; exact G6].
      rewrite G5. unfold signed_or_covered. destruct (a_auth a) as [p|s].
      + destruct SE as [X Y]. destruct (pt_eq_dec L (sp_ak p) (ak_of_ask ask)) as [E0|N].
        * destruct (X E0) as (s & -> & _). split; [intro Z0; destruct (Z0 I)|]. intro Z0. destruct Z0. exists ask. split; [left; reflexivity|congruence].
        * rewrite (Y N). split; intros Z0 (k & K1 & K2); apply Z0.
          -- destruct K1 as [<-|K1]; [congruence|eauto].
          -- exists k. split; [right; exact K1|exact K2].
      + rewrite SE. reflexivity.
  Qed.

  Lemma Forall2_nil_inv : forall A B (R : A -> B -> Prop) l l', Forall2 R l l' -> l <> [] -> l' <> [].
  Proof. intros A B R l l' [|x y l0 l0' _ _] H; [contradiction|discriminate]. Qed.

  Lemma apply_signatures_spec : forall halo2 (try_from : Z -> option V) t anchor b fuel r b0 meta r' r1 b1 r2 sighash asks r3,
    gd_fallback_ok -> reachable t anchor b -> build try_from fuel b r = Ret (Ok (Some (b0, meta)), r') ->
    create_proof halo2 b0 r1 = Ret (Ok b1, r2) ->
    (covers asks b -> exists bd, apply_signatures b1 r3 sighash asks = Ret (Ok bd)) /\
    (~ covers asks b -> apply_signatures b1 r3 sighash asks = Ret (Err BE_MissingSignatures)).
  Proof.
    intros halo2 try_from t anchor b fuel r b0 meta r' r1 b1 r2 sighash asks r3 GD RB E CP.
    destruct (reachable_legal L _ _ _ RB) as (LB & _). destruct (build_plan L _ _ _ _ _ _ _ _ _ GD RB E) as [plan B].
    pose proof (fun a => built_action _ _ _ _ a LB B) as BA.
    destruct (create_proof_ok _ _ _ _ _ _ _ CP) as (A1 & _).
    assert (NE : b_actions b1 <> []).
    { rewrite A1. destruct (build_shape L _ _ _ _ _ _ _ _ GD RB E) as (n & _ & N0 & SH). destruct (SH _ _ eq_refl) as (LN & _).
      intro X. rewrite X in LN. cbn [length] in LN. symmetry in LN. apply N0 in LN. discriminate LN. }
    assert (PM : Forall parts_match (b_actions b1)) by (rewrite A1; apply Forall_forall; intros a HI; apply (BA a HI)).
    unfold apply_signatures. destruct (prepare_spec _ b1 r3 sighash PM) as (_ & AZ & _ & _ & FP).
    destruct (prepare b1 r3 sighash) as [p2 r4]. cbn [fst] in AZ, FP.
    destruct (sign_all_spec _ sighash asks p2 r4 AZ) as (_ & _ & _ & FS). destruct (sign_all p2 r4 asks) as [p3 r5]. cbn [fst] in FS.
    assert (NE3 : b_actions p3 <> []) by (apply (Forall2_nil_inv _ _ _ _ _ FS); apply (Forall2_nil_inv _ _ _ _ _ FP); exact NE).
    destruct (finalize_spec p3 NE3) as [F1 F2]. split.
    - intro CV. destruct F2 as (bd & EB & _).
      + intros a3 I3 U3. destruct (Forall2_inv_in _ _ _ _ _ _ FS I3) as (a2 & I2 & H2). apply H2 in U3. apply U3.
        destruct (Forall2_inv_in _ _ _ _ _ _ FP I2) as (a & I1 & _ & H1). rewrite A1 in I1.
        destruct (BA a I1) as (_ & s & o & _ & D & AK). unfold signed_or_covered.
        destruct (sm_dummy_ask (a_auth a)) as [ask|].
        * destruct H1 as [s1 ->]. exact I.
        * destruct D as [[IS _]|N]; [|congruence]. rewrite H1, AK. destruct (CV s IS) as (ask & X1 & X2). eauto.
      + exists bd. exact EB.
    - intro NC. apply F1.
      destruct (existsb (fun s => negb (existsb (fun ask => ak_eqb (ak_of_ask ask) (fvk_ak (s_fvk s))) asks)) (bl_spends b)) eqn:EX.
      + apply existsb_exists in EX as (s & IS & NX). apply negb_true_iff in NX.
        assert (UN : forall ask, In ask asks -> ak_of_ask ask <> fvk_ak (s_fvk s)).
        { intros ask HI X. assert (K : existsb (fun ask => ak_eqb (ak_of_ask ask) (fvk_ak (s_fvk s))) asks = true); [|congruence].
          apply existsb_exists. exists ask. split; [exact HI|]. apply ak_eqb_eq. exact X. }
        apply In_nth_error in IS as [i HI]. destruct (bu_spend_index _ _ _ _ B i s HI) as (k & o & _ & KP).
        destruct (bu_each _ _ _ _ B k s o KP) as (a & w & n & alpha & rcv & KA & _ & A). apply nth_error_In in KA. rewrite <- A1 in KA.
        destruct (Forall2_inv_in_l _ _ _ _ _ _ FP KA) as (a2 & I2 & _ & H2).
        destruct (Forall2_inv_in_l _ _ _ _ _ _ FS I2) as (a3 & I3 & H3). exists a3. split; [exact I3|]. apply H3.
        assert (RL : s_dummy_sk s = None) by (apply (sl_real _ _ _ (proj1 (Forall_forall _ _) (proj1 LB) s (nth_error_In _ _ HI)))).
        pose proof (ac_dummy _ _ _ _ _ _ _ A) as ED. rewrite RL in ED. rewrite ED in H2.
        unfold signed_or_covered. rewrite H2, (ac_parts _ _ _ _ _ _ _ A). cbn [sp_ak]. intros (ask & X1 & X2). apply (UN ask X1 X2).
      + destruct NC. intros s IS.
        destruct (existsb (fun ask => ak_eqb (ak_of_ask ask) (fvk_ak (s_fvk s))) asks) eqn:EY.
        * apply existsb_exists in EY as (ask & X1 & X2). apply ak_eqb_eq in X2. eauto.
        * assert (K : existsb (fun s => negb (existsb (fun ask => ak_eqb (ak_of_ask ask) (fvk_ak (s_fvk s))) asks)) (bl_spends b) = true); [|congruence].
          apply existsb_exists. exists s. split; [exact IS|]. rewrite EY. reflexivity.
  Qed.

  (** * Effects never change, whatever the bundle holds *)
  Lemma map_authorization_effects : forall R T S T' S' (b : bundle T S V) (r : R) f g,
    effects (fst (@map_authorization C R T S V T' S' b r f g)) = effects b.
  Proof.
    intros R T S T' S' b r f g. unfold map_authorization. pose proof (map_ctx_spec _ _ _ (fun r s => f r (b_auth b) s) (b_actions b) r) as M.
    destruct (map_ctx _ r (b_actions b)) as [acts r1]. destruct (g r1 (b_auth b)) as [t r2]. cbn [fst] in *.
    unfold effects. cbn [b_actions b_flags b_value_balance b_anchor]. f_equal. apply (Forall2_effects _ _ _ _ _ M).
  Qed.
  Lemma append_effects : forall P (b b' : @partial_bundle C V P) s, append_signature b s = Ok b' -> effects b' = effects b.
  Proof.
    intros P b b' s H. rewrite append_unfold in H. cbv zeta in H. destruct (length _) as [|[|n]]; [discriminate H| |discriminate H].
    assert (E : b' = mk_bundle (map (fun a => a_map (fun m => if fits (pa_sighash (ip_sigs (b_auth b))) s a then Signed s else m) a) (b_actions b))
                     (b_flags b) (b_value_balance b) (b_anchor b) (b_auth b)) by congruence.
    subst b'. unfold effects. cbn [b_actions b_flags b_value_balance b_anchor]. rewrite map_map. reflexivity.
  Qed.
  Lemma append_all_effects : forall P l (b b' : @partial_bundle C V P), append_signatures b l = Ok b' -> effects b' = effects b.
  Proof.
    intros P. induction l as [|s l IH]; intros b b' H; cbn [append_signatures] in H; [congruence|].
    destruct (append_signature b s) as [b1|e] eqn:E; [|discriminate H]. rewrite (IH _ _ H). apply (append_effects _ _ _ _ E).
  Qed.
  Lemma history_keeps_effects : forall halo2 (b0 : @unauthorized_bundle C V) sighash pr (b : partial_bundle (proof_stage pr)),
    history halo2 b0 sighash pr b -> effects b = effects b0.
  Proof.
    intros halo2 b0 sighash pr b H. induction H as [r|r b1 r1 r2 E|pr b r ask H IH|pr b s b' H IH E|pr b l b' H IH E|b r b' r' H IH E].
    - apply map_authorization_effects.
    - unfold prepare. rewrite map_authorization_effects. apply (create_proof_effects _ _ _ _ _ _ _ E).
    - unfold bundle_sign. rewrite map_authorization_effects. exact IH.
    - rewrite <- IH. apply (append_effects _ _ _ _ E).
    - rewrite <- IH. apply (append_all_effects _ _ _ _ E).
    - rewrite <- IH. apply (create_proof_effects _ _ _ _ _ _ _ E).
  Qed.
  Lemma history_final_effects : forall halo2 (b0 : @unauthorized_bundle C V) sighash (b : partial_bundle bytes) bd (into : V -> Z),
    history halo2 b0 sighash true b -> finalize b = Ret (Ok bd) ->
    effects bd = effects b0 /\ bundle_commitment into b = bundle_commitment into b0 /\
    bundle_commitment into bd = bundle_commitment into b0.
  Proof.
    intros halo2 b0 sighash b bd into H F. pose proof (history_keeps_effects _ _ _ _ _ H) as E. cbn [proof_stage] in E. destruct (finalize_ok _ _ F) as (F1 & _).
    split; [congruence|]. split; apply commitment_of_effects; congruence.
  Qed.
End Signing.
