(** Values and spending keys are hidden jointly (C90). *)
From Coq Require Import String ZArith List Bool Lia Permutation.
From Coq Require Import Init.Byte.
From Verif Require Import Prelude Fields Curve Oracles Sinsemilla RedPallas Value Keys KeysSpec Note Tree Action NoteEnc Bundle Builder BuilderSpec Signing SigningSpec
  Spec BundleSpec RngSpec RandomSpec PreludeFacts NumTheory CurveFacts ValueFacts KeysFacts BundleFacts BuilderFacts BuildFacts SigningFacts PipelineFacts RandomFacts
  PallasCurve PallasFacts PallasOrder PallasLaws PallasUse RealOracles RealFacts HidingSpec HidingFacts ViewSpec.
Import ListNotations.
Open Scope Z_scope.

(** * Shifting blindings *)
Lemma mod_add_l : forall a b, (a mod qmod + b) mod qmod = (a + b) mod qmod.
Proof. intros. apply Zplus_mod_idemp_l. Qed.
Lemma scalar_mod : forall a, is_scalar (a mod qmod).
Proof. intro a. unfold is_scalar. apply Z.mod_pos_bound. exact qmod_pos. Qed.
Lemma unshift : forall a d, is_scalar a -> ((a - d) mod qmod + d) mod qmod = a.
Proof. intros a d H. rewrite mod_add_l. replace (a - d + d) with a by ring. apply Z.mod_small. exact H. Qed.
Lemma shift_once : forall a b d, is_scalar b -> (b + d) mod qmod = a -> b = (a - d) mod qmod.
Proof.
  intros a b d H <-. rewrite Zminus_mod_idemp_l. replace (b + d - d) with b by ring. symmetry. apply Z.mod_small. exact H.
Qed.
Lemma shifts_length : forall ds bs, length bs = length ds -> length (shifts ds bs) = length ds.
Proof. induction ds as [|d ds IH]; intros [|b bs] H; cbn [length shifts] in *; try discriminate H; [reflexivity|]. f_equal. apply IH. lia. Qed.
Lemma shifts_ok : forall ds bs, Forall blinding_ok (shifts ds bs).
Proof.
  induction ds as [|d ds IH]; intros [|b bs]; cbn [shifts]; constructor; [|apply IH]. split; apply scalar_mod.
Qed.
Lemma shifts_onto : forall ds bs', length bs' = length ds -> Forall blinding_ok bs' ->
  exactly_one (fun bs => Forall blinding_ok bs /\ length bs = length ds /\ shifts ds bs = bs').
Proof.
  induction ds as [|d ds IH]; intros [|b' bs'] HL HF; cbn [length] in HL; try discriminate HL.
  - exists []. split; [split; [constructor|split; reflexivity]|]. intros [|y ys] (_ & X & _); [reflexivity|discriminate X].
  - inversion HF as [|x l [K1 K2] KF]; subst. destruct (IH bs' (Nat.succ_inj _ _ HL) KF) as (bs & (F & LN & E) & U).
    exists (mk_blinding ((bg_rcv b' - bg_rcv d) mod qmod) ((bg_alpha b' - bg_alpha d) mod qmod) :: bs). split.
    + split; [constructor; [split; apply scalar_mod|exact F]|]. split; [cbn [length]; congruence|].
      cbn [shifts]. rewrite E. unfold shift. cbn [bg_rcv bg_alpha]. rewrite (unshift _ _ K1), (unshift _ _ K2). destruct b'. reflexivity.
    + intros [|y ys] (F' & LN' & E'); cbn [length] in LN'; [discriminate LN'|]. inversion F' as [|z l2 [Y1 Y2] YF]; subst.
      cbn [shifts] in E'. injection E' as E1 E2. rewrite (U ys (conj YF (conj (Nat.succ_inj _ _ LN') E2))). f_equal.
      unfold shift in E1. destruct b' as [br ba]. injection E1 as E3 E4. cbn [bg_rcv bg_alpha].
      rewrite <- (shift_once _ _ _ Y1 E3), <- (shift_once _ _ _ Y2 E4). destruct y. reflexivity.
Qed.

Section Generic.
  Context {C : Curve} {OR : @Oracles C}.
  Hypothesis L : CurveLaws C.

  (** The shift between two secrets, for a logarithm [lam] of the value base. *)
  Definition shift_of (lam : Z) (s s' : secret) : blinding :=
    mk_blinding (((sc_value s - sc_value s') * lam) mod qmod) ((sc_ask s - sc_ask s') mod qmod).
  Fixpoint shift_all (lam : Z) (ss ss' : list secret) : list blinding :=
    match ss, ss' with s :: l, s' :: l' => shift_of lam s s' :: shift_all lam l l' | _, _ => [] end.

  Lemma shift_publish : forall lam sighash s s' b x, value_base_V = pt_mul lam value_base_R ->
    publish sighash s b x = publish sighash s' (shift (shift_of lam s s') b) x.
  Proof.
    intros lam sighash s s' b x E. unfold publish, shift, shift_of. cbn [bg_rcv bg_alpha].
    assert (EA : (sc_ask s' + (bg_alpha b + (sc_ask s - sc_ask s') mod qmod) mod qmod) mod qmod = (sc_ask s + bg_alpha b) mod qmod).
    { rewrite Zplus_mod_idemp_r. replace (sc_ask s' + (bg_alpha b + (sc_ask s - sc_ask s') mod qmod)) with (sc_ask s' + bg_alpha b + (sc_ask s - sc_ask s') mod qmod) by ring.
      rewrite Zplus_mod_idemp_r. f_equal. ring. }
    rewrite EA. f_equal.
    - rewrite E, <- !(mul_mul L), <- !(mul_add L). apply (mul_mod_eq L). rewrite Zplus_mod_idemp_r.
      replace (sc_value s' * lam + (bg_rcv b + ((sc_value s - sc_value s') * lam) mod qmod))
        with (sc_value s' * lam + bg_rcv b + ((sc_value s - sc_value s') * lam) mod qmod) by ring.
      rewrite Zplus_mod_idemp_r. f_equal. ring.
    - rewrite <- !(mul_add L). apply (mul_mod_eq L). symmetry. exact EA.
  Qed.
  Lemma shift_publish_all : forall lam sighash, value_base_V = pt_mul lam value_base_R -> forall ss ss' bs xs, length ss' = length ss ->
    publish_all sighash ss bs xs = publish_all sighash ss' (shifts (shift_all lam ss ss') bs) xs.
  Proof.
    intros lam sighash E. induction ss as [|s ss IH]; intros [|s' ss'] bs xs HL; cbn [length] in HL; try discriminate HL; [reflexivity|].
    destruct bs as [|b bs]; [destruct xs; reflexivity|]. destruct xs as [|x xs]; [reflexivity|].
    cbn [publish_all shift_all shifts]. rewrite (shift_publish lam sighash s s' b x E), (IH ss' bs xs (Nat.succ_inj _ _ HL)). reflexivity.
  Qed.
  Lemma shift_all_length : forall lam ss ss', length ss' = length ss -> length (shift_all lam ss ss') = length ss.
  Proof. intros lam. induction ss as [|s ss IH]; intros [|s' ss'] HL; cbn [length shift_all] in *; try discriminate HL; [reflexivity|]. rewrite IH; lia. Qed.
  Lemma shift_all_ok : forall lam ss ss', Forall blinding_ok (shift_all lam ss ss').
  Proof. intros lam. induction ss as [|s ss IH]; intros [|s' ss']; cbn [shift_all]; constructor; [|apply IH]. split; apply scalar_mod. Qed.
  Lemma shift_sum : forall lam ss ss' bs, length ss' = length ss -> length bs = length ss ->
    zsum (map bg_rcv (shifts (shift_all lam ss ss') bs)) mod qmod =
    (zsum (map bg_rcv bs) + (zsum (map sc_value ss) - zsum (map sc_value ss')) * lam) mod qmod.
  Proof.
    intros lam. induction ss as [|s ss IH]; intros [|s' ss'] [|b bs] H1 H2; cbn [length] in *; try discriminate; [reflexivity|].
    cbn [shift_all shifts map zsum shift shift_of bg_rcv bg_alpha].
    rewrite Zplus_mod, IH by lia. rewrite <- Zplus_mod, Zplus_mod_idemp_l.
    replace (bg_rcv b + ((sc_value s - sc_value s') * lam) mod qmod + (zsum (map bg_rcv bs) + (zsum (map sc_value ss) - zsum (map sc_value ss')) * lam))
      with (bg_rcv b + (zsum (map bg_rcv bs) + (zsum (map sc_value ss) - zsum (map sc_value ss')) * lam) + ((sc_value s - sc_value s') * lam) mod qmod) by ring.
    rewrite Zplus_mod_idemp_r. f_equal. ring.
  Qed.

  (** * The view of a transaction *)
  Lemma choose_list : forall A n (P : nat -> A -> Prop), (forall k, (k < n)%nat -> exists a, P k a) ->
    exists l, length l = n /\ forall k a, nth_error l k = Some a -> P k a.
  Proof.
    intros A. induction n as [|n IH]; intros P H.
    - exists []. split; [reflexivity|]. intros [|k] a X; discriminate X.
    - destruct (IH (fun k => P (S k))) as (l & E & F); [intros k K; apply H; lia|].
      destruct (H 0%nat) as [a HA]; [lia|]. exists (a :: l). split; [cbn [length]; congruence|].
      intros [|k] x X; cbn [nth_error] in X; [injection X as <-; exact HA|exact (F k x X)].
  Qed.
  Lemma forall2_by_nth : forall A B (R : A -> B -> Prop) l m, length l = length m ->
    (forall k a b, nth_error l k = Some a -> nth_error m k = Some b -> R a b) -> Forall2 R l m.
  Proof.
    intros A B R. induction l as [|a l IH]; intros [|b m] HL H; cbn [length] in HL; try discriminate HL; constructor.
    - apply (H 0%nat); reflexivity.
    - apply IH; [lia|]. intros k x y X Y. apply (H (S k)); assumption.
  Qed.
  Lemma forall3_nth : forall A B D (R : A -> B -> D -> Prop) l m n k a, Forall3 R l m n -> nth_error l k = Some a ->
    exists b d, nth_error m k = Some b /\ nth_error n k = Some d /\ R a b d.
  Proof.
    intros A B D R l m n k a H. revert k. induction H as [|x y z l m n HR HF IH]; intros [|k] E; cbn [nth_error] in *; try discriminate E.
    - injection E as <-. exists y, z. split; [reflexivity|split; [reflexivity|exact HR]].
    - exact (IH k E).
  Qed.
  Lemma forall3_lengths : forall A B D (R : A -> B -> D -> Prop) l m n, Forall3 R l m n -> length m = length l /\ length n = length l.
  Proof. intros A B D R l m n H. induction H; cbn [length]; [split; reflexivity|]. split; lia. Qed.
  Lemma publish_all_eq : forall S sighash (acts : list (action S)) (f : action S -> published) ss bs xs,
    length ss = length acts -> length bs = length acts -> length xs = length acts ->
    (forall k a s b x, nth_error acts k = Some a -> nth_error ss k = Some s -> nth_error bs k = Some b -> nth_error xs k = Some x ->
      f a = publish sighash s b x) -> map f acts = publish_all sighash ss bs xs.
  Proof.
    intros S sighash. induction acts as [|a acts IH]; intros f [|s ss] [|b bs] [|x xs] H1 H2 H3 H; cbn [length] in *; try discriminate; [reflexivity|].
    cbn [map publish_all]. rewrite (H 0%nat a s b x eq_refl eq_refl eq_refl eq_refl). f_equal. apply IH; try lia.
    intros k a' s' b' x' A1 A2 A3 A4. apply (H (Datatypes.S k)); assumption.
  Qed.
  Lemma publish_all_cv : forall sighash ss bs xs, length bs = length ss -> length xs = length ss ->
    map pb_cv (publish_all sighash ss bs xs) = map (fun vr : Z * Z => cv_of (fst vr) (snd vr)) (List.combine (map sc_value ss) (map bg_rcv bs)).
  Proof.
    intro sighash. induction ss as [|s ss IH]; intros [|b bs] [|x xs] H1 H2; cbn [length] in *; try discriminate; [reflexivity|].
    cbn [publish_all map List.combine fst snd pb_cv publish]. rewrite IH by lia. reflexivity.
  Qed.
  Lemma fst_combine : forall A B (l : list A) (m : list B), length l = length m -> map fst (List.combine l m) = l.
  Proof. intros A B. induction l as [|a l IH]; intros [|b m] H; cbn [length] in H; try discriminate H; [reflexivity|]. cbn [List.combine map fst]. rewrite IH; lia || reflexivity. Qed.
  Lemma snd_combine : forall A B (l : list A) (m : list B), length l = length m -> map snd (List.combine l m) = m.
  Proof. intros A B. induction l as [|a l IH]; intros [|b m] H; cbn [length] in H; try discriminate H; [reflexivity|]. cbn [List.combine map snd]. rewrite IH; lia || reflexivity. Qed.
  Lemma map_by_nth : forall A B D (f : A -> D) (g : B -> D) l m, length l = length m ->
    (forall k a b, nth_error l k = Some a -> nth_error m k = Some b -> f a = g b) -> map f l = map g m.
  Proof.
    intros A B D f g. induction l as [|a l IH]; intros [|b m] HL H; cbn [length] in HL; try discriminate HL; [reflexivity|].
    cbn [map]. rewrite (H 0%nat a b eq_refl eq_refl). f_equal. apply IH; [lia|]. intros k x y X Y. apply (H (Datatypes.S k)); assumption.
  Qed.
  Lemma zsum_sub : forall A (f g : A -> Z) l, zsum (map (fun x => f x - g x) l) = zsum (map f l) - zsum (map g l).
  Proof. intros A f g. induction l as [|x l IH]; cbn [map zsum]; [reflexivity|]. rewrite IH. lia. Qed.
  Lemma zsum_zeros : forall A (f : A -> Z) l, (forall x, In x l -> f x = 0) -> zsum (map f l) = 0.
  Proof.
    intros A f. induction l as [|x l IH]; intro H; cbn [map zsum]; [reflexivity|]. rewrite (H x (or_introl eq_refl)), IH; [reflexivity|].
    intros y Y. apply H. right. exact Y.
  Qed.

  Context {V : Type}.
  Lemma plan_total : forall b plan (bd : @unauthorized_bundle C V) meta, built b plan bd meta ->
    zsum (map (fun so : spend_info * output_info => n_value (s_note (fst so)) - o_value (snd so)) plan) = spent b - sent b.
  Proof.
    intros b plan bd meta B. rewrite zsum_sub.
    destruct (bu_spends _ _ _ _ B) as (ds & P & DS). destruct (bu_outputs _ _ _ _ B) as (os & P' & DO).
    rewrite <- (map_map fst (fun s => n_value (s_note s)) plan), <- (map_map snd o_value plan).
    rewrite (zsum_perm _ _ (Permutation_map _ P)), (zsum_perm _ _ (Permutation_map _ P')), !map_app, !zsum_app.
    rewrite (zsum_zeros _ _ ds), (zsum_zeros _ _ os); [unfold spent, sent; lia| |].
    - intros o HI. apply (do_zero _ (proj1 (Forall_forall _ _) DO o HI)).
    - intros o HI. apply (ds_zero _ (proj1 (Forall_forall _ _) DS o HI)).
  Qed.

  Theorem transaction_view : forall (halo2 : list witness -> list (list Z) -> rng -> option bytes * rng) (try_from : Z -> option V) (into : V -> Z)
    t anchor b fuel r b0 meta r' r1 b1 r2 r3 sighash asks bd,
    (forall i v, try_from i = Some v -> into v = i) -> value_base_R <> pt_id -> gd_fallback_ok -> reachable t anchor b ->
    build try_from fuel b r = Ret (Ok (Some (b0, meta)), r') -> create_proof halo2 b0 r1 = Ret (Ok b1, r2) ->
    apply_signatures b1 r3 sighash asks = Ret (Ok bd) ->
    exists plan ds ss seeds seed r4, built b plan b0 meta /\
      draws r (flat_map draws_of ds) r' /\ draws r3 (map Bytes (seed :: seeds)) r4 /\
      length ds = length plan /\ length seeds = length plan /\ length (b_actions bd) = length plan /\
      Forall2 secret_of plan ss /\ zsum (map sc_value ss) = into (b_value_balance bd) /\
      shown bd = view sighash ss (map blinding_of ds) seeds seed.
  Proof.
    intros halo2 try_from into t anchor b fuel r b0 meta r' r1 b1 r2 r3 sighash asks bd LAW NR GD RB E CP AB.
    destruct (reachable_legal L _ _ _ RB) as (LB & _).
    destruct (build_draws L try_from _ _ _ _ _ _ _ _ GD RB E) as (plan & ds & B & LD & D1 & EACH).
    destruct (apply_signatures_draws _ _ _ _ _ AB) as (seeds & seed & r4 & D2 & _ & SB & F3).
    destruct (create_proof_ok _ _ _ _ _ _ _ CP) as (CA & _ & _ & _ & CS & _). rewrite CA in F3. rewrite CS in SB.
    destruct (applied_history _ _ _ _ _ _ _ _ _ CP AB) as (b2 & HH & FF).
    destruct (history_final_effects halo2 b0 sighash b2 bd into HH FF) as (EF & _).
    destruct (forall3_lengths _ _ _ _ _ _ _ F3) as [LA LS]. pose proof (bu_actions _ _ _ _ B) as LP.
    set (acts0 := b_actions b0) in *. set (acts := b_actions bd) in *.
    assert (PT : forall k, (k < length plan)%nat -> exists s : secret, forall so a d x,
      nth_error plan k = Some so -> nth_error acts k = Some a -> nth_error ds k = Some d -> nth_error seeds k = Some x ->
      secret_of so s /\ mk_published (a_cv a) (a_rk a) (a_auth a) = publish sighash s (blinding_of d) x).
    { intros k HK. destruct (nth_error plan k) as [[s o]|] eqn:EP; [|apply nth_error_None in EP; lia].
      destruct (EACH k s o EP) as (a0 & w & d & A1 & A2 & A3 & _ & _ & DF).
      destruct (bu_each _ _ _ _ B k s o EP) as (a0' & w' & n & alpha & rcv & B1 & B2 & AO).
      fold acts0 in B1. assert (a0' = a0) by congruence. assert (w' = w) by congruence. subst a0' w'.
      destruct (forall3_nth _ _ _ _ _ _ _ k a0 F3 A1) as (a & x & N1 & N2 & _ & ask & SG & SE).
      destruct (effects_nth _ _ _ _ b0 bd k a0 (eq_sym EF) A1) as (a' & N1' & EE). assert (a' = a) by (fold acts in N1'; congruence). subst a'.
      pose proof (ac_parts _ _ _ _ _ _ _ AO) as EPT.
      assert (KA : pt_mul ask (basepoint SpendAuth) = fvk_ak (s_fvk s)).
      { unfold signer in SG. destruct (sm_dummy_ask (a_auth a0)) as [kd|] eqn:ED.
        - subst kd. destruct (built_action _ _ _ _ a0 LB B (nth_error_In _ _ A1)) as ((_ & PM) & _).
          pose proof (PM ask ED) as X. rewrite EPT in X. exact X.
        - destruct SG as [_ SG]. unfold key_for in SG. rewrite EPT in SG. cbn [sp_ak] in SG. exact (encode_inj L _ _ SG). }
      destruct (ac_witness _ _ _ _ _ _ _ AO) as (cm & rivk & _ & _ & EW).
      pose proof (df_rcv _ _ _ _ DF) as ER. rewrite EW in ER. cbn [w_rcv] in ER.
      destruct (df_alpha _ _ _ _ DF) as [_ EA]. rewrite EPT in EA, SE. cbn [sp_alpha] in EA, SE.
      exists (mk_secret (n_value (s_note s) - o_value o) ask). intros so a1 d1 x1 Q1 Q2 Q3 Q4. injection Q1 as <-.
      assert (a1 = a) by congruence. assert (d1 = d) by congruence. assert (x1 = x) by congruence. subst a1 d1 x1.
      split; [split; [reflexivity|exact KA]|]. unfold publish, blinding_of. cbn [sc_value sc_ask bg_rcv bg_alpha].
      pose proof (f_equal a_cv EE) as EV. pose proof (f_equal a_rk EE) as EK. cbn [action_effects a_map a_cv a_rk] in EV, EK.
      rewrite EV, EK, SE, (ac_cv _ _ _ _ _ _ _ AO), (ac_rk _ _ _ _ _ _ _ AO), KA, <- ER, <- EA. reflexivity. }
    destruct (choose_list _ _ _ PT) as (ss & LSS & SS). clear PT.
    assert (GET : forall k, (k < length plan)%nat -> exists so a d x s, nth_error plan k = Some so /\ nth_error acts k = Some a /\
      nth_error ds k = Some d /\ nth_error seeds k = Some x /\ nth_error ss k = Some s /\ secret_of so s /\
      mk_published (a_cv a) (a_rk a) (a_auth a) = publish sighash s (blinding_of d) x).
    { intros k HK. destruct (nth_error plan k) as [so|] eqn:X1; [|apply nth_error_None in X1; lia].
      destruct (nth_error acts k) as [a|] eqn:X2; [|apply nth_error_None in X2; lia].
      destruct (nth_error ds k) as [d|] eqn:X3; [|apply nth_error_None in X3; lia].
      destruct (nth_error seeds k) as [x|] eqn:X4; [|apply nth_error_None in X4; lia].
      destruct (nth_error ss k) as [s|] eqn:X5; [|apply nth_error_None in X5; lia].
      exists so, a, d, x, s. destruct (SS k s X5 so a d x X1 X2 X3 X4) as [S1 S2]. do 5 (split; [reflexivity|]). split; [exact S1|exact S2]. }
    assert (SEC : Forall2 secret_of plan ss).
    { apply forall2_by_nth; [congruence|]. intros k so s X Y.
      assert (HK : (k < length plan)%nat) by (apply nth_error_Some; congruence).
      destruct (GET k HK) as (so' & a & d & x & s' & G1 & _ & _ & _ & G5 & G6 & _).
      assert (so' = so) by congruence. assert (s' = s) by congruence. subst so' s'. exact G6. }
    assert (PUB : map (fun a => mk_published (a_cv a) (a_rk a) (a_auth a)) acts = publish_all sighash ss (map blinding_of ds) seeds).
    { apply publish_all_eq; [lia|rewrite map_length; lia|lia|]. intros k a s bl x X1 X2 X3 X4.
      assert (HK : (k < length plan)%nat) by (rewrite <- LP, <- LA; apply nth_error_Some; congruence).
      destruct (GET k HK) as (so & a' & d & x' & s' & _ & G2 & G3 & G4 & G5 & _ & G7).
      rewrite nth_error_map, G3 in X3. cbn [option_map] in X3. injection X3 as <-.
      assert (a' = a) by congruence. assert (x' = x) by congruence. assert (s' = s) by congruence. subst a' x' s'. exact G7. }
    assert (TOT : zsum (map sc_value ss) = spent b - sent b).
    { rewrite <- (plan_total _ _ _ _ B). apply (f_equal zsum). symmetry. apply map_by_nth; [congruence|].
      intros k so s X Y. assert (HK : (k < length plan)%nat) by (apply nth_error_Some; congruence).
      destruct (GET k HK) as (so' & a & d & x & s' & G1 & _ & _ & _ & G5 & G6 & _).
      assert (so' = so) by congruence. assert (s' = s) by congruence. subst so' s'. symmetry. exact (proj1 G6). }
    destruct (build_balance L try_from _ _ _ GD RB) as (BB & _). pose proof (LAW _ _ (BB _ _ _ _ _ E)) as VB0.
    pose proof (f_equal b_value_balance EF) as VE. cbn [effects b_value_balance] in VE.
    assert (VB : zsum (map sc_value ss) = into (b_value_balance bd)) by (rewrite VE, VB0; exact TOT).
    destruct (build_binding L try_from into _ _ _ _ _ _ _ _ LAW GD RB E) as (BS & BK).
    assert (BSK : ua_bsk (ip_sigs (b_auth b0)) = zsum (map bg_rcv (map blinding_of ds)) mod qmod).
    { set (bsk := ua_bsk (ip_sigs (b_auth b0))) in *. rewrite <- (Z.mod_small bsk qmod) by exact BS.
      apply (mul_inj L _ _ value_base_R NR). change (pt_mul bsk value_base_R) with (vk_of Binding bsk).
      assert (X : binding_validating_key into b0 = Ret (pt_mul (trapdoor_sum (map bg_rcv (map blinding_of ds))) value_base_R)).
      { unfold binding_validating_key, value_sum_from_raw. rewrite VB0.
        assert (IO : i64_ok (spent b - sent b)).
        { pose proof E as E'. apply (build_spec L try_from _ _ _ _ _ GD LB) in E' as (n & _ & IO & _). exact IO. }
        rewrite (derive_cv_ret L) by (revert IO; unfold i64_ok, value_sum_ok; lia). cbn [obind]. rewrite (into_bvk_ret L). f_equal.
        assert (CV : map a_cv (b_actions b0) = map (fun vr : Z * Z => cv_of (fst vr) (snd vr)) (List.combine (map sc_value ss) (map bg_rcv (map blinding_of ds)))).
        { rewrite <- (publish_all_cv sighash ss (map blinding_of ds) seeds), <- PUB, map_map by (rewrite ?map_length; lia). cbn [pb_cv].
          change (map (fun x : action signature => a_cv x) acts) with (map a_cv acts).
          pose proof (f_equal (fun x => map a_cv (b_actions x)) EF) as X. cbn [effects b_actions] in X. rewrite !map_map in X. symmetry. exact X. }
        rewrite CV. unfold cv_sub. rewrite (binding_key_algebra L).
        - rewrite snd_combine by (rewrite !map_length; lia). reflexivity.
        - rewrite fst_combine by (rewrite !map_length; lia). symmetry. exact TOT. }
      rewrite BK in X. injection X as X. rewrite X, trapdoor_sum_spec. apply (mul_mod L). }
    exists plan, ds, ss, seeds, seed, r4. split; [exact B|]. split; [exact D1|]. split; [exact D2|]. split; [exact LD|]. split; [lia|]. split; [lia|].
    split; [exact SEC|]. split; [exact VB|]. unfold shown, view. fold acts. rewrite PUB, SB, BSK. reflexivity.
  Qed.
  Theorem views_hide : forall lam, value_base_V = pt_mul lam value_base_R ->
    forall ss ss' : list secret, length ss' = length ss -> zsum (map sc_value ss) = zsum (map sc_value ss') ->
    exists ds, Forall blinding_ok ds /\ length ds = length ss /\
      (forall sighash bs seeds seed, length bs = length ss ->
         view sighash ss bs seeds seed = view sighash ss' (shifts ds bs) seeds seed) /\
      (forall bs', Forall blinding_ok bs' -> length bs' = length ss ->
         exactly_one (fun bs => Forall blinding_ok bs /\ length bs = length ss /\ shifts ds bs = bs')).
  Proof.
    intros lam E ss ss' HL HT. exists (shift_all lam ss ss').
    pose proof (shift_all_length lam ss ss' HL) as LD. split; [apply shift_all_ok|]. split; [exact LD|]. split.
    - intros sighash bs seeds seed LB. unfold view.
      rewrite (shift_publish_all lam sighash E ss ss' bs seeds HL), (shift_sum lam ss ss' bs HL LB).
      replace (zsum (map bg_rcv bs) + (zsum (map sc_value ss) - zsum (map sc_value ss')) * lam) with (zsum (map bg_rcv bs)) by (rewrite HT; ring).
      reflexivity.
    - intros bs' F LB. rewrite <- LD in LB |- *. exact (shifts_onto _ bs' LB F).
  Qed.

  Theorem transactions_hide : forall (halo2 : list witness -> list (list Z) -> rng -> option bytes * rng)
    (try_from : Z -> option V) (into : V -> Z) lam t anchor b fuel r b0 meta r' r1 b1 r2 r3 sighash asks bd,
    (forall i v, try_from i = Some v -> into v = i) -> value_base_R <> pt_id -> value_base_V = pt_mul lam value_base_R ->
    gd_fallback_ok -> reachable t anchor b ->
    build try_from fuel b r = Ret (Ok (Some (b0, meta)), r') -> create_proof halo2 b0 r1 = Ret (Ok b1, r2) ->
    apply_signatures b1 r3 sighash asks = Ret (Ok bd) ->
    forall ss', length ss' = length (b_actions bd) -> zsum (map sc_value ss') = into (b_value_balance bd) ->
    exists bs' seeds seed, Forall blinding_ok bs' /\ length bs' = length ss' /\ length seeds = length ss' /\
      shown bd = view sighash ss' bs' seeds seed.
  Proof.
    intros halo2 try_from into lam t anchor b fuel r b0 meta r' r1 b1 r2 r3 sighash asks bd LAW NR LG GD RB E CP AB ss' HL HT.
    destruct (transaction_view halo2 try_from into t anchor b fuel r b0 meta r' r1 b1 r2 r3 sighash asks bd LAW
      NR GD RB E CP AB) as (plan & ds & ss & seeds & seed & r4 & _ & _ & _ & LD & LS & LA & SEC & TOT & SH).
    assert (LSS : length ss = length plan).
    { clear -SEC. induction SEC; cbn [length]; [reflexivity|congruence]. }
    destruct (views_hide lam LG ss ss') as (sh & F & LN & VW & _); [congruence|congruence|].
    exists (shifts sh (map blinding_of ds)), seeds, seed.
    assert (LB : length (map blinding_of ds) = length ss) by (rewrite map_length; congruence).
    split; [apply shifts_ok|]. split; [rewrite shifts_length by congruence; congruence|]. split; [congruence|].
    rewrite SH. apply VW. exact LB.
  Qed.
End Generic.

(** On Pallas, with the generators of the crate. *)
Lemma real_value_bases : forall (R : Type) (rng_b : R -> nat -> bytes * R) (rng_i : R -> nat -> nat * R) (rng_p : R -> pallas_point * R),
  let OR := real_oracles R rng_b rng_i rng_p in
  @value_base_R pallas OR <> pt_id /\ exists lam, @value_base_V pallas OR = @pt_mul pallas lam (@value_base_R pallas OR).
Proof.
  intros R rng_b rng_i rng_p OR. pose proof (not_id _ _ (e_r R rng_b rng_i rng_p)) as NR. split; [exact NR|].
  destruct (unique_log (@value_base_R pallas OR) (@value_base_V pallas OR) NR) as (lam & [_ E] & _).
  exists lam. symmetry. exact E.
Qed.
