(** Facts about direct calls of [builder::bundle] (C67). *)
From Coq Require Import String ZArith List Bool Lia Permutation.
From Coq Require Import Init.Byte.
From Verif Require Import Prelude Fields Curve Oracles RedPallas Value Keys Note Tree Action NoteEnc Bundle Builder
  PreludeFacts CurveFacts KeysSpec KeysFacts NoteSpec NoteFacts Spec BuilderSpec BuilderFacts BuildFacts DirectSpec.
Import ListNotations.
Open Scope Z_scope.

Section Direct.
  Context {C : Curve} {OR : @Oracles C}.
  Variable L : CurveLaws C.

  #[local] Opaque commitment fvk_scope_for_address mp_root note_nullifier.

  Lemma item_commits : forall s, spend_item s -> exists cm, commitment (s_note s) = Ret cm.
  Proof.
    intros s (f & n & p & (HF & HN & HC & HP) & E). unfold spend_info_new in E.
    destruct (fvk_scope_for_address f (n_recipient n)) as [[sc|]| |]; cbn [obind] in E; try discriminate E.
    injection E as <-. exact HC.
  Qed.

  Lemma anchors_spec : forall anchor l, Forall spend_item l ->
    exists ok, all_anchors_match l anchor = Ret ok /\ (ok = true <-> Forall (witnessed_by anchor) l).
  Proof.
    intros anchor. induction 1 as [|s l H _ (ok & E & W)]; cbn [all_anchors_match].
    - exists true. split; [reflexivity|]. split; [constructor|reflexivity].
    - destruct (item_commits s H) as [cm HC]. destruct (anchor_spec s anchor cm HC) as (ok1 & -> & W1). cbn [obind].
      destruct ok1.
      + exists ok. split; [exact E|]. rewrite W. split; intro X.
        * constructor; [apply W1; reflexivity|exact X].
        * inversion X; assumption.
      + exists false. split; [reflexivity|]. split; [discriminate|]. intro X. inversion X as [|? ? Y Z]; subst. apply W1 in Y. discriminate Y.
  Qed.

  Lemma run_app : forall l m b rs b' rs' b'', run b l = Ret (rs, b') -> run b' m = Ret (rs', b'') ->
    run b (l ++ m) = Ret (rs ++ rs', b'').
  Proof.
    induction l as [|c l IH]; intros m b rs b' rs' b'' H1 H2; cbn [run app] in *.
    - injection H1 as <- <-. exact H2.
    - destruct (step b c) as [[r1 b1]| |]; cbn [obind] in *; try discriminate H1.
      destruct (run b1 l) as [[rs1 b2]| |] eqn:E; cbn [obind] in *; try discriminate H1. injection H1 as <- ->.
      rewrite (IH m b1 rs1 b' rs' b'' E H2). reflexivity.
  Qed.

  Lemma run_spends : forall l b, Forall spend_item l -> Forall (witnessed_by (bl_anchor b)) l ->
    (spends_enabled (bt_flags (bl_type b)) = true \/ l = []) ->
    exists cs rs, Forall call_ok cs /\ run b cs = Ret (rs, mk_builder (bl_spends b ++ l) (bl_outputs b) (bl_type b) (bl_anchor b)).
  Proof.
    induction l as [|s l IH]; intros b HI HW HE.
    - exists [], []. split; [constructor|]. cbn [run]. rewrite app_nil_r. destruct b; reflexivity.
    - inversion HI as [|? ? HI1 HI2]; subst. inversion HW as [|? ? HW1 HW2]; subst.
      destruct HE as [HE|HE]; [|discriminate HE].
      destruct (item_commits s HI1) as [cm HC]. destruct HI1 as (f & n & p & OK & E).
      set (b1 := mk_builder (bl_spends b ++ [s]) (bl_outputs b) (bl_type b) (bl_anchor b)).
      destruct (IH b1 HI2) as (cs & rs & F & R); [exact HW2|left; exact HE|].
      exists (AddSpend f n p :: cs), (RSpend (Ok tt) :: rs). split; [constructor; assumption|].
      cbn [run step]. unfold add_spend. rewrite HE, E. cbn [negb obind].
      destruct (anchor_spec s (bl_anchor b) cm HC) as (ok & -> & W). rewrite (proj2 W HW1). cbn [negb obind].
      fold b1. rewrite R. cbn [obind]. unfold b1. cbn [bl_spends bl_outputs bl_type bl_anchor]. rewrite <- app_assoc. reflexivity.
  Qed.

  Lemma run_outputs : forall l b, Forall output_item l ->
    (outputs_enabled (bt_flags (bl_type b)) = true \/ l = []) ->
    exists cs rs, Forall call_ok cs /\ run b cs = Ret (rs, mk_builder (bl_spends b) (bl_outputs b ++ l) (bl_type b) (bl_anchor b)).
  Proof.
    induction l as [|o l IH]; intros b HI HE.
    - exists [], []. split; [constructor|]. cbn [run]. rewrite app_nil_r. destruct b; reflexivity.
    - inversion HI as [|? ? HI1 HI2]; subst. destruct HE as [HE|HE]; [|discriminate HE].
      destruct HI1 as (k & a & v & m & OK & ->).
      set (b1 := mk_builder (bl_spends b) (bl_outputs b ++ [output_info_new k a v m]) (bl_type b) (bl_anchor b)).
      destruct (IH b1 HI2) as (cs & rs & F & R); [left; exact HE|].
      exists (AddOutput k a v m :: cs), (ROutput (Ok tt) :: rs). split; [constructor; assumption|].
      cbn [run step]. unfold add_output. rewrite HE. cbn [negb obind].
      fold b1. rewrite R. cbn [obind]. unfold b1. cbn [bl_spends bl_outputs bl_type bl_anchor]. rewrite <- app_assoc. reflexivity.
  Qed.

  Lemma items_reachable : forall t anchor spends outputs, Forall spend_item spends -> Forall output_item outputs ->
    Forall (witnessed_by anchor) spends -> (spends_enabled (bt_flags t) = true \/ spends = []) ->
    (outputs_enabled (bt_flags t) = true \/ outputs = []) -> reachable t anchor (mk_builder spends outputs t anchor).
  Proof.
    intros t anchor spends outputs HS HO HW ES EO.
    destruct (run_spends spends (builder_new t anchor) HS HW ES) as (cs & rs & F & R).
    destruct (run_outputs outputs (mk_builder spends [] t anchor) HO EO) as (cs' & rs' & F' & R').
    exists (cs ++ cs'), (rs ++ rs'). split; [apply Forall_app; split; assumption|].
    exact (run_app _ _ _ _ _ _ _ R R').
  Qed.

  Lemma dummy_output_item : forall fuel r o r', gd_fallback_ok -> output_dummy fuel r = Ret (o, r') -> output_item o.
  Proof.
    intros fuel r o r' GD H. destruct (output_dummy_spec _ _ _ _ H) as [Z1 Z2 Z3 (sk & f & S & F & A)].
    exists None, (o_recipient o), 0, None. split.
    - split; [discriminate|]. split; [exact (fresh_address_ok L sk f _ GD S F A)|]. split; [unfold is_u64; lia|discriminate].
    - destruct o as [k a v m]. cbn [o_value o_ovk o_memo o_recipient] in *. subst. reflexivity.
  Qed.

  Lemma direct_correct : forall V (try_from : Z -> option V) fuel r anchor t spends outputs,
    Forall spend_item spends -> Forall output_item outputs ->
    direct_spec (fun b => build try_from fuel b r) anchor t spends outputs r (build_bundle try_from fuel r anchor t spends outputs).
  Proof.
    intros V try_from fuel r anchor t spends outputs HS HO.
    assert (D : forall A (l : list A), l = [] \/ l <> [] /\ Nat.ltb 0 (length l) = true).
    { intros A [|x l]; [left; reflexivity|right; split; [discriminate|reflexivity]]. }
    destruct (anchors_spec anchor spends HS) as (ok & EA & W).
    destruct (spends_enabled (bt_flags t)) eqn:ES.
    2: destruct (D _ spends) as [X | [X Y]].
    3: { unfold build_bundle. rewrite ES, Y. cbn [negb andb]. apply direct_spends_disabled; assumption. }
    all: assert (ES' : spends_enabled (bt_flags t) = true \/ spends = []) by auto.
    all: assert (G : negb (spends_enabled (bt_flags t)) && Nat.ltb 0 (length spends) = false)
      by (rewrite ES; try subst spends; reflexivity).
    2: assert (ok = true) by (apply W; subst spends; constructor); subst ok.
    1: destruct ok.
    2: { unfold build_bundle. rewrite G, EA. cbn [obind negb]. apply direct_unwitnessed; [exact ES|].
         intro X. apply W in X. discriminate X. }
    all: assert (WA : Forall (witnessed_by anchor) spends) by (apply W; reflexivity).
    all: destruct (outputs_enabled (bt_flags t)) eqn:EO;
      [| destruct (D _ outputs) as [X' | [X' Y']];
         [| unfold build_bundle; rewrite G, EA; cbn [obind negb]; rewrite EO, Y'; cbn [negb andb];
            apply direct_outputs_disabled; assumption ] ].
    all: change (build_bundle try_from fuel r anchor t spends outputs) with
      ((fun b => build try_from fuel b r) (mk_builder spends outputs t anchor));
      apply direct_accepted; try assumption; try reflexivity; auto;
      apply items_reachable; try assumption; auto.
  Qed.

  Lemma direct_outcome : forall V (try_from : Z -> option V) fuel r anchor t spends outputs,
    gd_fallback_ok -> Forall spend_item spends -> Forall output_item outputs ->
    (forall why, build_bundle try_from fuel r anchor t spends outputs = Panic why -> rng_hits_zero_key r) /\
    (forall res r', build_bundle try_from fuel r anchor t spends outputs = Ret (res, r') ->
       (exists o, res = Ok o) \/ res = Err BE_ValueSum \/ res = Err BE_SpendsDisabled \/ res = Err BE_AnchorMismatch \/
       res = Err BE_OutputsDisabled).
  Proof.
    intros V try_from fuel r anchor t spends outputs GD HS HO.
    destruct (direct_correct V try_from fuel r anchor t spends outputs HS HO) as [A B|A B|A B D E|b A B D R X Y].
    - split; [discriminate|]. intros res r' H. injection H as <- <-. auto.
    - split; [discriminate|]. intros res r' H. injection H as <- <-. auto.
    - split; [discriminate|]. intros res r' H. injection H as <- <-. auto 6.
    - destruct (build_outcome L try_from t anchor b fuel r GD R) as [P Q]. split; [exact P|].
      intros res r' H. destruct (Q res r' H) as [H'|H']; auto.
  Qed.

  Lemma legal_spend_item : forall t anchor s, spend_legal t anchor s -> spend_item s.
  Proof.
    intros t anchor s H. exists (s_fvk s), (s_note s), (s_path s). destruct H as [_ HD HF HN HC HP HO _]. split.
    - split; [exact HF|]. split; [exact HN|]. split; [exact HC|exact HP].
    - unfold spend_info_new. destruct (owner_of_scope L (s_fvk s) (n_recipient (s_note s)) HF) as (o & -> & X). cbn [obind].
      destruct s as [d f sc n p]. cbn [s_dummy_sk s_fvk s_scope s_note s_path] in *. subst d.
      destruct o as [sc'|]; [|elim (X sc HO)]. assert (sc' = sc) as ->; [|reflexivity].
      destruct sc, sc'; cbn [owner] in *; try reflexivity; [elim (proj2 X HO)|elim (proj2 HO X)].
  Qed.
  Lemma legal_output_item : forall t o, output_legal t o -> output_item o.
  Proof.
    intros t o [_ HK HR HV HM]. exists (o_ovk o), (o_recipient o), (o_value o), (Some (o_memo o)). split.
    - split; [exact HK|]. split; [exact HR|]. split; [exact HV|]. intros m H. injection H as <-. exact HM.
    - destruct o; reflexivity.
  Qed.
  Lemma reachable_items : forall t anchor b, reachable t anchor b ->
    Forall spend_item (bl_spends b) /\ Forall output_item (bl_outputs b).
  Proof.
    intros t anchor b R. destruct (reachable_legal L t anchor b R) as ([HS HO] & _). split.
    - revert HS. apply Forall_impl. intro s. apply legal_spend_item.
    - revert HO. apply Forall_impl. intro o. apply legal_output_item.
  Qed.
End Direct.
