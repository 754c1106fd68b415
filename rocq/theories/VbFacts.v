(** When value_balance of a builder succeeds, exactly (C12). *)
From Coq Require Import String ZArith List Bool Lia.
From Verif Require Import Prelude Fields Curve Oracles Value Keys Note Action Bundle Builder
  PreludeFacts ValueFacts KeysSpec KeysFacts NoteSpec NoteEncSpec Spec BuilderSpec BuilderFacts BuildFacts NoteFacts.
Import ListNotations.
Open Scope Z_scope.

Section Vb.
  Context {C : Curve} {OR : @Oracles C}.
  Variable L : CurveLaws C.
  Context {V : Type}.
  Variable try_from : Z -> option V.

  (** The fold adds every spend before it subtracts an output: its largest prefix is the sum of
      the spends, its smallest is 0 or the total. *)
  Lemma value_balance_cases : forall b, builder_legal b ->
    value_balance try_from b =
    Ret (if (spent b <? 2 ^ 64) && ((- 2 ^ 63 <=? spent b - sent b) && (spent b - sent b <? 2 ^ 63))
         then match try_from (spent b - sent b) with Some v => Ok v | None => Err OverflowError end
         else Err OverflowError).
  Proof.
    intros b [LS LO]. unfold value_balance.
    set (us := map (fun s => n_value (s_note s)) (bl_spends b)).
    set (vs := us ++ map (fun o => 0 - o_value o) (bl_outputs b)).
    assert (U1 : Forall is_u64 us).
    { apply Forall_map. eapply Forall_impl; [|exact LS]. intros s X. apply (no_value _ (sl_note _ _ _ X)). }
    assert (U2 : Forall is_u64 (map o_value (bl_outputs b))).
    { apply Forall_map. eapply Forall_impl; [|exact LO]. intros s X. apply (ol_value _ _ X). }
    assert (EQ : map (fun s => note_value_sub (n_value (s_note s)) 0) (bl_spends b) ++
                 map (fun o => note_value_sub 0 (o_value o)) (bl_outputs b) = map Ret vs).
    { unfold vs, us. rewrite map_app, !map_map. f_equal; apply map_ext_in; intros x IN.
      - replace (n_value (s_note x)) with (n_value (s_note x) - 0) at 2 by lia. apply note_value_sub_exact; [|unfold is_u64; lia].
        apply (no_value _ (sl_note _ _ _ (proj1 (Forall_forall _ _) LS _ IN))).
      - apply note_value_sub_exact; [unfold is_u64; lia|]. apply (ol_value _ _ (proj1 (Forall_forall _ _) LO _ IN)). }
    assert (VO : Forall value_sum_ok vs).
    { unfold vs. apply Forall_app. split; [eapply Forall_impl; [|exact U1]; intros a; unfold is_u64, value_sum_ok; lia|].
      apply Forall_map. pose proof (proj1 (Forall_map _ _ _) U2) as U3. eapply Forall_impl; [|exact U3]. intros a; unfold is_u64, value_sum_ok; lia. }
    assert (SV : zsum vs = spent b - sent b) by (unfold vs, us; rewrite zsum_app, zsum_map_opp; unfold spent, sent; lia).
    rewrite EQ, osum_fold. cbn [obind]. f_equal. destruct (value_sum_fold_spec _ VO) as [FS FE].
    destruct (value_sum_fold vs) as [s|[]] eqn:EF.
    - destruct (proj1 (FS s) eq_refl) as [ES PR]. rewrite SV in ES. subst s.
      assert (SP : spent b < 2 ^ 64).
      { specialize (PR (length us) ltac:(unfold vs; rewrite app_length; lia)).
        unfold vs in PR. rewrite firstn_app, Nat.sub_diag, firstn_all in PR. cbn [firstn] in PR. rewrite app_nil_r in PR.
        unfold value_sum_ok, us in PR. unfold spent. lia. }
      rewrite (proj2 (Z.ltb_lt _ _) SP). cbn [andb]. unfold i64_try_from.
      destruct ((- 2 ^ 63 <=? spent b - sent b) && (spent b - sent b <? 2 ^ 63)); reflexivity.
    - destruct ((spent b <? 2 ^ 64) && ((- 2 ^ 63 <=? spent b - sent b) && (spent b - sent b <? 2 ^ 63))) eqn:B; [|reflexivity].
      exfalso. apply andb_true_iff in B as [B1 B2]. apply andb_true_iff in B2 as [B2 B3].
      destruct (proj1 FE eq_refl) as (k & _ & N). apply N. unfold vs. rewrite firstn_app, zsum_app.
      rewrite (firstn_map _ _ (fun o => 0 - o_value o)), zsum_map_opp, <- (firstn_map _ _ o_value).
      pose proof (zsum_firstn _ k U1) as P1. pose proof (zsum_firstn _ (k - length us) U2) as P2.
      destruct (Nat.le_gt_cases (length us) k) as [K|K].
      + rewrite (firstn_all2 us K) in *. change (zsum us) with (spent b) in *. unfold sent in *. unfold value_sum_ok. lia.
      + replace (k - length us)%nat with 0%nat in * by lia. cbn [firstn zsum] in *. change (zsum us) with (spent b) in *. unfold sent in *. unfold value_sum_ok. lia.
  Qed.

  Lemma value_balance_exact : forall t anchor b, gd_fallback_ok -> reachable t anchor b ->
    (forall v, value_balance try_from b = Ret (Ok v) <->
       spent b < 2 ^ 64 /\ i64_ok (spent b - sent b) /\ try_from (spent b - sent b) = Some v) /\
    (value_balance try_from b = Ret (Err OverflowError) <->
       2 ^ 64 <= spent b \/ ~ i64_ok (spent b - sent b) \/ try_from (spent b - sent b) = None) /\
    (~ i64_ok (spent b - sent b) \/ try_from (spent b - sent b) = None ->
       forall fuel r bd meta r', build try_from fuel b r <> Ret (Ok (Some (bd, meta)), r')).
  Proof.
    intros t anchor b GD RB. destruct (reachable_legal L _ _ _ RB) as (LB & _).
    rewrite (value_balance_cases b LB).
    assert (I : (spent b <? 2 ^ 64) && ((- 2 ^ 63 <=? spent b - sent b) && (spent b - sent b <? 2 ^ 63)) = true <->
                spent b < 2 ^ 64 /\ i64_ok (spent b - sent b)).
    { rewrite !andb_true_iff, !Z.ltb_lt, Z.leb_le. unfold i64_ok. lia. }
    split; [|split].
    - intro v. destruct (_ && _) eqn:B.
      + destruct (proj1 I eq_refl) as [A1 A2]. destruct (try_from _) as [x|]; split.
        * intro X. injection X as ->. auto.
        * intros (_ & _ & X). congruence.
        * discriminate.
        * intros (_ & _ & X). discriminate.
      + split; [discriminate|]. intros (X1 & X2 & _). discriminate (proj2 I (conj X1 X2)).
    - destruct (_ && _) eqn:B.
      + destruct (proj1 I eq_refl) as [A1 A2]. destruct (try_from _) as [x|]; split.
        * discriminate.
        * intros [X|[X|X]]; [lia|contradiction|discriminate].
        * auto.
        * reflexivity.
      + split; [|reflexivity]. intros _. destruct (Z.le_gt_cases (2 ^ 64) (spent b)) as [X|X]; [auto|].
        right. left. intro Y. discriminate (proj2 I (conj X Y)).
    - intros H fuel r bd meta r' E. apply (build_spec L try_from _ _ _ _ _ GD LB) in E as (n & _ & IO & v & TF & _).
      destruct H as [H|H]; [exact (H IO)|congruence].
  Qed.
End Vb.
