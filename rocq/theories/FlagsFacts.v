(** The flags of an accepted bundle (C86). *)
From Coq Require Import String ZArith List Bool Lia.
From Coq Require Import Init.Byte.
From Verif Require Import Prelude Fields Curve Oracles Spec RedPallas Value Keys Note Action NoteEnc Bundle Batch BundleSpec Builder
  Circuit CircuitSpec PipelineSpec FlagsSpec PreludeFacts PipelineFacts.
Import ListNotations.
Open Scope Z_scope.

Section Facts.
  Context {C : Curve} {OR : @Oracles C}.
  #[local] Opaque pt_mul pt_add pt_encode qmod pmod.

  Lemma zsum_nonneg : forall A (f : A -> Z) l, (forall a, In a l -> 0 <= f a) -> 0 <= zsum (map f l).
  Proof.
    intros A f l. induction l as [|a l IH]; intro H; cbn [map zsum fold_right]; [unfold zsum; cbn; lia|].
    change (zsum (f a :: map f l)) with (f a + zsum (map f l)). pose proof (H a (or_introl eq_refl)). pose proof (IH (fun x I => H x (or_intror I))). lia.
  Qed.
  Lemma zsum_zero : forall A (f : A -> Z) l, (forall a, In a l -> f a = 0) -> zsum (map f l) = 0.
  Proof.
    intros A f l. induction l as [|a l IH]; intro H; [reflexivity|]. cbn [map].
    change (zsum (f a :: map f l)) with (f a + zsum (map f l)). rewrite (H a (or_introl eq_refl)), (IH (fun x I => H x (or_intror I))). reflexivity.
  Qed.

  Lemma statements_respect_flags : forall T S V (b : bundle T S V) ws balance,
    Forall2 action_statement (to_instances b) ws -> surplus_of ws balance = 0 -> flags_respected (b_flags b) ws balance.
  Proof.
    intros T S V b ws balance F B. unfold surplus_of in B.
    assert (U : forall w, In w ws -> exists i, In i (to_instances b) /\ action_statement i w).
    { intros w I. clear -F I. induction F; [destruct I|]. destruct I as [<-|I]; [eexists; split; [left; reflexivity|assumption]|].
      destruct (IHF I) as (i & H1 & H2). exists i. split; [right; exact H1|exact H2]. }
    assert (FL : forall i, In i (to_instances b) -> i_enable_spend i = spends_enabled (b_flags b) /\ i_enable_output i = outputs_enabled (b_flags b)).
    { intros i I. unfold to_instances in I. apply in_map_iff in I as (a & <- & _). split; reflexivity. }
    assert (NN : 0 <= zsum (map w_v_old ws) /\ 0 <= zsum (map w_v_new ws)).
    { split; apply zsum_nonneg; intros w I; destruct (U w I) as (i & _ & ST); destruct (st_values _ _ ST) as [V1 V2]; [exact (proj1 V1)|exact (proj1 V2)]. }
    clear F. constructor; intro E.
    - assert (Z0 : forall w, In w ws -> w_v_old w = 0).
      { intros w I. destruct (U w I) as (i & II & ST). destruct (st_enable_spend _ _ ST) as [Z0|X]; [exact Z0|].
        destruct (FL i II) as [X1 _]. congruence. }
      split; [exact Z0|]. pose proof (zsum_zero _ w_v_old ws Z0) as Z1. clear -B NN Z1. lia.
    - assert (Z0 : forall w, In w ws -> w_v_new w = 0).
      { intros w I. destruct (U w I) as (i & II & ST). destruct (st_enable_output _ _ ST) as [Z0|X]; [exact Z0|].
        destruct (FL i II) as [_ X1]. congruence. }
      split; [exact Z0|]. pose proof (zsum_zero _ w_v_new ws Z0) as Z1. clear -B NN Z1. lia.
  Qed.

  Variable L : CurveLaws C.
  Lemma accepted_respects_flags : forall V (halo2_verify : bytes -> list (list Z) -> bool)
    (extract : bytes -> list (list Z) -> list action_cells) (sx bx : point -> bytes -> signature -> Z) (into : V -> Z)
    (b : bundle authorized signature V) (sighash : bytes),
    finds_cells halo2_verify extract -> finds_keys SpendAuth sx -> finds_keys Binding bx ->
    is_base (b_anchor b) -> i64_ok (into (b_value_balance b)) -> Z.of_nat (length (b_actions b)) < 2 ^ 180 ->
    bundle_valid halo2_verify into b sighash ->
    exists is bvk, omap to_halo2_instance (to_instances b) = Ret is /\ binding_validating_key into b = Ret bvk /\
      let ks := extract (au_proof (b_auth b)) is in
      let ws := map cells_witness ks in
      let balance := into (b_value_balance b) in
      flags_respected (b_flags b) ws balance \/ (exists k, In k ks /\ undefined_hash k) \/
      (surplus_of ws balance mod qmod <> 0 /\
       pt_mul (surplus_of ws balance) value_base_V =
         pt_mul (bx bvk sighash (au_binding_sig (b_auth b)) - zsum (map w_rcv ws)) value_base_R).
  Proof.
    intros V hv extract sx bx into b sh E1 E2 E3 A B N H.
    destruct (valid_means L hv extract sx bx into b sh E1 E2 E3 A B N H) as (is & bvk & I & K & M). exists is, bvk.
    split; [exact I|]. split; [exact K|]. cbv zeta. unfold accepted_means in M. cbv zeta in M.
    destruct M as [(M1 & M2 & _)|[M|M]]; [left|right; left; exact M|right; right; exact M].
    apply statements_respect_flags; assumption.
  Qed.
End Facts.
