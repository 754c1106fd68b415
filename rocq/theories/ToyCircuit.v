(** A satisfied circuit on the computable curve, used by the [Example]s. *)
From Coq Require Import String ZArith List Bool Lia.
From Coq Require Import Init.Byte.
From Verif Require Import Prelude PreludeFacts Spec Fields FieldFacts Curve CurveFacts Oracles Sinsemilla SinsSpec SinsFacts RedPallas
  Value ValueFacts Keys KeysSpec KeysFacts Note NoteSpec NoteFacts Tree TreeSpec Action Bundle BundleFacts Builder BuilderSpec
  Halo2 Halo2Facts Circuit CircuitSpec CircuitFacts CircuitBuildFacts TreeFacts Toy ToyFacts ToyKeys ToyNote ToyNoteEnc ToyBuilder.
Import ListNotations.
Open Scope Z_scope.

Section Generic.
  Context {C : Curve} {OR : @Oracles C} (L : CurveLaws C).

  Definition layers_defined (l : list (nat * Z * Z)) : bool :=
    forallb (fun '(h, a, b) => is_some (sins_hash "z.cash:Orchard-MerkleCRH" (merkle_msg h a b))) l.

  Lemma layers_defined_spec : forall l, layers_defined l = true ->
    ~ exists h a b, In (h, a, b) l /\ sins_hash "z.cash:Orchard-MerkleCRH" (merkle_msg h a b) = None.
  Proof.
    intros l H (h & a & b & I & E). unfold layers_defined in H. rewrite forallb_forall in H.
    specialize (H _ I). cbv beta iota in H. rewrite E in H. discriminate H.
  Qed.

  #[local] Opaque sins_hash_words sins_Q msg_words synthesize.

  Lemma spend_circuit : forall s anchor alpha rcv g pk v psi rcm cm nf cmn rivk,
    gd_fallback_ok -> is_base anchor -> provable (mk_flags true true) anchor s ->
    is_scalar alpha -> is_scalar rcv -> g <> pt_id -> pk <> pt_id -> is_u64 v -> is_base psi -> is_scalar rcm ->
    commitment (s_note s) = Ret cm -> fvk_rivk_scope (s_fvk s) (s_scope s) = Ret rivk ->
    nf_derive (fvk_nk (s_fvk s)) (n_rho (s_note s)) (rseed_psi (n_rseed (s_note s)) (n_rho (s_note s))) cm = Ret nf ->
    note_commitment_derive (pt_encode g) (pt_encode pk) v nf psi rcm = Some cmn ->
    pt_is_id (vk_randomize (fvk_ak (s_fvk s)) alpha) = false ->
    layers_defined (root_inputs (mp_position (s_path s)) 0 (pt_x cm) (mp_auth_path (s_path s))) = true ->
    exists i inst w k, i_anchor i = anchor /\ to_halo2_instance i = Ret inst /\ action_statement i w /\
      synthesize w = Some k /\ circuit_sat inst k /\ cells_witness k = w /\
      w_v_old w = n_value (s_note s) /\ w_v_new w = v /\ w_rcv w = rcv /\
      i_enable_spend i = true /\ i_enable_output i = true /\ i_nf_old i = nf /\ i_cmx i = cmx_of cmn /\ w_pos w = mp_position (s_path s).
  Proof.
    intros s anchor alpha rcv g pk v psi rcm cm nf cmn rivk GD HA [F1 F2 F3 F4 F5 F6] S1 S2 N1 N2 U B S3 CM RV NF CN RK LD.
    destruct (owner_ivk L _ _ _ F1 F4) as (rivk' & ivk & RV' & SR & CI & PK).
    assert (rivk' = rivk) by congruence. subst rivk'.
    set (w := mk_witness (mp_auth_path (s_path s)) (mp_position (s_path s))
            (diversify_hash (ad_d (n_recipient (s_note s)))) (ad_pk_d (n_recipient (s_note s)))
            (n_value (s_note s)) (n_rho (s_note s)) (rseed_psi (n_rseed (s_note s)) (n_rho (s_note s)))
            (rseed_rcm (n_rseed (s_note s)) (n_rho (s_note s))) cm alpha
            (fvk_ak (s_fvk s)) (fvk_nk (s_fvk s)) rivk g pk v psi rcm rcv).
    set (i := mk_instance anchor (cv_of (n_value (s_note s) - v) rcv) nf (vk_randomize (fvk_ak (s_fvk s)) alpha)
                (cmx_of cmn) true true).
    destruct (native_path L (mp_auth_path (s_path s)) (mp_position (s_path s)) 0 (pt_x cm) (x_range L cm) (po_elems _ F3))
      as [PV|X]; [|destruct (layers_defined_spec _ LD X)].
    change (2 ^ Z.of_nat 0) with 1 in PV. rewrite Z.div_1_r, (po_length _ F3) in PV.
    assert (RT : w_v_old w = 0 \/ mp_root (mk_path (w_pos w) (w_path w)) (pt_x (w_cm_old w)) = i_anchor i).
    { destruct F5 as [F5|(cm' & CM' & RT)]; [left; exact F5|right]. assert (cm' = cm) by congruence. subst cm'. exact RT. }
    assert (CM' : commitment_inner (s_note s) = Some cm).
    { unfold commitment in CM. destruct (commitment_inner (s_note s)) as [P|]; [|discriminate CM]. cbn [unwrap] in CM. congruence. }
    assert (ST : action_statement i w).
    { constructor; subst w i; cbn [w_path w_pos w_g_d_old w_pk_d_old w_v_old w_rho_old w_psi_old w_rcm_old w_cm_old
        w_alpha w_ak w_nk w_rivk w_g_d_new w_pk_d_new w_v_new w_psi_new w_rcm_new w_rcv
        i_anchor i_cv_net i_nf_old i_rk i_cmx i_enable_spend i_enable_output] in *.
      - split; [apply (diversify_hash_nonid L); exact GD|]. split; [apply (no_recipient _ F2)|]. split; [apply (no_rho _ F2)|].
        split; [apply psi_range|apply rcm_range].
      - split; [apply (fo_ak _ F1)|]. split; [apply (fo_nk _ F1)|]. split; [exact SR|]. split; [exact S1|exact S2].
      - split; [exact N1|]. split; [exact N2|]. split; [exact B|exact S3].
      - split; [apply (po_length _ F3)|]. split; [apply (po_elems _ F3)|apply (po_position _ F3)].
      - split; [apply (no_value _ F2)|exact U].
      - exact CM'.
      - destruct RT as [RT|RT]; [left; exact RT|right]. rewrite <- RT. exact PV.
      - apply (derive_cv_ret L). pose proof (no_value _ F2) as U1. unfold is_u64, value_sum_ok in *. lia.
      - exact NF.
      - reflexivity.
      - exists ivk. split; [exact CI|exact PK].
      - exists cmn. split; [exact CN|reflexivity].
      - right. reflexivity.
      - right. reflexivity. }
    assert (HI : exists inst, to_halo2_instance i = Ret inst).
    { rewrite (halo2_instance_ret L). unfold i at 1. cbn [i_rk]. rewrite RK. eexists. reflexivity. }
    destruct HI as [inst HI]. exists i, inst, w.
    destruct (circuit_complete L i inst w HA HI ST RT) as [(k & K1 & K2 & K3)|X].
    - exists k. split; [reflexivity|]. split; [exact HI|]. split; [exact ST|]. split; [exact K1|]. split; [exact K2|].
      split; [exact K3|]. split; [reflexivity|]. split; [reflexivity|]. split; [reflexivity|].
      split; [reflexivity|]. split; [reflexivity|]. split; [reflexivity|]. split; reflexivity.
    - destruct (layers_defined_spec _ LD X).
  Qed.

  Definition spend_check (s : spend_info) (alpha : Z) (g pk : point) (v psi rcm : Z) : bool :=
    match commitment (s_note s) with
    | Ret cm =>
        match nf_derive (fvk_nk (s_fvk s)) (n_rho (s_note s)) (rseed_psi (n_rseed (s_note s)) (n_rho (s_note s))) cm with
        | Ret nf =>
            is_some (note_commitment_derive (pt_encode g) (pt_encode pk) v nf psi rcm) &&
            negb (pt_is_id (vk_randomize (fvk_ak (s_fvk s)) alpha)) &&
            layers_defined (root_inputs (mp_position (s_path s)) 0 (pt_x cm) (mp_auth_path (s_path s)))
        | _ => false
        end
    | _ => false
    end.

  Lemma spend_check_circuit : forall s anchor alpha rcv g pk v psi rcm rivk,
    gd_fallback_ok -> is_base anchor -> provable (mk_flags true true) anchor s ->
    is_scalar alpha -> is_scalar rcv -> g <> pt_id -> pk <> pt_id -> is_u64 v -> is_base psi -> is_scalar rcm ->
    fvk_rivk_scope (s_fvk s) (s_scope s) = Ret rivk -> spend_check s alpha g pk v psi rcm = true ->
    exists i inst w k, i_anchor i = anchor /\ to_halo2_instance i = Ret inst /\ action_statement i w /\
      synthesize w = Some k /\ circuit_sat inst k /\ cells_witness k = w /\
      w_v_old w = n_value (s_note s) /\ w_v_new w = v /\ w_rcv w = rcv /\
      i_enable_spend i = true /\ i_enable_output i = true.
  Proof.
    intros s anchor alpha rcv g pk v psi rcm rivk GD HA PR S1 S2 N1 N2 U B S3 RV H. unfold spend_check in H.
    destruct (commitment (s_note s)) as [cm| |] eqn:CM; [|discriminate H|discriminate H].
    destruct (nf_derive (fvk_nk (s_fvk s)) (n_rho (s_note s)) (rseed_psi (n_rseed (s_note s)) (n_rho (s_note s))) cm) as [nf| |] eqn:NF;
      [|discriminate H|discriminate H].
    apply andb_true_iff in H as [H LD]. apply andb_true_iff in H as [CN RK].
    destruct (note_commitment_derive (pt_encode g) (pt_encode pk) v nf psi rcm) as [cmn|] eqn:CE; [|discriminate CN].
    apply negb_true_iff in RK.
    destruct (spend_circuit s anchor alpha rcv g pk v psi rcm cm nf cmn rivk GD HA PR S1 S2 N1 N2 U B S3 CM RV NF CE RK LD)
      as (i & inst & w & k & E1 & E2 & E3 & E4 & E5 & E6 & E7 & E8 & E9 & E10 & E11 & _).
    exists i, inst, w, k. split; [exact E1|]. split; [exact E2|]. split; [exact E3|]. split; [exact E4|].
    split; [exact E5|]. split; [exact E6|]. split; [exact E7|]. split; [exact E8|]. split; [exact E9|]. split; [exact E10|exact E11].
  Qed.

  Lemma one_action_bundle : forall i w (ct : note_ciphertext) v, action_statement i w ->
    i_enable_spend i = true -> i_enable_output i = true ->
    w_v_old w - w_v_new w = v -> i64_ok v ->
    let b := mk_bundle [mk_action (i_nf_old i) (i_rk i) (i_cmx i) ct (i_cv_net i) tt] (mk_flags true true) v (i_anchor i) tt in
    Forall2 action_statement (to_instances b) [w] /\
    binding_validating_key (fun x : Z => x) b = Ret (vk_of Binding (w_rcv w)).
  Proof.
    intros [an cv nf rk cx es eo] w ct v ST E1 E2 EV IV b.
    cbn [i_enable_spend i_enable_output i_nf_old i_rk i_cmx i_cv_net i_anchor] in *. subst es eo. split.
    - subst b. constructor; [exact ST|constructor].
    - pose proof (st_cv _ _ ST) as CV. cbn [i_cv_net] in CV. rewrite EV in CV. unfold binding_validating_key, value_sum_from_raw.
      rewrite (derive_cv_ret L) in CV by (unfold i64_ok, value_sum_ok in *; lia).
      rewrite (derive_cv_ret L) by (cbn [b b_value_balance]; unfold i64_ok, value_sum_ok in *; lia). cbn [obind].
      rewrite (into_bvk_ret L). subst b. cbn [b_actions b_value_balance map a_cv].
      assert (RI : forall X Y : point, Ret X = Ret Y -> X = Y) by (intros; congruence). apply RI in CV. subst cv.
      assert (SUM : cv_sum [cv_of v (w_rcv w)] = cv_of v (w_rcv w)).
      { change [cv_of v (w_rcv w)] with (map (fun vr => cv_of (fst vr) (snd vr)) [(v, w_rcv w)]).
        rewrite (cv_sum_of L). cbn [map zsum fst snd]. rewrite !Z.add_0_r. reflexivity. }
      rewrite SUM. f_equal. change (vk_of Binding (w_rcv w)) with (pt_mul (w_rcv w) value_base_R).
      unfold cv_sub, cv_of. rewrite mul_0, (add_id_r L). unfold pt_sub.
      rewrite (add_comm L (pt_mul v value_base_V)), <- (add_assoc L), (add_neg_r L), (add_id_r L). reflexivity.
  Qed.

  (** The tree with one leaf, at position 0. *)
  Definition one_leaf (x : Z) (p : Z) : Z := if p =? 0 then x else empty_leaf.
  Definition first_path : merkle_path := mk_path 0 (firstn 32 empty_roots).

  Lemma nth_error_ext : forall {A} (l1 l2 : list A), (forall n, nth_error l1 n = nth_error l2 n) -> l1 = l2.
  Proof.
    induction l1 as [|a l1 IH]; intros [|b l2] H; [reflexivity|specialize (H 0%nat); discriminate H|specialize (H 0%nat); discriminate H|].
    pose proof (H 0%nat) as H0. cbn [nth_error] in H0. f_equal; [congruence|]. apply IH. intro n. exact (H (S n)).
  Qed.

  Lemma one_leaf_path : forall x, auth_path (one_leaf x) 0 32 = firstn 32 empty_roots.
  Proof.
    intro x. destruct empty_roots_spec as (EL & ER & _). apply nth_error_ext. intro n.
    destruct (Nat.lt_ge_cases n 32) as [LT|GE].
    - assert (FN : nth_error (firstn 32 empty_roots) n = nth_error empty_roots n).
      { rewrite <- (firstn_skipn 32 empty_roots) at 2. symmetry. apply nth_error_app1. rewrite firstn_length, EL. exact LT. }
      rewrite FN. unfold auth_path. rewrite nth_error_map. rewrite (nth_error_nth' _ 0%nat) by (rewrite seq_length; exact LT).
      rewrite seq_nth by exact LT. cbn [option_map]. rewrite Z.div_0_l by (pose proof (pow2_pos (0 + n)); lia).
      change (neighbour 0) with 1.
      rewrite (empty_subtree (one_leaf x) 1 (0 + n) 1); [|lia| |pose proof (pow2_pos (0 + n)); lia].
      + cbn [Nat.add]. specialize (ER n ltac:(lia)). unfold empty_root in ER.
        destruct (nth_error empty_roots n) as [z|]; cbn [unwrap] in ER; [|discriminate ER]. congruence.
      + intros p Hp. unfold one_leaf. rewrite (proj2 (Z.eqb_neq p 0)) by lia. reflexivity.
    - rewrite !(proj2 (nth_error_None _ _)); [reflexivity|rewrite firstn_length, EL; lia|].
      unfold auth_path. rewrite map_length, seq_length. exact GE.
  Qed.

  Lemma one_leaf_base : forall x p, is_base x -> is_base (one_leaf x p).
  Proof.
    intros x p H. unfold one_leaf, empty_leaf. destruct (p =? 0); [exact H|].
    assert (100 < pmod) by (vm_compute; reflexivity). unfold is_base. lia.
  Qed.

  Lemma one_leaf_root : forall x, mp_root first_path x = tree_root (one_leaf x) 32.
  Proof.
    intro x. unfold first_path. rewrite <- (one_leaf_path x).
    pose proof (path_gives_root (one_leaf x) 0 ltac:(lia)) as H. cbn [one_leaf Z.eqb] in H. exact H.
  Qed.
End Generic.

(** The spend of the largest value, from that tree, and an output worth 10 less. *)
Definition toy_leaf : Z := match commitment (my_note max_value) with Ret cm => pt_x cm | _ => 0 end.
Definition toy_spend : spend_info := mk_spend None toy_fvk External (my_note max_value) first_path.
Definition toy_root : Z := mp_root first_path toy_leaf.
Lemma toy_circuit_computes :
  spend_check toy_spend 5 (diversify_hash (ad_d my_addr)) (ad_pk_d my_addr) (max_value - 10) 11 13 = true.
Proof. vm_compute. reflexivity. Qed.
Definition base_b (x : Z) : bool := (0 <=? x) && (x <? pmod).
Lemma base_b_ok : forall x, base_b x = true -> is_base x.
Proof. intros x H. apply andb_true_iff in H as [H1 H2]. split; [apply Z.leb_le; exact H1|apply Z.ltb_lt; exact H2]. Qed.
Lemma toy_bases : forallb base_b (toy_root :: toy_leaf :: firstn 32 empty_roots) = true.
Proof. vm_compute. reflexivity. Qed.

Lemma toy_anchor_base_b : base_b toy_anchor = true. Proof. vm_compute. reflexivity. Qed.
Lemma toy_anchor_base : is_base toy_anchor. Proof. exact (base_b_ok _ toy_anchor_base_b). Qed.

#[local] Opaque spend_check toy_fvk my_addr commitment max_value diversify_hash synthesize empty_roots mp_root pmod
  tree_root one_leaf.

Lemma toy_bases_ok : Forall is_base (toy_root :: toy_leaf :: firstn 32 empty_roots).
Proof.
  apply Forall_forall. intros x X. apply base_b_ok. exact (proj1 (forallb_forall _ _) toy_bases x X).
Qed.
Lemma toy_root_base : is_base toy_root.
Proof. exact (Forall_inv toy_bases_ok). Qed.
Lemma toy_leaf_base : is_base toy_leaf.
Proof. exact (Forall_inv (Forall_inv_tail toy_bases_ok)). Qed.

Lemma first_path_ok : path_ok (@first_path toy_curve toy_oracles).
Proof.
  constructor; unfold first_path; cbn [mp_position mp_auth_path].
  - lia.
  - destruct (@empty_roots_spec toy_curve toy_oracles) as (EL & _). rewrite firstn_length, EL. reflexivity.
  - exact (Forall_inv_tail (Forall_inv_tail toy_bases_ok)).
Qed.

Lemma toy_spend_provable : provable (mk_flags true true) toy_root toy_spend.
Proof.
  constructor; cbn [toy_spend s_fvk s_note s_path s_scope].
  - exact toy_fvk_ok.
  - apply my_note_ok. unfold is_u64. split; [|reflexivity]. vm_compute. discriminate.
  - exact first_path_ok.
  - exists (div_index_of_u32 3). split; [reflexivity|]. exact my_addr_derived.
  - right. destruct (my_note_commits max_value (or_introl eq_refl)) as [cm E]. exists cm. split; [exact E|].
    unfold toy_root, toy_leaf. rewrite E. reflexivity.
  - right. reflexivity.
Qed.

Lemma small_scalar : forall x, 0 <= x < 100 -> is_scalar x.
Proof. intros x X. assert (100 < qmod) by (vm_compute; reflexivity). unfold is_scalar. lia. Qed.
Lemma small_base : forall x, 0 <= x < 100 -> is_base x.
Proof. intros x X. assert (100 < pmod) by (vm_compute; reflexivity). unfold is_base. lia. Qed.

Lemma toy_circuit : exists (i : instance) inst (w : witness) k,
  is_base (i_anchor i) /\ to_halo2_instance i = Ret inst /\ action_statement i w /\
  synthesize w = Some k /\ circuit_sat inst k /\ cells_witness k = w /\ w_v_old w = 2 ^ 64 - 1 /\ w_v_new w = 2 ^ 64 - 11 /\ w_rcv w = 7 /\
  i_enable_spend i = true /\ i_enable_output i = true /\
  exists leaves, (forall p, is_base (leaves p)) /\ i_anchor i = tree_root leaves 32.
Proof.
  destruct (spend_check_circuit toy_laws toy_spend toy_root 5 7 (diversify_hash (ad_d my_addr)) (ad_pk_d my_addr) (max_value - 10) 11 13 (fvk_rivk toy_fvk))
    as (i & inst & w & k & E1 & E2 & E3 & E4 & E5 & E6 & E7 & E8 & E9 & E10 & E11).
  - exact toy_gd.
  - exact toy_root_base.
  - exact toy_spend_provable.
  - exact (small_scalar 5 ltac:(lia)).
  - exact (small_scalar 7 ltac:(lia)).
  - exact (diversify_hash_nonid toy_laws (ad_d my_addr) toy_gd).
  - exact (proj2 my_addr_ok).
  - split; [discriminate|reflexivity].
  - exact (small_base 11 ltac:(lia)).
  - exact (small_scalar 13 ltac:(lia)).
  - reflexivity.
  - exact toy_circuit_computes.
  - exists i, inst, w, k. rewrite E1. split; [exact toy_root_base|]. split; [exact E2|]. split; [exact E3|]. split; [exact E4|].
    split; [exact E5|]. split; [exact E6|]. split; [exact E7|]. split; [exact E8|]. split; [exact E9|].
    split; [exact E10|]. split; [exact E11|]. exists (one_leaf toy_leaf). split; [|exact (one_leaf_root toy_leaf)].
    intro p. exact (one_leaf_base toy_leaf p toy_leaf_base).
Qed.
