(** Properties C46-C51, C54, C57 (src/circuit.rs, src/circuit/*.rs). [action_statement] is the
    Action statement of the protocol specification, written with the native functions
    (CircuitSpec.v); [circuit_sat] is satisfaction of the constraints (Circuit.v). *)
From Coq Require Import String ZArith List Bool Lia.
From Coq Require Import Init.Byte.
From Verif Require Import Prelude Fields Curve Oracles Sinsemilla SinsSpec RedPallas Value Keys KeysSpec Note Tree TreeSpec Action
  Bundle Builder Spec BuilderSpec BuilderFacts Halo2 CircuitIvk CircuitNote CircuitIvkFacts Circuit CircuitSpec CircuitFacts CircuitBuildFacts
  CurveFacts Toy ToyFacts ToyKeys ToyNoteEnc ToyBuilder ToyCircuit ToyPipeline.
Import ListNotations.
Open Scope Z_scope.

(** C46. *)
Theorem C46_action_gate :
  forall (v_old v_new magnitude sign root anchor es eo : Z),
  is_u64 v_old -> is_u64 v_new -> short_magnitude magnitude -> short_sign sign ->
  is_base root -> is_base anchor -> is_base es -> is_base eo ->
  (gate_holds (orchard_gate (orchard_region v_old v_new magnitude sign root anchor es eo)) <->
   v_old - v_new = short_value magnitude sign /\ (v_old = 0 \/ root = anchor) /\
   (v_old = 0 \/ es = 1) /\ (v_new = 0 \/ eo = 1)).
Proof. exact orchard_gate_iff. Qed.
Print Assumptions C46_action_gate.

Example C46_has_instances :
  gate_holds (orchard_gate (orchard_region 0 (2 ^ 64 - 1) (2 ^ 64 - 1) (pmod - 1) 3 4 0 1)) /\
  ~ gate_holds (orchard_gate (orchard_region 1 0 1 1 3 4 1 1)).
Proof.
  assert (B : forall x, 0 <= x < 100 -> is_base x).
  { intros x X. assert (100 < pmod) by (vm_compute; reflexivity). unfold is_base. lia. }
  split.
  - apply orchard_gate_iff; try (apply B; lia); try (unfold is_u64, short_magnitude, short_sign; lia).
    split; [reflexivity|]. split; [left; reflexivity|]. split; [left|right]; reflexivity.
  - intro H. apply orchard_gate_iff in H; try (apply B; lia); try (unfold is_u64, short_magnitude, short_sign; lia).
Qed.

(** C47: whatever the prover puts in the cells, the hashed words are those of the canonical
    510-bit message, and the gadget's output is the native CommitIvk (or the hash is undefined). *)
Theorem C47_commit_ivk_message :
  forall (ak nk : Z) (k : ivk_cells), is_base ak -> is_base nk ->
  ivk_sat ak nk k -> ivk_words k = msg_words (commit_ivk_msg ak nk).
Proof. exact ivk_cells_sound. Qed.
Print Assumptions C47_commit_ivk_message.

Theorem C47_commit_ivk_assignable :
  forall (ak nk : Z), is_base ak -> is_base nk -> ivk_sat ak nk (ivk_honest ak nk).
Proof. exact ivk_cells_complete. Qed.
Print Assumptions C47_commit_ivk_assignable.

Theorem C47_commit_ivk_sound :
  forall (C : Curve) (OR : @Oracles C) (L : CurveLaws C) (ak nk rivk : Z) (k : ivk_cells) (ivk : Z),
  is_base ak -> is_base nk -> commit_ivk_chip ak nk rivk k ivk ->
  commit_ivk ak nk (rivk mod qmod) = Some ivk \/ sins_exception (sins_Q "z.cash:Orchard-CommitIvk-M") (ivk_words k).
Proof. exact @commit_ivk_sound. Qed.
Print Assumptions C47_commit_ivk_sound.

Example C47_has_instances : is_base (pmod - 1) /\ is_base (2 ^ 254) /\ pmod - 1 <> 2 ^ 254 /\
  ivk_sat (pmod - 1) (2 ^ 254) (ivk_honest (pmod - 1) (2 ^ 254)).
Proof.
  assert (H : is_base (pmod - 1) /\ is_base (2 ^ 254)) by (split; split; vm_compute; congruence).
  split; [apply H|]. split; [apply H|]. split; [vm_compute; discriminate|]. apply ivk_cells_complete; apply H.
Qed.

(** C48. *)
Theorem C48_note_commit_message :
  forall (C : Curve) (L : CurveLaws C) (g_d pk_d : point) (v rho psi : Z) (k : nc_cells),
  is_base v -> is_base rho -> is_base psi ->
  nc_sat (pt_x g_d) (pt_y g_d) (pt_x pk_d) (pt_y pk_d) v rho psi k ->
  is_u64 v /\ nc_words k = msg_words (note_commit_msg (pt_encode g_d) (pt_encode pk_d) v rho psi).
Proof. exact @nc_sound. Qed.
Print Assumptions C48_note_commit_message.

Theorem C48_note_commit_assignable :
  forall (C : Curve) (L : CurveLaws C) (g_d pk_d : point) (v rho psi : Z),
  is_u64 v -> is_base rho -> is_base psi ->
  nc_sat (pt_x g_d) (pt_y g_d) (pt_x pk_d) (pt_y pk_d) v rho psi
    (nc_honest (pt_x g_d) (pt_y g_d) (pt_x pk_d) (pt_y pk_d) v rho psi).
Proof. exact @nc_complete. Qed.
Print Assumptions C48_note_commit_assignable.

Theorem C48_note_commit_sound :
  forall (C : Curve) (OR : @Oracles C) (L : CurveLaws C) (g_d pk_d : point) (v rho psi rcm : Z) (k : nc_cells) (cm : point),
  is_base v -> is_base rho -> is_base psi -> note_commit_chip g_d pk_d v rho psi rcm k cm ->
  is_u64 v /\
  (note_commitment_derive (pt_encode g_d) (pt_encode pk_d) v rho psi (rcm mod qmod) = Some cm \/
   sins_exception (sins_Q "z.cash:Orchard-NoteCommit-M") (nc_words k)).
Proof. exact @note_commit_sound. Qed.
Print Assumptions C48_note_commit_sound.

Example C48_has_instances : exists (g pk : @point toy_curve) k,
  nc_sat (pt_x g) (pt_y g) (pt_x pk) (pt_y pk) (2 ^ 64 - 1) (pmod - 1) 11 k /\ g <> pk.
Proof.
  exists (toy_pt 5), (toy_pt 6). eexists. split.
  - refine (@nc_complete toy_curve toy_laws (toy_pt 5) (toy_pt 6) (2 ^ 64 - 1) (pmod - 1) 11 _ _ _).
    + split; [discriminate|reflexivity].
    + split; vm_compute; congruence.
    + split; vm_compute; congruence.
  - intro H. apply (f_equal toy_k) in H. vm_compute in H. discriminate H.
Qed.

(** C49: satisfying cells give a witness of the Action statement for the public instance; the only
    way out is an undefined Sinsemilla hash among the words in the cells. *)
Theorem C49_circuit_proves_the_statement :
  forall (C : Curve) (OR : @Oracles C) (L : CurveLaws C) (i : instance) (inst : list Z) (k : action_cells),
  is_base (i_anchor i) -> to_halo2_instance i = Ret inst -> circuit_sat inst k ->
  action_statement i (cells_witness k) \/ undefined_hash k.
Proof. exact @circuit_sound. Qed.
Print Assumptions C49_circuit_proves_the_statement.

(** C49: conversely the prover finds satisfying cells for every true statement whose path is the
    canonical one. *)
Theorem C49_statement_is_provable :
  forall (C : Curve) (OR : @Oracles C) (L : CurveLaws C) (i : instance) (inst : list Z) (w : witness),
  is_base (i_anchor i) -> to_halo2_instance i = Ret inst -> action_statement i w ->
  (w_v_old w = 0 \/ mp_root (mk_path (w_pos w) (w_path w)) (pt_x (w_cm_old w)) = i_anchor i) ->
  (exists k, synthesize w = Some k /\ circuit_sat inst k /\ cells_witness k = w) \/
  (exists h a b, In (h, a, b) (root_inputs (w_pos w) 0 (pt_x (w_cm_old w)) (w_path w)) /\
     sins_hash "z.cash:Orchard-MerkleCRH" (merkle_msg h a b) = None).
Proof. exact @circuit_complete. Qed.
Print Assumptions C49_statement_is_provable.

(** C49: a spend of non-zero value is of a leaf of the tree whose root is the anchor. *)
Theorem C49_spent_notes_are_in_the_tree :
  forall (C : Curve) (OR : @Oracles C) (L : CurveLaws C) (i : instance) (inst : list Z) (k : action_cells) (leaves : Z -> Z),
  is_base (i_anchor i) -> to_halo2_instance i = Ret inst -> circuit_sat inst k -> k_v_old k <> 0 ->
  (forall p, is_base (leaves p)) -> i_anchor i = tree_root leaves 32 ->
  let pos := bits_val (map ml_swap (k_layers k)) in
  0 <= pos < 2 ^ 32 /\
  (pt_x (k_cm_old k) = leaves pos \/ undefined_hash k \/
   exists h m a b, nth_error (k_layers k) h = Some m /\
     In (h, a, b) (root_inputs pos 0 (leaves pos) (auth_path leaves pos 32)) /\
     (sins_relation (sins_Q "z.cash:Orchard-MerkleCRH") (layer_words (Z.of_nat h) m) (msg_words (merkle_msg h a b)) \/
      sins_exception (sins_Q "z.cash:Orchard-MerkleCRH") (msg_words (merkle_msg h a b)))).
Proof. exact @membership. Qed.
Print Assumptions C49_spent_notes_are_in_the_tree.

(** A spend of 2^64 - 1 from a real tree, an output of 2^64 - 11. *)
Example C49_has_instances : exists (i : @instance toy_curve) inst k leaves,
  is_base (i_anchor i) /\ to_halo2_instance i = Ret inst /\ circuit_sat inst k /\
  action_statement i (cells_witness k) /\ k_v_old k = 2 ^ 64 - 1 /\ k_v_new k = 2 ^ 64 - 11 /\
  (forall p, is_base (leaves p)) /\ i_anchor i = tree_root leaves 32.
Proof.
  destruct toy_circuit as (i & inst & w & k & E1 & E2 & E3 & E4 & E5 & E6 & E7 & E8 & E9 & E10 & E11 & leaves & E12 & E13).
  exists i, inst, k, leaves. subst w. split; [exact E1|]. split; [exact E2|]. split; [exact E5|]. split; [exact E3|].
  split; [exact E7|]. split; [exact E8|]. split; [exact E12|exact E13].
Qed.

(** C50. The builder never makes rk the identity knowingly: [to_halo2_instance] fails on it (C53). *)
Theorem C50_built_bundles_satisfy_the_circuit :
  forall (C : Curve) (OR : @Oracles C) (L : CurveLaws C) (V : Type) (try_from : Z -> option V)
    (t : bundle_type) (anchor : Z) (b : builder) (fuel : nat) (r : rng) (bd : @unauthorized_bundle C V) (meta : bundle_metadata)
    (r' : rng) (k : nat) (a : action signing_metadata) (w : witness) (inst : list Z),
  gd_fallback_ok -> basepoint SpendAuth <> pt_id -> is_base anchor -> reachable t anchor b ->
  build try_from fuel b r = Ret (Ok (Some (bd, meta)), r') ->
  nth_error (b_actions bd) k = Some a -> nth_error (up_circuits (ip_proof (b_auth bd))) k = Some w ->
  to_halo2_instance (to_instance a (b_flags bd) (b_anchor bd)) = Ret inst ->
  (action_statement (to_instance a (b_flags bd) (b_anchor bd)) w /\
   exists c, synthesize w = Some c /\ circuit_sat inst c /\ cells_witness c = w) \/
  (exists h x y, In (h, x, y) (root_inputs (w_pos w) 0 (pt_x (w_cm_old w)) (w_path w)) /\
     sins_hash "z.cash:Orchard-MerkleCRH" (merkle_msg h x y) = None).
Proof. exact @builder_complete. Qed.
Print Assumptions C50_built_bundles_satisfy_the_circuit.

Example C50_has_instances :
  gd_fallback_ok /\ basepoint SpendAuth <> @pt_id toy_curve /\ is_base toy_anchor /\ reachable toy_type toy_anchor toy_builder /\
  exists bd meta r' a w inst, build (fun i : Z => Some i) 5 toy_builder toy_rng = Ret (Ok (Some (bd, meta)), r') /\
    nth_error (b_actions bd) 0 = Some a /\ nth_error (up_circuits (ip_proof (b_auth bd))) 0 = Some w /\
    to_halo2_instance (to_instance a (b_flags bd) (b_anchor bd)) = Ret inst.
Proof. exact (conj toy_gd (conj toy_basepoint (conj toy_anchor_base (conj toy_reachable toy_first)))). Qed.

(** C51: a surplus other than 0 is a discrete-log relation between the two value bases. *)
Theorem C51_value_is_conserved :
  forall (C : Curve) (OR : @Oracles C) (L : CurveLaws C) (T S V : Type) (into : V -> Z) (b : bundle T S V)
    (ws : list witness) (bsk : Z),
  Forall2 action_statement (to_instances b) ws ->
  i64_ok (into (b_value_balance b)) -> Z.of_nat (length (b_actions b)) < 2 ^ 180 ->
  binding_validating_key into b = Ret (vk_of Binding bsk) ->
  let surplus := zsum (map w_v_old ws) - zsum (map w_v_new ws) - into (b_value_balance b) in
  surplus = 0 \/
  (surplus mod qmod <> 0 /\ pt_mul surplus value_base_V = pt_mul (bsk - zsum (map w_rcv ws)) value_base_R).
Proof. exact @value_conserved. Qed.
Print Assumptions C51_value_is_conserved.

Theorem C51_disabled_side_is_empty :
  forall (C : Curve) (OR : @Oracles C) (T S V : Type) (b : bundle T S V) (ws : list witness),
  Forall2 action_statement (to_instances b) ws ->
  (spends_enabled (b_flags b) = false -> Forall (fun w => w_v_old w = 0) ws) /\
  (outputs_enabled (b_flags b) = false -> Forall (fun w => w_v_new w = 0) ws).
Proof. exact @disabled_side_is_empty. Qed.
Print Assumptions C51_disabled_side_is_empty.

Example C51_has_instances : exists (b : @bundle toy_curve unit unit Z) ws bsk,
  Forall2 action_statement (to_instances b) ws /\ i64_ok (b_value_balance b) /\ length (b_actions b) = 1%nat /\
  binding_validating_key (fun x => x) b = Ret (vk_of Binding bsk) /\
  zsum (map w_v_old ws) = 2 ^ 64 - 1 /\ zsum (map w_v_new ws) = 2 ^ 64 - 11 /\ b_value_balance b = 10.
Proof.
  destruct toy_circuit as (i & inst & w & k & E1 & E2 & E3 & E4 & E5 & E6 & E7 & E8 & E9 & E10 & E11 & _).
  destruct (one_action_bundle toy_laws i w (mk_ciphertext [] [] []) 10 E3 E10 E11) as [B1 B2]; [lia|unfold i64_ok; lia|].
  eexists _, _, _. split; [exact B1|]. split; [unfold i64_ok; cbn [b_value_balance]; lia|]. split; [reflexivity|].
  split; [exact B2|]. cbn [map zsum b_value_balance]. rewrite E7, E8. split; [reflexivity|]. split; reflexivity.
Qed.

(** C54: the same note commitment gives the same nullifier, unless the two witnesses contain two
    openings of it or of an incoming viewing key. *)
Theorem C54_one_nullifier_per_note :
  forall (C : Curve) (OR : @Oracles C) (L : CurveLaws C) (i1 : instance) (w1 : witness) (i2 : instance) (w2 : witness),
  action_statement i1 w1 -> action_statement i2 w2 -> pt_x (w_cm_old w1) = pt_x (w_cm_old w2) ->
  let m w := note_commit_msg (pt_encode (w_g_d_old w)) (pt_encode (w_pk_d_old w)) (w_v_old w) (w_rho_old w) (w_psi_old w) in
  let mk w := commit_ivk_msg (pt_x (w_ak w)) (w_nk w) in
  i_nf_old i1 = i_nf_old i2 \/
  sins_relation_R (sins_Q "z.cash:Orchard-NoteCommit-M") (commit_R "z.cash:Orchard-NoteCommit")
    (msg_words (m w1)) (msg_words (m w2)) (w_rcm_old w1) (w_rcm_old w2) \/
  sins_relation_R (sins_Q "z.cash:Orchard-CommitIvk-M") (commit_R "z.cash:Orchard-CommitIvk")
    (msg_words (mk w1)) (msg_words (mk w2)) (w_rivk w1) (w_rivk w2).
Proof. exact @nullifier_unique. Qed.
Print Assumptions C54_one_nullifier_per_note.

(** C54: actions with distinct nullifiers create notes with distinct commitments. *)
Theorem C54_new_notes_are_distinct :
  forall (C : Curve) (OR : @Oracles C) (L : CurveLaws C) (i1 : instance) (w1 : witness) (i2 : instance) (w2 : witness),
  action_statement i1 w1 -> action_statement i2 w2 ->
  is_base (i_nf_old i1) -> is_base (i_nf_old i2) ->
  i_nf_old i1 <> i_nf_old i2 -> i_cmx i1 = i_cmx i2 ->
  let m i w := note_commit_msg (pt_encode (w_g_d_new w)) (pt_encode (w_pk_d_new w)) (w_v_new w) (i_nf_old i) (w_psi_new w) in
  sins_relation_R (sins_Q "z.cash:Orchard-NoteCommit-M") (commit_R "z.cash:Orchard-NoteCommit")
    (msg_words (m i1 w1)) (msg_words (m i2 w2)) (w_rcm_new w1) (w_rcm_new w2).
Proof. exact @new_notes_distinct. Qed.
Print Assumptions C54_new_notes_are_distinct.

(** The premises of both are met by the statement of [C49_has_instances], alone or against any other. *)
Example C54_has_instances : exists (i : @instance toy_curve) w, action_statement i w /\ w_v_old w <> 0.
Proof.
  destruct toy_circuit as (i & inst & w & k & E1 & E2 & E3 & E4 & E5 & E6 & E7 & _).
  exists i, w. split; [exact E3|]. rewrite E7. discriminate.
Qed.

(** C57. *)
Theorem C57_value_commit_gadget :
  forall (C : Curve) (OR : @Oracles C) (L : CurveLaws C) (m s rcv : Z) (cv : point),
  short_magnitude m -> short_sign s -> scalar_fixed rcv ->
  (value_commit_chip m s rcv cv <-> derive_cv (short_value m s) (rcv mod qmod) = Ret cv).
Proof. exact @value_commit_exact. Qed.
Print Assumptions C57_value_commit_gadget.

Theorem C57_derive_nullifier_gadget :
  forall (C : Curve) (OR : @Oracles C) (L : CurveLaws C) (rho psi : Z) (cm : point) (nk scalar nf : Z), is_base psi ->
  (derive_nullifier_chip rho psi cm nk scalar nf <->
   scalar = (prf_nf nk rho + psi) mod pmod /\ nf_derive nk rho psi cm = Ret nf).
Proof. exact @derive_nullifier_exact. Qed.
Print Assumptions C57_derive_nullifier_gadget.

Example C57_has_instances : short_magnitude (2 ^ 64 - 1) /\ short_sign (pmod - 1) /\ scalar_fixed (2 ^ 255 - 1) /\
  (exists cv : @point toy_curve, value_commit_chip (2 ^ 64 - 1) (pmod - 1) (2 ^ 255 - 1) cv) /\ is_base 5.
Proof.
  assert (A : short_magnitude (2 ^ 64 - 1)) by (unfold short_magnitude; lia).
  assert (B : short_sign (pmod - 1)) by (right; reflexivity).
  assert (D : scalar_fixed (2 ^ 255 - 1)) by (unfold scalar_fixed; lia).
  split; [exact A|]. split; [exact B|]. split; [exact D|]. split; [|exact (small_base 5 ltac:(lia))].
  eexists. apply (value_commit_exact toy_laws _ _ _ _ A B D). apply (ValueFacts.derive_cv_ret toy_laws).
  unfold short_value. assert (E : (pmod - 1 =? 1) = false) by (vm_compute; reflexivity). rewrite E. unfold value_sum_ok. lia.
Qed.
