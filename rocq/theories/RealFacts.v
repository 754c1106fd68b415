(** The written-out external functions meet the assumptions the model makes about their outputs. *)
From Coq Require Import String ZArith List Bool Lia.
From Coq Require Import Init.Byte.
From Verif Require Import Prelude Fields Curve PreludeFacts CurveFacts Oracles RedPallas Value Note Keys KeysSpec Sinsemilla Constants Action Bundle Batch BundleSpec
  Builder BuilderSpec Signing SigningSpec Halo2 Circuit CircuitSpec PipelineSpec PipelineFacts LedgerSpec LedgerFacts BuilderFacts BuildFacts KeysFacts
  PallasCurve PallasFacts PallasLaws PallasUse Blake2b Poseidon HashToCurve HashToCurveFacts RealPoints ChaChaPoly Ff1Aes RealOracles.
Import ListNotations.
Open Scope Z_scope.

Lemma fit_id : forall n l, length l = n -> fit n l = l.
Proof.
  intros n l H. unfold fit. rewrite firstn_app, H, Nat.sub_diag. cbn [firstn]. rewrite app_nil_r.
  apply firstn_all2. lia.
Qed.

(** * BLAKE2b *)
Lemma b2_F_length : forall h block t last, length (b2_F h block t last) = 8%nat.
Proof. intros. unfold b2_F. cbv zeta. rewrite map_length, seq_length. reflexivity. Qed.
#[local] Opaque b2_F.
Lemma b2_blocks_length : forall fuel h t msg, length h = 8%nat -> length (b2_blocks fuel h t msg) = 8%nat.
Proof.
  induction fuel as [|fuel IH]; intros h t msg H; cbn [b2_blocks]; [assumption|].
  destruct (Nat.leb (length msg) 128); [apply b2_F_length|]. apply IH, b2_F_length.
Qed.
Lemma flat_le_length : forall k l, length (flat_map (le_bytes k) l) = (k * length l)%nat.
Proof. intros k l. induction l as [|x l IH]; cbn [flat_map length]; [lia|]. rewrite app_length, IH, le_bytes_length. lia. Qed.
Lemma blake2b_length : forall n pers msg, (n <= 64)%nat -> length (blake2b_real n pers msg) = n.
Proof.
  intros n pers msg H. unfold blake2b_real. cbv zeta. apply firstn_length_le. rewrite flat_le_length.
  rewrite b2_blocks_length; [lia|]. reflexivity.
Qed.

(** * Poseidon *)
Lemma dot3_range : forall r s, 0 <= dot3 r s < pmod.
Proof. intros [[a b] c] [[x y] z]. apply Z.mod_pos_bound, pmod_pos. Qed.
Lemma mds_three : exists r0 r1 r2, poseidon_mds = [r0; r1; r2].
Proof. do 3 eexists. reflexivity. Qed.
Lemma mix_range : forall s, let '(x, _, _) := poseidon_mix s in 0 <= x < pmod.
Proof.
  intro s. unfold poseidon_mix. destruct mds_three as (r0 & r1 & r2 & ->). apply dot3_range.
Qed.
#[local] Opaque poseidon_mix.
Lemma round_range : forall st rc, let '(_, (x, _, _)) := poseidon_round st rc in 0 <= x < pmod.
Proof.
  intros [i [[x y] z]] [[c0 c1] c2]. cbn [poseidon_round]. cbv zeta.
  match goal with |- context [poseidon_mix ?s] => pose proof (mix_range s) as H; destruct (poseidon_mix s) as [[a b] c] end.
  exact H.
Qed.
#[local] Opaque poseidon_round.
Lemma fold_range : forall l st, l <> [] -> let '(_, (x, _, _)) := fold_left poseidon_round l st in 0 <= x < pmod.
Proof.
  induction l as [|rc l IH]; intros st H; [contradiction|]. cbn [fold_left]. destruct l as [|rc' l].
  - apply round_range.
  - apply IH. discriminate.
Qed.
Lemma rc_nonempty : poseidon_rc <> [].
Proof. discriminate. Qed.
Lemma poseidon_range : forall a b, 0 <= poseidon_real a b < pmod.
Proof.
  intros a b. unfold poseidon_real. pose proof (fold_range poseidon_rc (0%nat, (a, b, 2 * 2 ^ 64)) rc_nonempty) as H.
  destruct (fold_left poseidon_round poseidon_rc (0%nat, (a, b, 2 * 2 ^ 64))) as [i [[x y] z]]. exact H.
Qed.

(** * ChaCha20-Poly1305 *)
Lemma tag_length : forall key ct, length (tag_real key ct) = 16%nat.
Proof. intros. unfold tag_real, poly1305. cbv zeta. apply le_bytes_length. Qed.

(** * The instance *)
Section Instance.
  Variables (R : Type) (rng_b : R -> nat -> bytes * R) (rng_i : R -> nat -> nat * R) (rng_p : R -> pallas_point * R).
  Let OR : @Oracles pallas := real_oracles R rng_b rng_i rng_p.

  Lemma real_wrappers :
    (forall n pers msg, (n <= 64)%nat -> @blake2b pallas OR n pers msg = blake2b_real n (bytes_of_string pers) msg) /\
    (forall nk rho, @prf_nf pallas OR nk rho = poseidon_real nk rho) /\
    (forall key ct, @poly_tag pallas OR key ct = tag_real key ct) /\
    (forall dom msg, coords (@hash_to_curve pallas OR dom msg) = hash_to_curve_coords (bytes_of_string dom) msg).
  Proof.
    split; [|split; [|split]].
    - intros n pers msg H. apply fit_id, blake2b_length, H.
    - intros nk rho. apply Z.mod_small, poseidon_range.
    - intros key ct. apply fit_id, tag_length.
    - intros dom msg. apply hash_to_curve_coords_ok.
  Qed.

  (** The points the code computes by hashing are the ones the crate hard-codes. *)
  #[local] Opaque hash_to_curve_coords hash_to_curve_real bytes_of_string.
  Lemma gen_point : forall dom msg c p, In (dom, msg, c, p) gen_inputs ->
    coords (@hash_to_curve pallas OR dom (bytes_of_string msg)) = Some p.
  Proof.
    intros dom msg c p H. etransitivity; [apply hash_to_curve_coords_ok|]. exact (generators dom msg c p H).
  Qed.
  Lemma not_id : forall (P : pallas_point) p, coords P = Some p -> P <> pallas_id.
  Proof. intros P p H ->. discriminate H. Qed.

  #[local] Opaque q_note_commit_m q_commit_ivk_m q_merkle_crh gen_commit_ivk_r gen_note_commit_r gen_nullifier_k
    gen_spend_auth_g gen_value_commit_r gen_value_commit_v point_gd cert_q_note cert_q_ivk cert_q_merkle cert_r_ivk cert_r_note
    cert_k_nf cert_g_auth cert_r_cv cert_v_cv cert_gd coords.
  Lemma gen_nth : forall n dom msg c p, nth_error gen_inputs n = Some (dom, msg, c, p) ->
    coords (@hash_to_curve pallas OR dom (bytes_of_string msg)) = Some p.
  Proof. intros n dom msg c p H. apply (gen_point dom msg c). exact (nth_error_In _ _ H). Qed.
  Lemma e_q_note : coords (@sins_Q pallas OR "z.cash:Orchard-NoteCommit-M") = Some q_note_commit_m.
  Proof. exact (gen_nth 0 _ _ _ _ eq_refl). Qed.
  Lemma e_q_ivk : coords (@sins_Q pallas OR "z.cash:Orchard-CommitIvk-M") = Some q_commit_ivk_m.
  Proof. exact (gen_nth 1 _ _ _ _ eq_refl). Qed.
  Lemma e_q_merkle : coords (@sins_Q pallas OR "z.cash:Orchard-MerkleCRH") = Some q_merkle_crh.
  Proof. exact (gen_nth 2 _ _ _ _ eq_refl). Qed.
  Lemma e_r_ivk : coords (@commit_R pallas OR "z.cash:Orchard-CommitIvk") = Some gen_commit_ivk_r.
  Proof. exact (gen_nth 3 _ _ _ _ eq_refl). Qed.
  Lemma e_r_note : coords (@commit_R pallas OR "z.cash:Orchard-NoteCommit") = Some gen_note_commit_r.
  Proof. exact (gen_nth 4 _ _ _ _ eq_refl). Qed.
  Lemma e_k : coords (@nullifier_K pallas OR) = Some gen_nullifier_k.
  Proof. exact (gen_nth 5 _ _ _ _ eq_refl). Qed.
  Lemma e_g : coords (@basepoint pallas OR SpendAuth) = Some gen_spend_auth_g.
  Proof. exact (gen_nth 6 _ _ _ _ eq_refl). Qed.
  Lemma e_r : coords (@value_base_R pallas OR) = Some gen_value_commit_r.
  Proof. exact (gen_nth 7 _ _ _ _ eq_refl). Qed.
  Lemma e_v : coords (@value_base_V pallas OR) = Some gen_value_commit_v.
  Proof. exact (gen_nth 8 _ _ _ _ eq_refl). Qed.
  Lemma e_gd : coords (@hash_to_curve pallas OR "z.cash:Orchard-gd" []) = Some point_gd.
  Proof. exact (gen_nth 9 _ _ _ _ eq_refl). Qed.

  Lemma real_generators :
    map (fun P : pallas_point => coords P)
      [ @sins_Q pallas OR "z.cash:Orchard-NoteCommit-M"; @sins_Q pallas OR "z.cash:Orchard-CommitIvk-M";
        @sins_Q pallas OR "z.cash:Orchard-MerkleCRH"; @commit_R pallas OR "z.cash:Orchard-CommitIvk";
        @commit_R pallas OR "z.cash:Orchard-NoteCommit"; @nullifier_K pallas OR; @basepoint pallas OR SpendAuth;
        @value_base_R pallas OR; @value_base_V pallas OR ] = map Some hard_coded_points.
  Proof.
    unfold hard_coded_points. cbn [map].
    rewrite e_q_note, e_q_ivk, e_q_merkle, e_r_ivk, e_r_note, e_k, e_g, e_r, e_v. reflexivity.
  Qed.

  Lemma real_not_id :
    @gd_fallback_ok pallas OR /\ @basepoint pallas OR SpendAuth <> pt_id /\ @basepoint pallas OR Binding <> pt_id /\
    @value_base_V pallas OR <> pt_id.
  Proof.
    split; [exact (not_id _ _ e_gd)|]. split; [exact (not_id _ _ e_g)|].
    split; [exact (not_id _ _ e_r)|exact (not_id _ _ e_v)].
  Qed.
End Instance.

Definition distinct (l : list Z) : bool :=
  (fix ok l := match l with [] => true | x :: l' => forallb (fun y => negb (x =? y)) l' && ok l' end) l.
Lemma distinct_spec : forall l, distinct l = true -> NoDup l.
Proof.
  induction l as [|x l IH]; intro H; constructor.
  - apply andb_true_iff in H as [H _]. intro HI. pose proof (proj1 (forallb_forall _ _) H x HI) as N. cbv beta in N.
    rewrite Z.eqb_refl in N. discriminate N.
  - apply IH. apply andb_true_iff in H as [_ H]. exact H.
Qed.
Lemma generators_distinct_b : distinct (map fst hard_coded_points) = true.
Proof. vm_compute. reflexivity. Qed.

Section Use.
  Variables (R : Type) (rng_b : R -> nat -> bytes * R) (rng_i : R -> nat -> nat * R) (rng_p : R -> pallas_point * R).
  Let OR : @Oracles pallas := real_oracles R rng_b rng_i rng_p.

  Lemma real_generators_distinct :
    map (fun P : pallas_point => coords P)
      [ @sins_Q pallas OR "z.cash:Orchard-NoteCommit-M"; @sins_Q pallas OR "z.cash:Orchard-CommitIvk-M";
        @sins_Q pallas OR "z.cash:Orchard-MerkleCRH"; @commit_R pallas OR "z.cash:Orchard-CommitIvk";
        @commit_R pallas OR "z.cash:Orchard-NoteCommit"; @nullifier_K pallas OR; @basepoint pallas OR SpendAuth;
        @value_base_R pallas OR; @value_base_V pallas OR ] = map Some hard_coded_points /\
    NoDup (map fst hard_coded_points).
  Proof. split; [apply real_generators|exact (distinct_spec _ generators_distinct_b)]. Qed.

  Lemma real_bases :
    (forall d, @diversify_hash pallas OR d <> pt_id) /\
    @basepoint pallas OR SpendAuth <> pt_id /\ @basepoint pallas OR Binding <> pt_id /\ @value_base_V pallas OR <> pt_id.
  Proof.
    destruct (real_not_id R rng_b rng_i rng_p) as (H1 & HR). split; [|exact HR].
    intro d. exact (@diversify_hash_nonid pallas OR pallas_laws d H1).
  Qed.

  Lemma real_build : forall (V : Type) (try_from : Z -> option V) t anchor (b : @builder pallas) fuel (r : R),
    @reachable pallas OR t anchor b ->
    (forall why, @build pallas OR V try_from fuel b r = Panic why -> @rng_hits_zero_key pallas OR r) /\
    (forall res r', @build pallas OR V try_from fuel b r = Ret (res, r') -> res = Err BE_ValueSum \/ exists o, res = Ok o).
  Proof.
    intros V try_from t anchor b fuel r H. destruct (real_not_id R rng_b rng_i rng_p) as (H1 & _).
    exact (@build_outcome pallas OR pallas_laws V try_from t anchor b fuel r H1 H).
  Qed.

  Lemma real_pipeline : forall (V : Type)
    (halo2_prove : list (@witness pallas) -> list (list Z) -> R -> option bytes * R) (halo2_verify : bytes -> list (list Z) -> bool)
    (try_from : Z -> option V) (into : V -> Z) (t : bundle_type) (anchor : Z) (b : @builder pallas) (fuel : nat) (r : R)
    (b0 : @unauthorized_bundle pallas V) (meta : bundle_metadata) (r' : R) (sighash : bytes)
    (b1 : @partial_bundle pallas V bytes) (bd : @bundle pallas authorized signature V),
    (forall i v, try_from i = Some v -> into v = i) -> @proofs_verify pallas OR halo2_prove halo2_verify ->
    is_base anchor -> @reachable pallas OR t anchor b ->
    @build pallas OR V try_from fuel b r = Ret (Ok (Some (b0, meta)), r') ->
    @history pallas OR V halo2_prove b0 sighash true b1 -> finalize b1 = Ret (Ok bd) ->
    @bundle_valid pallas OR V halo2_verify into bd sighash \/ @undefined_merkle_hash pallas OR (up_circuits (ip_proof (b_auth b0))).
  Proof.
    intros V pr ve tf into t anchor b fuel r b0 meta r' sighash b1 bd H1 H2 H3 H4 H5 H6 H7.
    destruct (real_not_id R rng_b rng_i rng_p) as (G1 & G2 & _).
    exact (@pipeline_valid pallas OR pallas_laws V pr ve tf into t anchor b fuel r b0 meta r' sighash b1 bd H1 H2 G1 G2 H3 H4 H5 H6 H7).
  Qed.

  Lemma real_ledger : forall (V : Type) (halo2_verify : bytes -> list (list Z) -> bool) (into : V -> Z)
    (extract : bytes -> list (list Z) -> list (@action_cells pallas)) (sx bx : pallas_point -> bytes -> signature -> Z),
    @finds_cells pallas OR halo2_verify extract -> @finds_keys pallas OR SpendAuth sx -> @finds_keys pallas OR Binding bx ->
    forall (h : list (@tx pallas V)) (lg : ledger), @reached pallas OR V halo2_verify into h lg ->
    @sound_ledger pallas OR V extract h lg \/ @break pallas OR V into extract bx h.
  Proof. exact (@ledger_sound pallas OR pallas_laws). Qed.
End Use.

Lemma hash_to_curve_on : forall (domain msg : bytes),
  match hash_to_curve_coords domain msg with
  | None => True
  | Some (x, y) => 0 <= x < pmod /\ 0 <= y < pmod /\ (y * y) mod pmod = (x * x * x + 5) mod pmod
  end.
Proof.
  intros domain msg. pose proof (hash_to_curve_ok domain msg) as H. destruct (hash_to_curve_coords domain msg) as [[x y]|]; [|exact I].
  cbn [coords_ok] in H. apply affine_ok_spec in H as (H1 & H2 & H3). split; [exact H1|]. split; [exact H2|].
  unfold fmul, fadd in H3. rewrite H3. rewrite Zmult_mod_idemp_l, Zplus_mod_idemp_l. reflexivity.
Qed.

(** A builder on Pallas holding one output. *)
Definition ex_call : @call pallas := AddOutput None (@mk_address pallas (repeat x07 11) pallas_generator) 5 None.
Lemma generator_not_id : pallas_generator <> pallas_id.
Proof.
  intro H. apply (f_equal coords) in H. unfold pallas_generator in H. rewrite coords_of in H by (vm_compute; reflexivity).
  discriminate H.
Qed.
#[local] Opaque pallas_generator.
Lemma real_reachable : forall R rng_b rng_i rng_p, exists b,
  @reachable pallas (real_oracles R rng_b rng_i rng_p) bt_default 0 b /\ length (bl_outputs b) = 1%nat.
Proof.
  intros. eexists. split.
  - exists [ex_call]. eexists. split; [|reflexivity]. constructor; [|constructor].
    cbn [call_ok ex_call]. split; [discriminate|]. split; [|split; [|discriminate]].
    + split; [reflexivity|exact generator_not_id].
    + split; [discriminate|reflexivity].
  - reflexivity.
Qed.
