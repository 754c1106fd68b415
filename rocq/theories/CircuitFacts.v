(** Soundness and completeness of the Action circuit. *)
From Coq Require Import String ZArith List Bool Lia.
From Verif Require Import Prelude PreludeFacts Spec NumTheory Fields FieldFacts Curve CurveFacts Oracles Sinsemilla SinsSpec
  SinsFacts RedPallas Value ValueFacts Keys Note NoteFacts Tree TreeFacts TreeSpec Action Bundle BundleFacts Builder Halo2
  Halo2Facts CircuitIvk CircuitIvkFacts CircuitNote CircuitNoteFacts Circuit CircuitSpec.
Import ListNotations.
Open Scope Z_scope.

(** * The Orchard gate (C46) *)

Lemma vanishes_prod : forall a b, is_base a -> (vanishes (a * b) <-> a = 0 \/ vanishes b).
Proof.
  intros a b Ha. split; intro H.
  - apply vanishes_mul in H as [H|H]; [left; apply base_zero; assumption|right; exact H].
  - destruct H as [-> | H]; [apply vanishes_zero|apply vanishes_scale; exact H].
Qed.

Lemma vanishes_sub_iff : forall a b, is_base a -> is_base b -> (vanishes (a - b) <-> a = b).
Proof.
  intros a b Ha Hb. split; [apply vanishes_eq; assumption|]. intros ->. apply vanishes_id.
Qed.

Lemma u64_base : forall v, is_u64 v -> is_base v.
Proof. intros v H. apply base_of_lt. unfold is_u64 in H. lia. Qed.
Lemma base_one : is_base 1. Proof. apply base_of_lt. lia. Qed.
Lemma big_pmod : 2 ^ 200 < pmod. Proof. vm_compute. reflexivity. Qed.
Lemma pmod_neq : pmod - 1 <> 1. Proof. pose proof big_pmod. lia. Qed.

Lemma orchard_gate_iff : forall v_old v_new magnitude sign root anchor es eo,
  is_u64 v_old -> is_u64 v_new -> short_magnitude magnitude -> short_sign sign ->
  is_base root -> is_base anchor -> is_base es -> is_base eo ->
  (gate_holds (orchard_gate (orchard_region v_old v_new magnitude sign root anchor es eo)) <->
   v_old - v_new = short_value magnitude sign /\ (v_old = 0 \/ root = anchor) /\
   (v_old = 0 \/ es = 1) /\ (v_new = 0 \/ eo = 1)).
Proof.
  intros v_old v_new m s root anchor es eo Ho Hn Hm Hs Hr Ha He Hf.
  unfold orchard_gate, orchard_region. cbn [query at_cell fst snd Nat.eqb andb]. cbv zeta.
  rewrite !gate_cons.
  rewrite (vanishes_prod v_old (root - anchor)), (vanishes_prod v_old (1 - es)), (vanishes_prod v_new (1 - eo))
    by (apply u64_base; assumption).
  rewrite (vanishes_sub_iff root anchor), (vanishes_sub_iff 1 es), (vanishes_sub_iff 1 eo)
    by (try assumption; apply base_one).
  assert (E : vanishes (v_old - v_new - m * s) <-> v_old - v_new = short_value m s).
  { unfold short_value, is_u64, short_magnitude in *. pose proof big_pmod as BP. pose proof pmod_neq as PN.
    destruct Hs as [-> | ->].
    - cbn [Z.eqb Pos.eqb]. split; intro X.
      + apply vanishes_small in X; [lia|]. lia.
      + rewrite X. replace (m - m * 1) with 0 by ring. apply vanishes_zero.
    - rewrite (proj2 (Z.eqb_neq _ _) PN). split; intro X.
      + assert (Y : vanishes (v_old - v_new + m)).
        { replace (v_old - v_new + m) with ((v_old - v_new - m * (pmod - 1)) + m * pmod) by ring.
          apply vanishes_add; [exact X|]. apply vanishes_iff. exists m. reflexivity. }
        apply vanishes_small in Y; lia.
      + rewrite X. replace (- m - m * (pmod - 1)) with (- m * pmod) by ring. apply vanishes_iff. exists (- m). reflexivity. }
  rewrite E. split.
  - intros (A & B & D & F & _). split; [exact A|]. split; [exact B|].
    split; [destruct D as [D|D]; [left|right]; auto|destruct F as [F|F]; [left|right]; auto].
  - intros (A & B & D & F). split; [exact A|]. split; [exact B|].
    split; [destruct D as [D|D]; [left|right]; auto|]. split; [destruct F as [F|F]; [left|right]; auto|apply gate_nil].
Qed.

Section Facts.
  Context {C : Curve} {OR : @Oracles C} (L : CurveLaws C).

  (** * Gadgets as native functions (C47, C48, C57) *)

  #[local] Opaque sins_hash_words sins_Q msg_words ivk_words ivk_honest ivk_sat nc_words nc_honest nc_sat.

  Lemma nc_msg_val : forall g_d pk_d v rho psi, is_u64 v -> is_base rho -> is_base psi ->
    bits_val (note_commit_msg (pt_encode g_d) (pt_encode pk_d) v rho psi) =
    nc_val (pt_x g_d) (pt_y g_d) (pt_x pk_d) (pt_y pk_d) v rho psi.
  Proof.
    intros g_d pk_d v rho psi Hv Hr Hp. unfold note_commit_msg, note_value_bits, base_bits.
    rewrite !bits_val_app, !bits_val_bytes_bits, !bytes_bits_length, !(encode_val L), !encode_length, le_bits_length, le_bytes_length.
    rewrite le_val_le_bytes by (unfold is_u64 in Hv; lia).
    pose proof pmod_lt_pow255 as P255. unfold is_base in Hr, Hp.
    rewrite !bits_val_le_bits by (change (Z.of_nat l_orchard_base) with 255; lia).
    unfold nc_val. change (Z.of_nat l_orchard_base) with 255.
    change (Z.of_nat (8 * 32)) with 256. change (Z.of_nat (8 * 8)) with 64. reflexivity.
  Qed.

  Lemma nc_msg_length : forall g_d pk_d v rho psi,
    length (note_commit_msg (pt_encode g_d) (pt_encode pk_d) v rho psi) = 1086%nat.
  Proof.
    intros. unfold note_commit_msg, note_value_bits, base_bits.
    rewrite !app_length, !bytes_bits_length, !encode_length, !le_bits_length, le_bytes_length. reflexivity.
  Qed.

  Lemma nc_sound : forall g_d pk_d v rho psi k, is_base v -> is_base rho -> is_base psi ->
    nc_sat (pt_x g_d) (pt_y g_d) (pt_x pk_d) (pt_y pk_d) v rho psi k ->
    is_u64 v /\ nc_words k = msg_words (note_commit_msg (pt_encode g_d) (pt_encode pk_d) v rho psi).
  Proof.
    intros g_d pk_d v rho psi k Hv Hr Hp H.
    destruct (nc_cells_sound _ _ _ _ _ _ _ _ (x_range L g_d) (y_range L g_d) (x_range L pk_d) (y_range L pk_d) Hv Hr Hp H)
      as (U & LEN & TAB & VAL).
    split; [exact U|]. apply words_are; [|exact TAB|].
    - rewrite nc_msg_length, LEN. reflexivity.
    - rewrite VAL, nc_msg_val by assumption. reflexivity.
  Qed.

  Lemma nc_complete : forall g_d pk_d v rho psi, is_u64 v -> is_base rho -> is_base psi ->
    nc_sat (pt_x g_d) (pt_y g_d) (pt_x pk_d) (pt_y pk_d) v rho psi
      (nc_honest (pt_x g_d) (pt_y g_d) (pt_x pk_d) (pt_y pk_d) v rho psi).
  Proof.
    intros. apply nc_cells_complete; try assumption; first [apply (x_range L)|apply (y_range L)].
  Qed.

  Lemma derive_nullifier_exact : forall rho psi cm nk scalar nf, is_base psi ->
    (derive_nullifier_chip rho psi cm nk scalar nf <->
     scalar = (prf_nf nk rho + psi) mod pmod /\ nf_derive nk rho psi cm = Ret nf).
  Proof.
    intros rho psi cm nk scalar nf Hp. rewrite nf_derive_ret. unfold derive_nullifier_chip, add_gate, add_region.
    cbn [query at_cell fst snd Nat.eqb andb]. cbv zeta. rewrite gate_cons.
    pose proof pmod_pos as PP.
    assert (E : is_base scalar -> (vanishes (prf_nf nk rho + psi - scalar) <-> scalar = (prf_nf nk rho + psi) mod pmod)).
    { intro B. split; intro X.
      - symmetry. apply (vanishes_eq _ _ (Z.mod_pos_bound _ _ PP) B).
        replace ((prf_nf nk rho + psi) mod pmod - scalar)
          with ((prf_nf nk rho + psi - scalar) + - (prf_nf nk rho + psi - (prf_nf nk rho + psi) mod pmod)) by ring.
        apply vanishes_add; [exact X|]. apply vanishes_opp, vanishes_mod.
      - rewrite X. apply vanishes_mod. }
    split.
    - intros (B & (V & _) & ->). apply (E B) in V. split; [exact V|]. rewrite <- V, (add_comm L). reflexivity.
    - intros (S & N). assert (B : is_base scalar) by (rewrite S; apply Z.mod_pos_bound; exact PP).
      split; [exact B|]. split; [split; [apply (E B); exact S|apply gate_nil]|].
      rewrite <- S in N. assert (N' : pt_x (pt_add (pt_mul scalar nullifier_K) cm) = nf) by congruence.
      rewrite <- N', (add_comm L). reflexivity.
  Qed.

  Lemma short_value_range : forall m s, short_magnitude m -> value_sum_ok (short_value m s).
  Proof. intros m s H. unfold short_magnitude, short_value, value_sum_ok in *. destruct (s =? 1); lia. Qed.

  Lemma value_commit_exact : forall m s rcv cv, short_magnitude m -> short_sign s -> scalar_fixed rcv ->
    (value_commit_chip m s rcv cv <-> derive_cv (short_value m s) (rcv mod qmod) = Ret cv).
  Proof.
    intros m s rcv cv Hm Hs Hr. rewrite (derive_cv_ret L) by (apply short_value_range; exact Hm).
    unfold value_commit_chip, cv_of. rewrite (mul_mod L). split.
    - intros (_ & _ & _ & ->). reflexivity.
    - intro H. split; [exact Hm|]. split; [exact Hs|]. split; [exact Hr|]. congruence.
  Qed.

  (** Every value of the native type has exactly one (magnitude, sign) the circuit accepts, up to
      the sign of zero. *)
  Lemma short_value_onto : forall v, value_sum_ok v ->
    exists m s, short_magnitude m /\ short_sign s /\ short_value m s = v /\
      magnitude_sign v = Ret (m, if s =? 1 then Positive else Negative).
  Proof.
    intros v H. unfold value_sum_ok in H. unfold magnitude_sign. destruct (Z.ltb_spec v 0) as [N|N].
    - exists (- v), (pmod - 1). unfold short_value, short_magnitude, short_sign.
      rewrite (proj2 (Z.eqb_neq _ _) pmod_neq).
      rewrite (proj2 (Z.leb_le 0 (- v))), (proj2 (Z.ltb_lt (- v) (2 ^ 64))) by lia. cbn [andb unwrap obind].
      split; [lia|]. split; [right; reflexivity|]. split; [lia|reflexivity].
    - exists v, 1. unfold short_value, short_magnitude, short_sign. cbn [Z.eqb Pos.eqb].
      rewrite (proj2 (Z.leb_le 0 v)), (proj2 (Z.ltb_lt v (2 ^ 64))) by lia. cbn [andb unwrap obind].
      split; [lia|]. split; [left; reflexivity|]. split; reflexivity.
  Qed.

  (** Commitments: either the native value, or the hash of these very words is undefined. *)
  Lemma commit_chip_sound : forall domain m words r out, words = msg_words m ->
    commit_chip domain words r out ->
    sins_commit domain m r = Some out \/ sins_exception (sins_Q (domain ++ "-M")) words.
  Proof.
    intros domain m words r out -> (P & H & ->). unfold sins_commit, sins_hash_to_point. unfold hash_chip in H.
    destruct (sins_hash_words (sins_Q (domain ++ "-M")) (msg_words m)) as [P'|] eqn:E.
    - left. rewrite (H P' eq_refl). reflexivity.
    - right. apply (hash_words_none L); [apply msg_words_range|exact E].
  Qed.

  Lemma commit_chip_complete : forall domain m words r out, words = msg_words m ->
    sins_commit domain m r = Some out -> commit_chip domain words r out /\ honest_commit domain words r = Some out.
  Proof.
    intros domain m words r out -> H. unfold sins_commit, sins_hash_to_point in H. unfold commit_chip, honest_commit, hash_chip.
    destruct (sins_hash_words (sins_Q (domain ++ "-M")) (msg_words m)) as [P|]; [|discriminate H].
    cbn [optbind] in *. split; [|exact H]. exists P. split; [intros P' E|]; congruence.
  Qed.

  Lemma commit_mod : forall domain m r, sins_commit domain m (r mod qmod) = sins_commit domain m r.
  Proof.
    intros. unfold sins_commit. destruct (sins_hash_to_point _ _); [|reflexivity]. cbn [optbind].
    rewrite (mul_mod L). reflexivity.
  Qed.

  Lemma commit_ivk_sound : forall ak nk rivk k ivk, is_base ak -> is_base nk ->
    commit_ivk_chip ak nk rivk k ivk ->
    commit_ivk ak nk (rivk mod qmod) = Some ivk \/ sins_exception (sins_Q "z.cash:Orchard-CommitIvk-M") (ivk_words k).
  Proof.
    intros ak nk rivk k ivk Ha Hn (S & P & H & ->).
    pose proof (ivk_cells_sound _ _ _ Ha Hn S) as W.
    destruct (commit_chip_sound _ _ _ _ _ W H) as [E|E]; [|right; exact E].
    left. unfold commit_ivk, sins_short_commit. rewrite commit_mod, E. reflexivity.
  Qed.

  Lemma commit_ivk_complete : forall ak nk rivk ivk, is_base ak -> is_base nk ->
    commit_ivk ak nk rivk = Some ivk ->
    exists P, honest_commit "z.cash:Orchard-CommitIvk" (ivk_words (ivk_honest ak nk)) rivk = Some P /\ ivk = pt_x P /\
      commit_ivk_chip ak nk rivk (ivk_honest ak nk) ivk.
  Proof.
    intros ak nk rivk ivk Ha Hn H. unfold commit_ivk, sins_short_commit in H.
    destruct (sins_commit "z.cash:Orchard-CommitIvk" (commit_ivk_msg ak nk) rivk) as [P|] eqn:E; [|discriminate H].
    cbn [option_map] in H. unfold extract_p in H.
    pose proof (ivk_cells_complete ak nk Ha Hn) as S.
    destruct (commit_chip_complete _ _ _ _ _ (ivk_cells_sound _ _ _ Ha Hn S) E) as (X & Y).
    exists P. split; [exact Y|]. split; [congruence|]. split; [exact S|]. exists P. split; [exact X|congruence].
  Qed.

  Lemma note_commit_sound : forall g_d pk_d v rho psi rcm k cm, is_base v -> is_base rho -> is_base psi ->
    note_commit_chip g_d pk_d v rho psi rcm k cm ->
    is_u64 v /\
    (note_commitment_derive (pt_encode g_d) (pt_encode pk_d) v rho psi (rcm mod qmod) = Some cm \/
     sins_exception (sins_Q "z.cash:Orchard-NoteCommit-M") (nc_words k)).
  Proof.
    intros g_d pk_d v rho psi rcm k cm Hv Hr Hp (S & H).
    destruct (nc_sound _ _ _ _ _ _ Hv Hr Hp S) as (U & W). split; [exact U|].
    unfold note_commitment_derive. rewrite commit_mod. exact (commit_chip_sound _ _ _ _ _ W H).
  Qed.

  Lemma note_commit_complete : forall g_d pk_d v rho psi rcm cm, is_u64 v -> is_base rho -> is_base psi ->
    note_commitment_derive (pt_encode g_d) (pt_encode pk_d) v rho psi rcm = Some cm ->
    let k := nc_honest (pt_x g_d) (pt_y g_d) (pt_x pk_d) (pt_y pk_d) v rho psi in
    honest_commit "z.cash:Orchard-NoteCommit" (nc_words k) rcm = Some cm /\
    note_commit_chip g_d pk_d v rho psi rcm k cm.
  Proof.
    intros g_d pk_d v rho psi rcm cm Hv Hr Hp H k.
    pose proof (nc_complete g_d pk_d v rho psi Hv Hr Hp) as S. fold k in S.
    destruct (nc_sound _ _ _ _ _ _ (u64_base _ Hv) Hr Hp S) as (_ & W).
    destruct (commit_chip_complete _ _ _ _ _ W H) as (X & Y). split; [exact Y|]. split; [exact S|exact X].
  Qed.

  (** * Merkle path *)

  Lemma represents_bits : forall b x, is_base x -> represents b x -> bits_val (le_bits 255 b) mod pmod = x.
  Proof.
    intros b x Hx (R & V). rewrite bits_val_le_bits by exact R. pose proof pmod_pos as PP.
    apply vanishes_eq; [apply Z.mod_pos_bound; exact PP|exact Hx|].
    replace (b mod pmod - x) with ((b - x) + - (b - b mod pmod)) by ring.
    apply vanishes_add; [exact V|]. apply vanishes_opp, vanishes_mod.
  Qed.

  Lemma merkle_sound : forall layers l node root, is_base node ->
    merkle_chip "z.cash:Orchard-MerkleCRH" (Z.of_nat l) node layers root ->
    path_valid l node (map (fun m => (ml_sibling m, ml_swap m)) layers) root \/
    exists Q ws, In (Q, ws) (layer_hashes (Z.of_nat l) layers) /\ sins_exception Q ws.
  Proof.
    induction layers as [|m layers IH]; intros l node root Hn H.
    - left. exact H.
    - cbn [merkle_chip] in H. destruct H as (Hs & (RL & RR & P & HP & HO) & H).
      assert (Ho : is_base (ml_out m)) by (rewrite HO; apply (x_range L)).
      replace (Z.of_nat l + 1) with (Z.of_nat (S l)) in H by lia.
      cbn [layer_hashes map path_valid]. replace (Z.of_nat l + 1) with (Z.of_nat (S l)) by lia.
      unfold hash_chip in HP.
      destruct (sins_hash_words (sins_Q "z.cash:Orchard-MerkleCRH") (layer_words (Z.of_nat l) m)) as [P'|] eqn:E.
      + specialize (HP P' eq_refl). subst P'. destruct (IH _ _ _ Ho H) as [X|(Q & ws & I & X)].
        * left. exists (le_bits 255 (ml_left m)), (le_bits 255 (ml_right m)), (ml_out m).
          split; [apply le_bits_length|]. split; [apply le_bits_length|].
          split; [apply represents_bits; [destruct (ml_swap m); assumption|exact RL]|].
          split; [apply represents_bits; [destruct (ml_swap m); assumption|exact RR]|].
          split; [|exact X]. unfold sins_hash, sins_hash_to_point. unfold layer_words in E.
          rewrite E, HO. reflexivity.
        * right. exists Q, ws. split; [right; exact I|exact X].
      + right. eexists _, _. split; [left; reflexivity|]. apply (hash_words_none L); [apply msg_words_range|exact E].
  Qed.

  Lemma merkle_root_base : forall layers domain l node root, is_base node ->
    merkle_chip domain l node layers root -> is_base root.
  Proof.
    induction layers as [|m layers IH]; intros domain l node root Hn H.
    - cbn [merkle_chip] in H. subst root. exact Hn.
    - cbn [merkle_chip] in H. destruct H as (_ & (_ & _ & P & _ & HO) & H).
      apply (IH domain (l + 1) (ml_out m)); [rewrite HO; apply (x_range L)|exact H].
  Qed.

  (** The native root: every layer's hash is defined, or the native code itself met bottom. *)
  Lemma swap_bit : forall pos l, 0 <= pos -> Z.odd (pos / 2 ^ Z.of_nat l) = negb (Z.land pos (2 ^ Z.of_nat l) =? 0).
  Proof. intros pos l H. rewrite land_even, Z.negb_even. reflexivity. Qed.

  Lemma represents_self : forall x, is_base x -> represents x x.
  Proof. intros x H. pose proof pmod_lt_pow255. unfold is_base in H. split; [lia|apply vanishes_id]. Qed.

  Lemma honest_layers_spec : forall sibs pos l node, is_base node -> Forall is_base sibs -> 0 <= pos ->
    let path := List.combine sibs (le_bits (length sibs) (pos / 2 ^ Z.of_nat l)) in
    (exists layers, honest_layers (Z.of_nat l) node path = Some (layers, root_loop pos l node sibs) /\
       length layers = length sibs /\ map (fun m => (ml_sibling m, ml_swap m)) layers = path /\
       merkle_chip "z.cash:Orchard-MerkleCRH" (Z.of_nat l) node layers (root_loop pos l node sibs)) \/
    (exists h a b, In (h, a, b) (root_inputs pos l node sibs) /\
       sins_hash "z.cash:Orchard-MerkleCRH" (merkle_msg h a b) = None).
  Proof.
    induction sibs as [|s sibs IH]; intros pos l node Hn Hs Hp path; subst path.
    - left. exists []. cbn. auto 6.
    - apply Forall_cons_iff in Hs as [Hs HS]. cbn [length le_bits List.combine honest_layers root_inputs root_loop].
      assert (HD : pos / 2 ^ Z.of_nat l / 2 = pos / 2 ^ Z.of_nat (S l)).
      { pose proof (pow2_pos l). rewrite Z.div_div by lia. f_equal. rewrite pow2_S. ring. }
      rewrite HD. replace (Z.of_nat l + 1) with (Z.of_nat (S l)) by lia. cbv zeta. unfold layer_words. cbn [ml_left ml_right].
      rewrite land_even. rewrite <- Z.negb_even.
      set (ev := Z.even (pos / 2 ^ Z.of_nat l)).
      set (lt := if negb ev then s else node). set (rt := if negb ev then node else s).
      assert (HL : is_base lt) by (unfold lt; destruct ev; assumption).
      assert (HR : is_base rt) by (unfold rt; destruct ev; assumption).
      assert (E1 : (if ev then (node, s) else (s, node)) = (lt, rt)) by (unfold lt, rt; destruct ev; reflexivity).
      assert (E2 : (if ev then combine l node s else combine l s node) = combine l lt rt)
        by (unfold lt, rt; destruct ev; reflexivity).
      rewrite E1, E2. cbn [fst snd].
      destruct (sins_hash_words (sins_Q "z.cash:Orchard-MerkleCRH")
                  (msg_words (le_bits 10 (Z.of_nat l) ++ le_bits 255 lt ++ le_bits 255 rt))) as [P|] eqn:E.
      + assert (EC : combine l lt rt = pt_x P).
        { unfold combine, sins_hash, sins_hash_to_point, merkle_msg. rewrite E. reflexivity. }
        cbn [optbind]. rewrite EC.
        destruct (IH pos (S l) (pt_x P) (x_range L P) HS Hp) as [(ms & H1 & H2 & H4 & H3)|(h & a & b & I & X)].
        * left. rewrite H1. cbn [optbind]. eexists. split; [reflexivity|]. split; [cbn [length]; congruence|].
          split; [cbn [map ml_sibling ml_swap]; rewrite H4; reflexivity|].
          cbn [merkle_chip ml_sibling ml_swap ml_out]. split; [exact Hs|].
          replace (Z.of_nat l + 1) with (Z.of_nat (S l)) by lia. split; [|exact H3].
          unfold hash_layer. cbn [ml_left ml_right ml_out]. fold lt rt.
          split; [apply represents_self; exact HL|]. split; [apply represents_self; exact HR|].
          exists P. split; [|reflexivity]. unfold hash_chip, layer_words. cbn [ml_left ml_right]. intros P' E'. congruence.
        * right. exists h, a, b. split; [right; exact I|exact X].
      + right. exists l, lt, rt. split; [left; reflexivity|].
        unfold sins_hash, sins_hash_to_point, merkle_msg. rewrite E. reflexivity.
  Qed.

  (** * The whole circuit (C49, C50) *)

  Lemma scalar_mod : forall x, is_scalar (x mod qmod).
  Proof. intro x. apply Z.mod_pos_bound. apply qmod_pos. Qed.

  Lemma combine_map : forall (A B D : Type) (f : A -> B) (g : A -> D) l,
    List.combine (map f l) (map g l) = map (fun x => (f x, g x)) l.
  Proof. induction l as [|x l IH]; [reflexivity|]. cbn [map List.combine]. rewrite IH. reflexivity. Qed.

  Lemma combine_inj : forall (A B : Type) (a a' : list A) (b b' : list B),
    length a = length b -> length a = length a' -> length a' = length b' ->
    List.combine a b = List.combine a' b' -> a = a' /\ b = b'.
  Proof.
    induction a as [|x a IH]; intros [|x' a'] [|y b] [|y' b'] L1 L2 L3 H; try discriminate; [split; reflexivity|].
    cbn [List.combine] in H. assert (x = x' /\ y = y' /\ List.combine a b = List.combine a' b') as (-> & -> & H') by (split; [|split]; congruence).
    destruct (IH a' b b') as [-> ->]; cbn [length] in *; try congruence. split; reflexivity.
  Qed.

  Lemma merkle_siblings : forall layers domain l node root,
    merkle_chip domain l node layers root -> Forall is_base (map ml_sibling layers).
  Proof.
    induction layers as [|m layers IH]; intros domain l node root H; [constructor|].
    cbn [merkle_chip] in H. destruct H as (A & _ & H). cbn [map]. constructor; [exact A|].
    exact (IH _ _ _ _ H).
  Qed.

  Lemma b2z_base : forall b, is_base (Z.b2z b).
  Proof. intro b. apply base_of_lt. destruct b; cbn; lia. Qed.

  Theorem circuit_sound : forall i inst k, is_base (i_anchor i) -> to_halo2_instance i = Ret inst ->
    circuit_sat inst k -> action_statement i (cells_witness k) \/ undefined_hash k.
  Proof.
    intros i inst k Ha HI S. rewrite (halo2_instance_ret L) in HI.
    destruct (pt_is_id (i_rk i)); [discriminate HI|].
    assert (E : inst = [i_anchor i; pt_x (i_cv_net i); pt_y (i_cv_net i); i_nf_old i; pt_x (i_rk i); pt_y (i_rk i);
              i_cmx i; Z.b2z (i_enable_spend i); Z.b2z (i_enable_output i)]) by congruence. clear HI. subst inst.
    destruct S as [S1 S2 S3 S4 S5 S6 S7 S8 S9 S10 S11 S12 S13 S14 S15 S16 S17 S18 S19 S20 S21 S22 S23 S24 S25 S26 S27 S28].
    cbn [nth ANCHOR CV_NET_X CV_NET_Y NF_OLD RK_X RK_Y CMX ENABLE_SPEND ENABLE_OUTPUT] in *.
    destruct S10 as (cv & (M1 & M2 & M3 & M4) & CX & CY).
    pose proof (coords_inj L _ _ CX CY) as CV. clear CX CY. subst cv.
    pose proof (coords_inj L _ _ S14 S15) as RK. clear S14 S15.
    apply derive_nullifier_exact in S11; [|exact S1]. destruct S11 as (_ & NF).
    assert (Bnf : is_base (k_nf_old k)).
    { rewrite nf_derive_ret in NF. assert (X : k_nf_old k = pt_x (pt_add (pt_mul ((prf_nf (k_nk k) (k_rho_old k) + k_psi_old k) mod pmod) nullifier_K) (k_cm_old k))) by congruence.
      rewrite X. apply (x_range L). }
    destruct (note_commit_sound _ _ _ _ _ _ _ _ S6 S2 S1 S21) as (U1 & [N1|N1]);
      [|right; eexists _, _; split; [|exact N1]; unfold circuit_hashes; apply in_or_app; right; right; left; reflexivity].
    destruct (note_commit_sound _ _ _ _ _ _ _ _ S7 Bnf S24 S26) as (U2 & [N2|N2]);
      [|right; eexists _, _; split; [|exact N2]; unfold circuit_hashes; apply in_or_app; right; right; right; left; reflexivity].
    destruct (commit_ivk_sound _ _ _ _ _ (x_range L _) S5 S17) as [IV|IV];
      [|right; eexists _, _; split; [|exact IV]; unfold circuit_hashes; apply in_or_app; right; left; reflexivity].
    pose proof (merkle_root_base _ _ _ _ _ (x_range L _) S9) as Br.
    apply orchard_gate_iff in S28; try assumption; try apply b2z_base.
    destruct S28 as (EQ & AN & ES & EO).
    destruct (merkle_sound _ 0%nat _ _ (x_range L _) S9) as [MP|(Q & ws & I & X)];
      [|right; exists Q, ws; split; [unfold circuit_hashes; apply in_or_app; left; exact I|exact X]].
    pose proof (merkle_siblings _ _ _ _ _ S9) as SB.
    left. constructor; cbn [cells_witness w_path w_pos w_g_d_old w_pk_d_old w_v_old w_rho_old w_psi_old w_rcm_old w_cm_old
      w_alpha w_ak w_nk w_rivk w_g_d_new w_pk_d_new w_v_new w_psi_new w_rcm_new w_rcv].
    - auto using scalar_mod.
    - auto using scalar_mod.
    - auto using scalar_mod.
    - split; [rewrite map_length; exact S8|]. split; [exact SB|].
      pose proof (bits_val_range (map ml_swap (k_layers k))) as R. rewrite map_length, S8 in R. exact R.
    - split; assumption.
    - exact N1.
    - destruct AN as [AN|AN]; [left; exact AN|right]. rewrite <- AN. unfold witness_path. cbn [w_path w_pos cells_witness].
      rewrite le_bits_bits_val by (rewrite map_length; exact S8). rewrite combine_map. exact MP.
    - rewrite EQ. apply (proj1 (value_commit_exact _ _ _ _ M1 M2 M3)).
      split; [exact M1|]. split; [exact M2|]. split; [exact M3|symmetry; exact CV].
    - rewrite <- S12. exact NF.
    - unfold vk_randomize. rewrite (mul_mod L), (add_comm L). symmetry. exact RK.
    - exists (k_ivk k). split; [exact IV|symmetry; exact S19].
    - exists (k_cm_new k). rewrite <- S12. split; [exact N2|]. symmetry. exact S27.
    - destruct ES as [ES|ES]; [left; exact ES|right]. destruct (i_enable_spend i); [reflexivity|discriminate ES].
    - destruct EO as [EO|EO]; [left; exact EO|right]. destruct (i_enable_output i); [reflexivity|discriminate EO].
  Qed.

  Lemma scalar_fixed_of : forall x, is_scalar x -> scalar_fixed x.
  Proof. intros x H. pose proof qmod_lt_pow255. unfold is_scalar, scalar_fixed in *. lia. Qed.

  (** Completeness for any statement whose Merkle path is checked with the native root. *)
  Theorem circuit_complete : forall i inst w, is_base (i_anchor i) -> to_halo2_instance i = Ret inst ->
    action_statement i w ->
    (w_v_old w = 0 \/ mp_root (mk_path (w_pos w) (w_path w)) (pt_x (w_cm_old w)) = i_anchor i) ->
    (exists k, synthesize w = Some k /\ circuit_sat inst k /\ cells_witness k = w) \/
    (exists h a b, In (h, a, b) (root_inputs (w_pos w) 0 (pt_x (w_cm_old w)) (w_path w)) /\
       sins_hash "z.cash:Orchard-MerkleCRH" (merkle_msg h a b) = None).
  Proof.
    intros i inst w Ha HI S HM. rewrite (halo2_instance_ret L) in HI.
    destruct (pt_is_id (i_rk i)); [discriminate HI|].
    assert (E : inst = [i_anchor i; pt_x (i_cv_net i); pt_y (i_cv_net i); i_nf_old i; pt_x (i_rk i); pt_y (i_rk i);
              i_cmx i; Z.b2z (i_enable_spend i); Z.b2z (i_enable_output i)]) by congruence. clear HI. subst inst.
    destruct S as [(T1 & T2 & T3 & T4 & T5) (T6 & T7 & T8 & T9 & T10) (T11 & T12 & T13 & T14) (T15 & T16 & T17) (U1 & U2)
                   CM _ CV NF RK (ivk & IV & PK) (cm & CN & CX) ES EO].
    destruct (honest_layers_spec (w_path w) (w_pos w) 0 (pt_x (w_cm_old w)) (x_range L _) T16 (proj1 T17))
      as [(layers & HL & LL & LP & MC)|X]; [|right; exact X]. left.
    change (2 ^ Z.of_nat 0) with 1 in HL. rewrite Z.div_1_r, T15 in HL, LP. change (Z.of_nat 0) with 0 in HL, MC.
    assert (VS : value_sum_ok (w_v_old w - w_v_new w)) by (unfold is_u64, value_sum_ok in *; lia).
    destruct (short_value_onto _ VS) as (m & s & Hm & Hs & HV & HMS).
    destruct (commit_ivk_complete _ _ _ _ (x_range L _) T7 IV) as (P & HP & Eivk & IC).
    destruct (note_commit_complete _ _ _ _ _ _ _ U1 T3 T4 CM) as (HO & OC).
    assert (Bnf : is_base (i_nf_old i)).
    { rewrite nf_derive_ret in NF. assert (X : i_nf_old i = pt_x (pt_add (pt_mul ((prf_nf (w_nk w) (w_rho_old w) + w_psi_old w) mod pmod) nullifier_K) (w_cm_old w))) by congruence.
      rewrite X. apply (x_range L). }
    destruct (note_commit_complete _ _ _ _ _ _ _ U2 Bnf T13 CN) as (HN & NC).
    pose proof (proj2 (derive_nullifier_exact _ _ (w_cm_old w) (w_nk w) _ _ T4) (conj eq_refl NF)) as DN.
    pose proof (proj2 (proj2 DN)) as EN. rewrite EN in HN, NC, DN.
    unfold synthesize. change merkle_depth with 32%nat. rewrite HL. cbn [optbind]. cbv zeta. rewrite HMS.
    replace (match (if s =? 1 then Positive else Negative) with
             | Positive => Some (m, 1) | Negative => Some (m, pmod - 1) end) with (Some (m, s))
      by (destruct Hs as [-> | ->]; [reflexivity|rewrite (proj2 (Z.eqb_neq _ _) pmod_neq); reflexivity]).
    cbn [optbind]. rewrite HP. cbn [optbind]. rewrite HO. cbn [optbind]. rewrite HN. cbn [optbind].
    eexists. split; [reflexivity|].
    split.
    - constructor; cbn [k_psi_old k_rho_old k_cm_old k_g_d_old k_ak k_nk k_v_old k_v_new k_layers k_root k_magnitude k_sign
        k_rcv k_scalar k_nf_old k_alpha k_rivk k_ivk_cells k_ivk k_pk_d_old k_rcm_old k_nc_old k_g_d_new k_pk_d_new
        k_psi_new k_rcm_new k_nc_new k_cm_new nth ANCHOR CV_NET_X CV_NET_Y NF_OLD RK_X RK_Y CMX ENABLE_SPEND ENABLE_OUTPUT].
      + exact T4.
      + exact T3.
      + exact T1.
      + exact T6.
      + exact T7.
      + exact (u64_base _ U1).
      + exact (u64_base _ U2).
      + rewrite LL. exact T15.
      + exact MC.
      + exists (i_cv_net i). split; [|split; reflexivity].
        pose proof (scalar_fixed_of _ T10) as F. apply (proj2 (value_commit_exact _ _ _ _ Hm Hs F)).
        rewrite HV, (Z.mod_small _ _ T10). exact CV.
      + exact DN.
      + symmetry. exact EN.
      + exact (scalar_fixed_of _ T9).
      + rewrite RK. unfold vk_randomize. rewrite (add_comm L). reflexivity.
      + rewrite RK. unfold vk_randomize. rewrite (add_comm L). reflexivity.
      + exact (scalar_fixed_of _ T8).
      + rewrite <- Eivk. exact IC.
      + exact T2.
      + rewrite <- Eivk. symmetry. exact PK.
      + exact (scalar_fixed_of _ T5).
      + exact OC.
      + exact T11.
      + exact T12.
      + exact T13.
      + exact (scalar_fixed_of _ T14).
      + exact NC.
      + symmetry. exact CX.
      + apply orchard_gate_iff; [exact U1|exact U2|exact Hm|exact Hs| |exact Ha|apply b2z_base|apply b2z_base|].
        * apply (merkle_root_base _ _ _ _ _ (x_range L _) MC).
        * split; [symmetry; exact HV|].
          split; [destruct HM as [HM|HM]; [left; exact HM|right; exact HM]|].
          split; [destruct ES as [ES|ES]; [left; exact ES|right; rewrite ES; reflexivity]|].
          destruct EO as [EO|EO]; [left; exact EO|right; rewrite EO; reflexivity].
    - unfold cells_witness. cbn [k_psi_old k_rho_old k_cm_old k_g_d_old k_ak k_nk k_v_old k_v_new k_layers k_root k_magnitude k_sign
        k_rcv k_scalar k_nf_old k_alpha k_rivk k_ivk_cells k_ivk k_pk_d_old k_rcm_old k_nc_old k_g_d_new k_pk_d_new
        k_psi_new k_rcm_new k_nc_new k_cm_new].
      rewrite (Z.mod_small _ _ T5), (Z.mod_small _ _ T8), (Z.mod_small _ _ T9), (Z.mod_small _ _ T10), (Z.mod_small _ _ T14).
      rewrite <- combine_map in LP.
      assert (LB : length (le_bits 32 (w_pos w)) = length (w_path w)) by (rewrite le_bits_length, T15; reflexivity).
      apply combine_inj in LP; [|rewrite !map_length; reflexivity|rewrite map_length, LL; reflexivity|symmetry; exact LB].
      destruct LP as [-> ->]. rewrite bits_val_le_bits by exact T17. destruct w; reflexivity.
  Qed.
End Facts.
