(** Flags, action counts, field-element codecs, bit strings. *)
From Coq Require Import String ZArith List Bool Lia Permutation.
From Coq Require Import Init.Byte.
From Verif Require Import Prelude Fields Curve Oracles Sinsemilla RedPallas Value Keys Note Tree Action
  NoteEnc Bundle Builder PreludeFacts NumTheory CurveFacts Spec.
Import ListNotations.
Open Scope Z_scope.

(** * Flags *)

Lemma in_bytes_range : forall b, 0 <= b < 256 -> In b (map Z.of_nat (seq 0 256)).
Proof.
  intros b H. apply in_map_iff. exists (Z.to_nat b). split; [lia|]. apply in_seq. lia.
Qed.

Lemma forall_byte_values : forall P : Z -> bool,
  forallb P (map Z.of_nat (seq 0 256)) = true -> forall b, 0 <= b < 256 -> P b = true.
Proof.
  intros P H b Hb. rewrite forallb_forall in H. apply H. apply in_bytes_range. exact Hb.
Qed.

Definition flags_eqb (f g : flags) : bool :=
  Bool.eqb (spends_enabled f) (spends_enabled g) && Bool.eqb (outputs_enabled f) (outputs_enabled g).

Lemma flags_to_byte_spec : forall f,
  flags_to_byte f = (if spends_enabled f then 1 else 0) + (if outputs_enabled f then 2 else 0).
Proof. intros [[] []]; reflexivity. Qed.

Lemma flags_roundtrip : forall f, flags_from_byte (flags_to_byte f) = Some f.
Proof. intros [[] []]; reflexivity. Qed.

Lemma flags_from_byte_spec : forall b, 0 <= b < 256 ->
  flags_from_byte b = if b <? 4 then Some (mk_flags (Z.testbit b 0) (Z.testbit b 1)) else None.
Proof.
  intros b Hb.
  pose (P := fun b => match flags_from_byte b, (if b <? 4 then Some (mk_flags (Z.testbit b 0) (Z.testbit b 1)) else None) with
                      | Some f, Some g => flags_eqb f g | None, None => true | _, _ => false end).
  assert (H : P b = true) by (apply forall_byte_values; [vm_compute; reflexivity|exact Hb]).
  unfold P in H. destruct (flags_from_byte b) as [[s o]|], (b <? 4); try discriminate H; [|reflexivity].
  unfold flags_eqb in H. cbn in H. apply andb_true_iff in H as [H1 H2].
  apply eqb_prop in H1, H2. cbn [Z.testbit]. congruence.
Qed.

Lemma flags_from_to : forall b f, 0 <= b < 256 -> flags_from_byte b = Some f -> flags_to_byte f = b.
Proof.
  intros b f Hb H. rewrite flags_from_byte_spec in H by exact Hb.
  destruct (Z.ltb_spec b 4) as [L|L]; [|discriminate H]. injection H as <-.
  assert (b = 0 \/ b = 1 \/ b = 2 \/ b = 3) as [E|[E|[E|E]]] by lia; rewrite E; reflexivity.
Qed.

(** * 32-byte field elements *)

Lemma to_repr_length : forall x, length (to_repr x) = 32%nat.
Proof. intro. apply le_bytes_length. Qed.

Lemma base_pow : forall x, is_base x -> 0 <= x < 256 ^ Z.of_nat 32.
Proof. unfold is_base. intros x H. rewrite pow256_32. pose proof pmod_lt_pow255. lia. Qed.
Lemma scalar_pow : forall x, is_scalar x -> 0 <= x < 256 ^ Z.of_nat 32.
Proof. unfold is_scalar. intros x H. rewrite pow256_32. pose proof qmod_lt_pow255. lia. Qed.

Lemma base_from_to : forall x, is_base x -> base_from_repr (to_repr x) = Some x.
Proof.
  intros x H. unfold base_from_repr, to_repr. rewrite le_val_le_bytes by (apply base_pow; exact H).
  rewrite (proj2 (Z.ltb_lt _ _)) by apply H. reflexivity.
Qed.
Lemma scalar_from_to : forall x, is_scalar x -> scalar_from_repr (to_repr x) = Some x.
Proof.
  intros x H. unfold scalar_from_repr, to_repr. rewrite le_val_le_bytes by (apply scalar_pow; exact H).
  rewrite (proj2 (Z.ltb_lt _ _)) by apply H. reflexivity.
Qed.
Lemma base_to_from : forall b x, length b = 32%nat -> base_from_repr b = Some x ->
  is_base x /\ to_repr x = b.
Proof.
  unfold base_from_repr, is_base. intros b x HL H.
  destruct (Z.ltb_spec (le_val b) pmod) as [R|R]; [|discriminate H]. injection H as <-.
  pose proof (le_val_range b). split; [lia|]. apply le_bytes_le_val. exact HL.
Qed.
Lemma scalar_to_from : forall b x, length b = 32%nat -> scalar_from_repr b = Some x ->
  is_scalar x /\ to_repr x = b.
Proof.
  unfold scalar_from_repr, is_scalar. intros b x HL H.
  destruct (Z.ltb_spec (le_val b) qmod) as [R|R]; [|discriminate H]. injection H as <-.
  pose proof (le_val_range b). split; [lia|]. apply le_bytes_le_val. exact HL.
Qed.
Lemma base_from_none : forall b, length b = 32%nat ->
  (base_from_repr b = None <-> pmod <= le_val b).
Proof.
  intros b HL. unfold base_from_repr. destruct (Z.ltb_spec (le_val b) pmod) as [R|R]; split; intro H; try reflexivity; try assumption; [discriminate H|lia].
Qed.
Lemma to_repr_inj_base : forall x y, is_base x -> is_base y -> to_repr x = to_repr y -> x = y.
Proof. intros x y Hx Hy H. apply (le_bytes_inj 32); try (apply base_pow; assumption). exact H. Qed.
Lemma to_repr_inj_scalar : forall x y, is_scalar x -> is_scalar y -> to_repr x = to_repr y -> x = y.
Proof. intros x y Hx Hy H. apply (le_bytes_inj 32); try (apply scalar_pow; assumption). exact H. Qed.

Lemma base_codec : canonical_codec is_base to_repr base_from_repr.
Proof.
  split; [|split].
  - intros x H. split; [apply to_repr_length|apply base_from_to; exact H].
  - exact base_to_from.
  - exact to_repr_inj_base.
Qed.
Lemma scalar_codec : canonical_codec is_scalar to_repr scalar_from_repr.
Proof.
  split; [|split].
  - intros x H. split; [apply to_repr_length|apply scalar_from_to; exact H].
  - exact scalar_to_from.
  - exact to_repr_inj_scalar.
Qed.

Lemma point_codec : forall C, CurveLaws C -> canonical_codec (fun _ : point => True) pt_encode pt_decode.
Proof.
  intros C L. split; [|split].
  - intros x _. split; [apply encode_length|apply (decode_encode L)].
  - intros b x HL H. split; [exact I|]. apply (encode_decode L); assumption.
  - intros x y _ _. apply (encode_inj L).
Qed.

Lemma nonid_codec : forall C, CurveLaws C ->
  canonical_codec (fun P : point => P <> pt_id) pt_encode nonid_from_bytes.
Proof.
  intros C L. split; [|split].
  - intros x H. split; [apply encode_length|]. unfold nonid_from_bytes. rewrite (decode_encode L). cbn [optbind].
    rewrite (proj2 (is_id_false L x) H). reflexivity.
  - intros b x HL H. unfold nonid_from_bytes in H.
    destruct (pt_decode b) as [P|] eqn:E; [|discriminate H]. cbn [optbind] in H.
    destruct (pt_is_id P) eqn:EI; [discriminate H|]. injection H as <-.
    split; [apply (is_id_false L); exact EI|]. apply (encode_decode L); assumption.
  - intros x y _ _. apply (encode_inj L).
Qed.

Lemma mod_r_p_ret : forall x, is_base x -> mod_r_p x = Ret x.
Proof.
  intros x H. unfold mod_r_p. rewrite scalar_from_to; [reflexivity|].
  unfold is_base, is_scalar in *. pose proof pmod_lt_qmod. lia.
Qed.

Lemma to_base_range : forall b, is_base (to_base b).
Proof. intro b. unfold is_base, to_base. apply Z.mod_pos_bound. apply pmod_pos. Qed.
Lemma to_scalar_range : forall b, is_scalar (to_scalar b).
Proof. intro b. unfold is_scalar, to_scalar. apply Z.mod_pos_bound. apply qmod_pos. Qed.

(** * Bit strings *)

Lemma lebs2ip_loop_spec : forall bits i acc, 0 <= i -> 0 <= acc < 2 ^ i ->
  i + Z.of_nat (length bits) <= 64 ->
  lebs2ip_loop i acc bits = acc + 2 ^ i * bits_val bits.
Proof.
  induction bits as [|b bits IH]; intros i acc Hi Ha Hl; cbn [lebs2ip_loop bits_val length] in *.
  - lia.
  - assert (P : 2 ^ (i + 1) = 2 * 2 ^ i) by (rewrite Z.pow_add_r by lia; lia).
    assert (Q : 2 ^ (i + 1) <= 2 ^ 64) by (apply Z.pow_le_mono_r; lia).
    assert (E : (acc + (if b then 2 ^ i else 0)) mod 2 ^ 64 = acc + 2 ^ i * Z.b2z b).
    { rewrite Z.mod_small; destruct b; cbn [Z.b2z]; lia. }
    rewrite E, IH; [|lia|destruct b; cbn [Z.b2z]; lia|lia]. rewrite P. ring.
Qed.

Lemma lebs2ip_spec : forall bits, (length bits <= 64)%nat -> lebs2ip bits = Ret (bits_val bits).
Proof.
  intros bits H. unfold lebs2ip. rewrite (proj2 (Nat.leb_le _ _) H). cbn [assert_ obind].
  rewrite lebs2ip_loop_spec; [f_equal; lia|lia|cbn; lia|lia].
Qed.

Lemma lebs2ip_k_loop_spec : forall bits i acc, 0 <= i -> 0 <= acc < 2 ^ i ->
  i + Z.of_nat (length bits) <= 32 ->
  lebs2ip_k_loop i acc bits = acc + 2 ^ i * bits_val bits.
Proof.
  induction bits as [|b bits IH]; intros i acc Hi Ha Hl; cbn [lebs2ip_k_loop bits_val length] in *.
  - lia.
  - assert (P : 2 ^ (i + 1) = 2 * 2 ^ i) by (rewrite Z.pow_add_r by lia; lia).
    assert (Q : 2 ^ (i + 1) <= 2 ^ 32) by (apply Z.pow_le_mono_r; lia).
    assert (E : (acc + (if b then 2 ^ i else 0)) mod 2 ^ 32 = acc + 2 ^ i * Z.b2z b).
    { rewrite Z.mod_small; destruct b; cbn [Z.b2z]; lia. }
    rewrite E, IH; [|lia|destruct b; cbn [Z.b2z]; lia|lia]. rewrite P. ring.
Qed.

Lemma lebs2ip_k_spec : forall bits, length bits = 10%nat -> lebs2ip_k bits = Ret (bits_val bits).
Proof.
  intros bits H. unfold lebs2ip_k, sinsemilla_k. rewrite H. cbn [Nat.eqb assert_ obind].
  rewrite lebs2ip_k_loop_spec; [f_equal; lia|lia|cbn; lia|rewrite H; lia].
Qed.

Lemma land_pow2_testbit : forall v i, 0 <= i -> negb (Z.land v (2 ^ i) =? 0) = Z.testbit v i.
Proof.
  intros v i Hi. rewrite Z.land_comm.
  destruct (Z.testbit v i) eqn:T.
  - apply negb_true_iff, Z.eqb_neq. intro H.
    assert (X : Z.testbit (Z.land (2 ^ i) v) i = true)
      by (rewrite Z.land_spec, Z.pow2_bits_true, T by lia; reflexivity).
    rewrite H, Z.bits_0 in X. discriminate X.
  - apply negb_false_iff, Z.eqb_eq. apply Z.bits_inj'. intros n Hn.
    rewrite Z.land_spec, Z.bits_0, Z.pow2_bits_eqb by lia.
    destruct (Z.eqb_spec i n) as [<-|]; [rewrite T; reflexivity|reflexivity].
Qed.

Lemma le_bits_testbit : forall n v, le_bits n v = map (fun i => Z.testbit v (Z.of_nat i)) (seq 0 n).
Proof.
  induction n as [|n IH]; intro v; [reflexivity|].
  cbn [le_bits seq map]. rewrite Z.bit0_odd. f_equal. rewrite IH, <- seq_shift, map_map.
  apply map_ext. intro i. rewrite <- Z.div2_div, Z.div2_spec, Z.shiftr_spec by lia. f_equal. lia.
Qed.

Lemma i2lebsp_spec : forall n v, (n <= 64)%nat -> i2lebsp n v = Ret (le_bits n v).
Proof.
  intros n v H. unfold i2lebsp. rewrite (proj2 (Nat.leb_le _ _) H). cbn [assert_ obind].
  f_equal. rewrite le_bits_testbit. apply map_ext. intro i. apply land_pow2_testbit. lia.
Qed.

Lemma i2lebsp_panics : forall n v, (64 < n)%nat -> exists w, i2lebsp n v = Panic w.
Proof.
  intros n v H. unfold i2lebsp. rewrite (proj2 (Nat.leb_gt _ _) H). eexists. reflexivity.
Qed.
Lemma lebs2ip_panics : forall bits, (64 < length bits)%nat -> exists w, lebs2ip bits = Panic w.
Proof.
  intros bits H. unfold lebs2ip. rewrite (proj2 (Nat.leb_gt _ _) H). eexists. reflexivity.
Qed.
Lemma lebs2ip_k_panics : forall bits, length bits <> 10%nat -> exists w, lebs2ip_k bits = Panic w.
Proof.
  intros bits H. unfold lebs2ip_k, sinsemilla_k. rewrite (proj2 (Nat.eqb_neq _ _) H). eexists. reflexivity.
Qed.
Lemma i2lebsp_k_spec : forall v, v < 2 ^ 10 -> i2lebsp_k v = Ret (le_bits 10 v).
Proof.
  intros v H. unfold i2lebsp_k. rewrite (proj2 (Z.ltb_lt _ _) H). cbn [assert_ obind].
  apply i2lebsp_spec. unfold sinsemilla_k. lia.
Qed.
Lemma i2lebsp_k_panics : forall v, 2 ^ 10 <= v -> exists w, i2lebsp_k v = Panic w.
Proof.
  intros v H. unfold i2lebsp_k. rewrite (proj2 (Z.ltb_ge _ _) H). eexists. reflexivity.
Qed.

Lemma bits_roundtrip : forall n v bits, (n <= 64)%nat -> 0 <= v < 2 ^ Z.of_nat n ->
  i2lebsp n v = Ret bits -> lebs2ip bits = Ret v.
Proof.
  intros n v bits Hn Hv H. rewrite i2lebsp_spec in H by exact Hn. injection H as <-.
  rewrite lebs2ip_spec by (rewrite le_bits_length; exact Hn).
  rewrite bits_val_le_bits by exact Hv. reflexivity.
Qed.
Lemma bits_roundtrip_rev : forall bits v, (length bits <= 64)%nat ->
  lebs2ip bits = Ret v -> 0 <= v < 2 ^ Z.of_nat (length bits) /\ i2lebsp (length bits) v = Ret bits.
Proof.
  intros bits v Hn H. rewrite lebs2ip_spec in H by exact Hn. injection H as <-. split.
  - apply bits_val_range.
  - rewrite i2lebsp_spec by exact Hn. f_equal. apply le_bits_bits_val. reflexivity.
Qed.
Lemma k_roundtrip : forall v bits, 0 <= v < 2 ^ 10 -> i2lebsp_k v = Ret bits ->
  length bits = 10%nat /\ lebs2ip_k bits = Ret v.
Proof.
  intros v bits Hv H. rewrite i2lebsp_k_spec in H by lia.
  assert (bits = le_bits 10 v) by congruence. subst bits.
  assert (HL : length (le_bits 10 v) = 10%nat) by apply le_bits_length.
  split; [exact HL|]. rewrite lebs2ip_k_spec by exact HL.
  rewrite bits_val_le_bits by exact Hv. reflexivity.
Qed.
Lemma k_roundtrip_rev : forall bits v, length bits = 10%nat -> lebs2ip_k bits = Ret v ->
  0 <= v < 2 ^ 10 /\ i2lebsp_k v = Ret bits.
Proof.
  intros bits v HL H. rewrite lebs2ip_k_spec in H by exact HL. injection H as <-.
  pose proof (bits_val_range bits) as R. rewrite HL in R. change (2 ^ Z.of_nat 10) with (2 ^ 10) in R.
  split; [exact R|]. rewrite i2lebsp_k_spec by lia. f_equal. apply le_bits_bits_val. exact HL.
Qed.

(** * Permutations *)

Lemma set_nth_length : forall A i (x : A) l, length (set_nth i x l) = length l.
Proof. intros A i x l. revert i. induction l as [|a l IH]; intros [|i]; cbn [set_nth length]; auto. Qed.

Lemma set_nth_split : forall A (l : list A) i a, nth_error l i = Some a ->
  exists l1 l2, l = l1 ++ a :: l2 /\ length l1 = i /\ forall x, set_nth i x l = l1 ++ x :: l2.
Proof.
  induction l as [|b l IH]; intros [|i] a H; cbn [nth_error] in H; try discriminate H.
  - injection H as ->. exists [], l. split; [reflexivity|]. split; reflexivity.
  - destruct (IH i a H) as (l1 & l2 & E & EL & ES). exists (b :: l1), l2. subst l. split; [reflexivity|].
    split; [cbn; lia|]. intro x. cbn [set_nth]. rewrite ES. reflexivity.
Qed.

Lemma set_nth_same : forall A (l : list A) i a, nth_error l i = Some a -> set_nth i a l = l.
Proof.
  intros A l i a H. destruct (set_nth_split A l i a H) as (l1 & l2 & E & _ & ES). rewrite ES. symmetry. exact E.
Qed.

Lemma nth_error_set_nth_eq : forall A (l : list A) i x, (i < length l)%nat -> nth_error (set_nth i x l) i = Some x.
Proof.
  induction l as [|a l IH]; intros [|i] x H; cbn [length set_nth nth_error] in *; try lia; [reflexivity|apply IH; lia].
Qed.
Lemma nth_error_set_nth_neq : forall A (l : list A) i j x, i <> j -> nth_error (set_nth i x l) j = nth_error l j.
Proof.
  induction l as [|a l IH]; intros [|i] [|j] x H; cbn [set_nth nth_error]; try reflexivity; try lia.
  apply IH. lia.
Qed.

Lemma swap_permutation : forall A i j (l : list A), Permutation (swap i j l) l.
Proof.
  intros A i j l. unfold swap.
  destruct (nth_error l i) as [a|] eqn:Ei; [|reflexivity].
  destruct (nth_error l j) as [b|] eqn:Ej; [|reflexivity].
  destruct (Nat.eq_dec i j) as [->|NE].
  - rewrite Ei in Ej. injection Ej as <-. rewrite (set_nth_same A l j a Ei), set_nth_same by exact Ei. reflexivity.
  - destruct (set_nth_split A l j b Ej) as (l1 & l2 & E & EL & ES). rewrite ES.
    assert (E' : nth_error (l1 ++ a :: l2) i = Some a).
    { rewrite <- (ES a). rewrite nth_error_set_nth_neq by congruence. exact Ei. }
    (* the multiset is that of l with b replaced by a, then an a (position i) replaced by b *)
    destruct (set_nth_split A (l1 ++ a :: l2) i a E') as (m1 & m2 & F & FL & FS).
    rewrite FS. rewrite E.
    apply Permutation_trans with (b :: m1 ++ m2); [symmetry; apply Permutation_middle|].
    apply Permutation_trans with (b :: l1 ++ l2); [|apply Permutation_middle].
    constructor.
    apply (Permutation_cons_inv (a := a)).
    apply Permutation_trans with (m1 ++ a :: m2); [apply Permutation_middle|].
    rewrite <- F. symmetry. apply Permutation_middle.
Qed.

Section Shuffle.
  Context {C : Curve} {OR : @Oracles C}.
  Lemma shuffle_from_permutation : forall A i (l : list A) r, Permutation (fst (shuffle_from i l r)) l.
  Proof.
    induction i as [|i IH]; intros l r; cbn [shuffle_from].
    - reflexivity.
    - destruct (rng_below (S (S i)) r) as [j r']. rewrite IH. apply swap_permutation.
  Qed.
  Lemma shuffle_permutation : forall A (l : list A) r, Permutation (fst (shuffle l r)) l.
  Proof. intros. apply shuffle_from_permutation. Qed.

  (** No draw of the shuffle is out of bounds. *)
  Lemma rng_below_bound : forall n r, (0 < n)%nat -> (fst (rng_below n r) < n)%nat.
  Proof.
    intros n r H. unfold rng_below. destruct (o_rng_below r n) as [i r']. cbn [fst].
    apply Nat.mod_upper_bound. lia.
  Qed.
End Shuffle.

(** * Batched key derivation *)
Section Batch.
  Context {C : Curve} {OR : @Oracles C}.
  Lemma reinsert_filter : forall A (l : list (option A)), reinsert l (filter_some l) = l.
  Proof.
    induction l as [|[a|] l IH]; cbn [filter_some reinsert]; [reflexivity| |]; rewrite IH; reflexivity.
  Qed.
  Lemma batch_to_affine_id : forall l : list (option point), batch_to_affine l = l.
  Proof. intro l. unfold batch_to_affine, batch_normalize. rewrite map_id. apply reinsert_filter. Qed.
  Lemma combine_fst_snd : forall A B (l : list (A * B)), List.combine (map fst l) (map snd l) = l.
  Proof. induction l as [|[a b] l IH]; cbn; [reflexivity|]. rewrite IH. reflexivity. Qed.
  Lemma batch_kdf_pointwise : forall items : list (option point * bytes),
    batch_kdf items = map (fun it => match fst it with
                                     | Some s => Some (kdf_orchard s (snd it))
                                     | None => None end) items.
  Proof.
    intro items. unfold batch_kdf. rewrite batch_to_affine_id, combine_fst_snd.
    apply map_ext. intros [[s|] k]; reflexivity.
  Qed.
End Batch.

(** * num_actions *)
Lemma num_actions_spec : forall t ns no,
  let f := bt_flags t in
  match num_actions t ns no with
  | Err _ => (spends_enabled f = false /\ (0 < ns)%nat) \/ (outputs_enabled f = false /\ (0 < no)%nat)
  | Ok n =>
      (spends_enabled f = true \/ ns = 0%nat) /\ (outputs_enabled f = true \/ no = 0%nat) /\
      n = match t with
          | Coinbase => no
          | Transactional _ required =>
              if required || negb (Nat.eqb ns 0 && Nat.eqb no 0)
              then Nat.max 2 (Nat.max ns no) else 0%nat
          end
  end.
Proof.
  intros [[s o] req|] ns no; cbn [bt_flags num_actions spends_enabled outputs_enabled flags_spends_disabled].
  - destruct s, o, req, ns as [|ns], no as [|no]; cbn [negb andb orb Nat.ltb Nat.leb Nat.eqb]; rewrite ?Nat.max_0_l, ?Nat.max_0_r;
      cbn [Nat.ltb Nat.leb];
      unfold min_actions; try (repeat split; auto; lia); try (right; split; [reflexivity|lia]); try (left; split; [reflexivity|lia]).
    split; [auto|split; [auto|]]. 
    destruct (Nat.max (S ns) (S no)) eqn:EM; lia.
  - destruct ns as [|ns]; cbn [Nat.ltb Nat.leb].
    + repeat split; auto.
    + left. split; [reflexivity|lia].
Qed.
