(** Properties C05, C06, C29, C34, C43, C58. *)
From Coq Require Import String ZArith List Bool Lia Permutation.
From Coq Require Import Init.Byte.
From Verif Require Import Prelude Fields Curve Oracles Sinsemilla RedPallas Value Keys Note Tree Action
  NoteEnc Bundle Builder Spec CodecFacts KeyIndexFacts Toy ToyFacts.
Import ListNotations.
Open Scope Z_scope.

(** C05: the flags byte. Bit 0 is "spends enabled", bit 1 "outputs enabled", the rest zero. *)
Theorem C05_flags_byte :
  (forall f, flags_to_byte f = (if spends_enabled f then 1 else 0) + (if outputs_enabled f then 2 else 0)) /\
  (forall f, flags_from_byte (flags_to_byte f) = Some f) /\
  (forall b, 0 <= b < 256 ->
     flags_from_byte b = if b <? 4 then Some (mk_flags (Z.testbit b 0) (Z.testbit b 1)) else None) /\
  (forall b f, 0 <= b < 256 -> flags_from_byte b = Some f -> flags_to_byte f = b).
Proof. exact (conj flags_to_byte_spec (conj flags_roundtrip (conj flags_from_byte_spec flags_from_to))). Qed.
Print Assumptions C05_flags_byte.

Example C05_example :
  flags_from_byte 2 = Some (mk_flags false true) /\ flags_from_byte 4 = None /\ flags_from_byte 131 = None.
Proof. repeat split; reflexivity. Qed.

(** C05: the named sets of flags enable what their names say, and their bytes. *)
Theorem C05_named_flags :
  (spends_enabled flags_enabled = true /\ outputs_enabled flags_enabled = true /\
   flags_to_byte flags_enabled = 3) /\
  (spends_enabled flags_spends_disabled = false /\ outputs_enabled flags_spends_disabled = true /\
   flags_to_byte flags_spends_disabled = 2) /\
  (spends_enabled flags_outputs_disabled = true /\ outputs_enabled flags_outputs_disabled = false /\
   flags_to_byte flags_outputs_disabled = 1).
Proof. exact named_flags. Qed.
Print Assumptions C05_named_flags.

(** C06: the number of actions. *)
Theorem C06_num_actions : forall (t : bundle_type) (ns no : nat),
  let f := bt_flags t in
  match num_actions t ns no with
  | Err _ => (spends_enabled f = false /\ (0 < ns)%nat) \/ (outputs_enabled f = false /\ (0 < no)%nat)
  | Ok n =>
      (spends_enabled f = true \/ ns = 0%nat) /\ (outputs_enabled f = true \/ no = 0%nat) /\
      n = match t with
          | Coinbase => no
          | Transactional _ required =>
              if required || negb (Nat.eqb ns 0 && Nat.eqb no 0)
              then Nat.max 2 (Nat.max ns no) else 0%nat
          end
  end.
Proof. exact num_actions_spec. Qed.
Print Assumptions C06_num_actions.

(** C06: the named bundle types. The default one never refuses and adds no bundle nobody asked
    for; the disabled one accepts only an empty request; coinbase accepts outputs only and pads
    nothing. *)
Theorem C06_named_types : forall (ns no : nat),
  num_actions bt_default ns no = Ok (if Nat.eqb (ns + no) 0 then 0%nat else Nat.max 2 (Nat.max ns no)) /\
  (forall n, num_actions bt_disabled ns no = Ok n <-> (ns + no)%nat = 0%nat /\ n = 0%nat) /\
  (forall n, num_actions Coinbase ns no = Ok n <-> ns = 0%nat /\ n = no).
Proof. exact named_types. Qed.
Print Assumptions C06_named_types.

Example C06_example :
  num_actions bt_default 1 0 = Ok 2%nat /\ num_actions bt_default 0 0 = Ok 0%nat /\
  num_actions Coinbase 0 1 = Ok 1%nat /\ (exists e, num_actions Coinbase 1 1 = Err e) /\
  num_actions bt_default 3 7 = Ok 7%nat.
Proof. repeat split; try reflexivity. eexists. reflexivity. Qed.

(** C29: batched key derivation is the pointwise one. *)
Theorem C29_batch_kdf_aligned : forall (C : Curve) (OR : @Oracles C) (items : list (option point * bytes)),
  batch_kdf items = map (fun it => match fst it with
                                   | Some s => Some (kdf_orchard s (snd it))
                                   | None => None
                                   end) items.
Proof. exact @batch_kdf_pointwise. Qed.
Print Assumptions C29_batch_kdf_aligned.

Example C29_example :
  batch_kdf [(Some (toy_pt 3), [x01]); (None, [x02]); (Some (toy_pt 5), [x03])] =
  [Some (kdf_orchard (toy_pt 3) [x01]); None; Some (kdf_orchard (toy_pt 5) [x03])].
Proof. reflexivity. Qed.

(** C34: 32-byte encodings. [canonical_codec ok enc dec] says: [dec] recovers every valid value
    from its encoding, accepts only that encoding of it, and encodings of distinct values differ. *)
Theorem C34_codecs : forall (C : Curve) (OR : @Oracles C) (L : CurveLaws C),
  canonical_codec is_base nf_to_bytes nf_from_bytes /\
  canonical_codec is_base rho_to_bytes rho_from_bytes /\
  canonical_codec is_base cmx_to_bytes cmx_from_bytes /\
  canonical_codec is_base anchor_to_bytes anchor_from_bytes /\
  canonical_codec is_base merkle_hash_to_bytes merkle_hash_from_bytes /\
  canonical_codec is_scalar to_repr trapdoor_from_bytes /\
  canonical_codec (fun _ : point => True) cv_to_bytes cv_from_bytes /\
  canonical_codec (fun _ : point => True) vk_to_bytes vk_from_bytes /\
  canonical_codec (fun P : point => P <> pt_id) epk_to_bytes epk_from_bytes.
Proof.
  exact (fun C OR L => conj base_codec (conj base_codec (conj base_codec (conj base_codec (conj base_codec
    (conj scalar_codec (conj (point_codec C L) (conj (point_codec C L) (nonid_codec C L))))))))).
Qed.
Print Assumptions C34_codecs.

(** What the word means, unfolded, and a rejected non-canonical encoding. *)
Theorem C34_noncanonical_rejected : forall b : bytes, length b = 32%nat ->
  (base_from_repr b = None <-> pmod <= le_val b).
Proof. exact base_from_none. Qed.
Print Assumptions C34_noncanonical_rejected.

Example C34_example :
  is_base 7 /\ nf_from_bytes (nf_to_bytes 7) = Some 7 /\ nf_from_bytes (le_bytes 32 (pmod + 7)) = None /\
  epk_from_bytes (pt_encode (pt_id : point)) = None.
Proof. split; [split; vm_compute; (reflexivity || (intro H; discriminate H))|]. repeat split; vm_compute; reflexivity. Qed.

(** C43: bit-string conversions. *)
Theorem C43_bits :
  (forall n v bits, (n <= 64)%nat -> 0 <= v < 2 ^ Z.of_nat n ->
     i2lebsp n v = Ret bits -> lebs2ip bits = Ret v) /\
  (forall bits v, (length bits <= 64)%nat -> lebs2ip bits = Ret v ->
     0 <= v < 2 ^ Z.of_nat (length bits) /\ i2lebsp (length bits) v = Ret bits) /\
  (forall n v, (n <= 64)%nat ->
     i2lebsp n v = Ret (map (fun i => Z.testbit v (Z.of_nat i)) (seq 0 n))) /\
  (forall bits, (length bits <= 64)%nat -> exists v, lebs2ip bits = Ret v) /\
  (forall n v, (64 < n)%nat -> exists w, i2lebsp n v = Panic w) /\
  (forall bits, (64 < length bits)%nat -> exists w, lebs2ip bits = Panic w).
Proof.
  exact (conj bits_roundtrip (conj bits_roundtrip_rev (conj
    (fun n v H => eq_trans (i2lebsp_spec n v H) (f_equal Ret (le_bits_testbit n v)))
    (conj (fun bits H => ex_intro _ _ (lebs2ip_spec bits H)) (conj i2lebsp_panics lebs2ip_panics))))).
Qed.
Print Assumptions C43_bits.

Theorem C43_bits_k :
  (forall v bits, 0 <= v < 2 ^ 10 -> i2lebsp_k v = Ret bits ->
     length bits = 10%nat /\ lebs2ip_k bits = Ret v) /\
  (forall bits v, length bits = 10%nat -> lebs2ip_k bits = Ret v ->
     0 <= v < 2 ^ 10 /\ i2lebsp_k v = Ret bits) /\
  (forall v, 0 <= v < 2 ^ 10 -> exists bits, i2lebsp_k v = Ret bits) /\
  (forall bits, length bits = 10%nat -> exists v, lebs2ip_k bits = Ret v) /\
  (forall v, 2 ^ 10 <= v -> exists w, i2lebsp_k v = Panic w) /\
  (forall bits, length bits <> 10%nat -> exists w, lebs2ip_k bits = Panic w).
Proof.
  exact (conj k_roundtrip (conj k_roundtrip_rev (conj
    (fun v H => ex_intro _ _ (i2lebsp_k_spec v (proj2 H)))
    (conj (fun bits H => ex_intro _ _ (lebs2ip_k_spec bits H)) (conj i2lebsp_k_panics lebs2ip_k_panics))))).
Qed.
Print Assumptions C43_bits_k.

Example C43_example :
  i2lebsp 4 11 = Ret [true; true; false; true] /\ lebs2ip [true; true; false; true] = Ret 11 /\
  i2lebsp_k 1023 = Ret (repeat true 10).
Proof. repeat split; reflexivity. Qed.

(** C58: shuffling permutes, whatever the random numbers. *)
Theorem C58_shuffle_permutes :
  forall (C : Curve) (OR : @Oracles C) (A : Type) (l : list A) (r : rng),
  Permutation (fst (shuffle l r)) l.
Proof. exact @shuffle_permutation. Qed.
Print Assumptions C58_shuffle_permutes.

Example C58_example : fst (shuffle [1; 2; 3; 4] (5 : rng)) = [4; 3; 1; 2].
Proof. vm_compute. reflexivity. Qed.
