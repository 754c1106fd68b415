(** Property C78: the crate computes the functions of the protocol specification (ProtocolSpec.v). Encryption is
    pinned in C77, and the steps of ZIP 32 after the first in C39. *)
From Coq Require Import String ZArith List Bool.
From Coq Require Import Init.Byte.
From Verif Require Import Prelude Fields Curve Oracles Sinsemilla RedPallas Value Keys Note Tree Action NoteEnc Bundle
  Zip32 ProtocolSpec ProtocolFacts Toy ToyFacts ToyKeys ToyNote ToyBundle.
Import ListNotations.
Open Scope Z_scope.

(** The Sinsemilla hash and commitments, on every message and domain. *)
Theorem C78_sinsemilla :
  forall (C : Curve) (OR : @Oracles C),
  (forall D M, sins_hash_to_point D M = SinsemillaHashToPoint D M) /\
  (forall D M, sins_hash D M = SinsemillaHash D M) /\
  (forall D M r, sins_commit D M r = SinsemillaCommit r D M) /\
  (forall D M r, sins_short_commit D M r = SinsemillaShortCommit r D M).
Proof. exact @sinsemilla_is_spec. Qed.
Print Assumptions C78_sinsemilla.

(** Tree nodes (the crate counts levels from the leaves, the specification layers from the root) and roots of paths. *)
Theorem C78_merkle_tree :
  forall (C : Curve) (OR : @Oracles C),
  (forall level left right, (level < 32)%nat -> combine level left right = MerkleCRH (31 - level) left right) /\
  (forall pos path cmx, 0 <= pos -> length path = 32%nat -> mp_root (mk_path pos path) cmx = root_above 31 pos cmx path).
Proof. exact @merkle_is_spec. Qed.
Print Assumptions C78_merkle_tree.

(** The commitment and the nullifier of a note. *)
Theorem C78_notes :
  forall (C : Curve) (OR : @Oracles C),
  (forall n, commitment_inner n =
     NoteCommit (spec_rcm (n_rseed n) (n_rho n)) (repr_bits (DiversifyHash (ad_d (n_recipient n))))
       (repr_bits (ad_pk_d (n_recipient n))) (n_value n) (n_rho n) (spec_psi (n_rseed n) (n_rho n))) /\
  (forall n cm, commitment n = Ret cm <-> commitment_inner n = Some cm) /\
  (forall n f cm, commitment n = Ret cm ->
     note_nullifier n f = Ret (DeriveNullifier (fvk_nk f) (n_rho n) (spec_psi (n_rseed n) (n_rho n)) cm)).
Proof. exact @notes_are_spec. Qed.
Print Assumptions C78_notes.

Theorem C78_value_commitments :
  forall (C : Curve) (OR : @Oracles C) (L : CurveLaws C) (v rcv : Z),
  Z.abs v < 2 ^ 64 -> derive_cv v rcv = Ret (ValueCommit rcv v).
Proof. exact @value_is_spec. Qed.
Print Assumptions C78_value_commitments.

(** The components of a spending key, what a full viewing key gives in each scope, addresses, and the master key. *)
Theorem C78_keys :
  forall (C : Curve) (OR : @Oracles C) (L : CurveLaws C),
  (forall sk f, fvk_from_sk sk = Ret f -> f = mk_fvk (spec_ak sk) (spec_nk sk) (spec_rivk sk)) /\
  (forall sk a, ask_from_sk sk = Ret a -> a = spec_ask sk) /\
  (forall f s, let rivk := match s with
                           | External => fvk_rivk f
                           | Internal => spec_rivk_internal (fvk_ak f) (fvk_nk f) (fvk_rivk f)
                           end in
     (forall k, fvk_to_ivk f s = Ret k ->
        ivk_dk k = spec_dk (fvk_ak f) (fvk_nk f) rivk /\ CommitIvk rivk (pt_x (fvk_ak f)) (fvk_nk f) = Some (ivk_ivk k)) /\
     (forall ovk, fvk_to_ovk f s = Ret ovk -> ovk = spec_ovk (fvk_ak f) (fvk_nk f) rivk)) /\
  (forall k d, ivk_address k d = mk_address d (pt_mul (ivk_ivk k) (DiversifyHash d))) /\
  (forall seed k, xsk_master seed = Ret (Ok k) ->
     x_sk k ++ x_chain_code k = blake2b 64 "ZcashIP32Orchard" seed /\ length (x_sk k) = 32%nat).
Proof. exact @keys_are_spec. Qed.
Print Assumptions C78_keys.

(** The diversifier with a given index: FF1 over bit strings, in the bit order of the specification. *)
Theorem C78_diversifiers :
  forall (C : Curve) (OR : @Oracles C) (dk j : bytes), length j = 11%nat -> dk_get dk j = spec_diversifier dk j.
Proof. exact @diversifier_is_spec. Qed.
Print Assumptions C78_diversifiers.

(** What the to_bytes functions write. *)
Theorem C78_encodings :
  forall C : Curve,
  (forall f, fvk_to_bytes f = repr_bytes (fvk_ak f) ++ I2LEOSP 32 (fvk_nk f) ++ I2LEOSP 32 (fvk_rivk f)) /\
  (forall k, ivk_to_bytes k = ivk_dk k ++ I2LEOSP 32 (ivk_ivk k)) /\
  (forall a, address_to_bytes a = ad_d a ++ repr_bytes (ad_pk_d a)) /\
  (forall cm, cmx_to_bytes (cmx_of cm) = I2LEOSP 32 (pt_x cm)) /\
  (forall nf, nf_to_bytes nf = I2LEOSP 32 nf) /\
  (forall anchor, anchor_to_bytes anchor = I2LEOSP 32 anchor) /\
  (forall cv, cv_to_bytes cv = repr_bytes cv) /\
  (forall rk, vk_to_bytes rk = repr_bytes rk) /\
  (forall epk, epk_to_bytes epk = repr_bytes epk).
Proof. exact @encodings_are_spec. Qed.
Print Assumptions C78_encodings.

(** RedPallas keys, signing and verification for both kinds of signatures. *)
Theorem C78_signatures :
  forall (C : Curve) (OR : @Oracles C) (L : CurveLaws C) (t : sig_type),
  let P := match t with SpendAuth => SpendAuthBase | Binding => BindingBase end in
  (forall sk M r, let s := fst (sign t sk M r) in
     (sig_r s, sig_s s) = red_sign P sk (fst (rng_bytes 80 r)) M /\ snd (sign t sk M r) = snd (rng_bytes 80 r)) /\
  (forall vk M s, wf_sig s -> (verify t vk M s = true <-> red_valid P vk M (sig_r s) (sig_s s))) /\
  (forall sk, vk_of t sk = pt_mul sk P).
Proof. exact @signatures_are_spec. Qed.
Print Assumptions C78_signatures.

(** The transaction and authorizing digests of ZIP 244, and those of a transaction without a bundle. *)
Theorem C78_digests :
  forall (C : Curve) (OR : @Oracles C),
  (forall T S V (into : V -> Z) (sig : S -> bytes) (b : bundle T S V),
     Forall (fun a => length (ct_enc (a_ct a)) = 580%nat) (b_actions b) ->
     bundle_commitment into b =
     orchard_digest (map (on_wire sig) (b_actions b))
       (byte_of_Z ((if spends_enabled (b_flags b) then 1 else 0) + (if outputs_enabled (b_flags b) then 2 else 0)))
       (I2LEOSP 8 (into (b_value_balance b))) (I2LEOSP 32 (b_anchor b))) /\
  (forall V (b : bundle authorized signature V),
     let sig := fun s : signature => sig_r s ++ sig_s s in
     authorizing_commitment b =
     orchard_auth_digest (au_proof (b_auth b)) (map (on_wire sig) (b_actions b)) (sig (au_binding_sig (b_auth b)))) /\
  txid_empty = blake2b 32 "ZTxIdOrchardHash" [] /\ auth_empty = blake2b 32 "ZTxAuthOrchaHash" [].
Proof. exact @digests_are_spec. Qed.
Print Assumptions C78_digests.

(** The hypotheses are met: a spending key with a full viewing key, a note with a commitment, a bundle of actions. *)
Example C78_ex :
  fvk_from_sk toy_sk = Ret toy_fvk /\ (exists n, note_from_parts toy_addr 5 9 toy_rseed = Some n) /\
  Forall (fun a => length (ct_enc (a_ct a)) = 580%nat) (b_actions toy_bundle) /\ b_actions toy_bundle <> [].
Proof.
  split; [exact toy_fvk_ret|]. split; [exact toy_note_commits|]. split; [|discriminate].
  cbn [toy_bundle b_actions]. repeat constructor.
Qed.
