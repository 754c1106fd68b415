(** Small specifications for the statements about a wallet's notes (C69-C71). *)
From Coq Require Import String ZArith List Bool.
From Coq Require Import Init.Byte.
From Verif Require Import Prelude Fields Curve Oracles Spec Sinsemilla SinsSpec RedPallas Value Keys KeysSpec Note NoteSpec Tree TreeSpec
  Action NoteEnc NoteEncSpec Bundle Batch Builder BundleSpec BuilderSpec Halo2 Circuit CircuitSpec PipelineSpec LedgerSpec.
Import ListNotations.
Open Scope Z_scope.

Section Spec.
  Context {C : Curve} {OR : @Oracles C}.

  (** Everything a nullifier is computed from, with the opening of the note commitment. *)
  Record note_secret := mk_secret {
    se_nk : Z; se_g_d : point; se_pk_d : point; se_value : Z; se_rho : Z; se_psi : Z; se_rcm : Z
  }.
  Definition se_words (s : note_secret) : list Z :=
    msg_words (note_commit_msg (pt_encode (se_g_d s)) (pt_encode (se_pk_d s)) (se_value s) (se_rho s) (se_psi s)).
  (** The factor of the base K in a nullifier. *)
  Definition se_factor (s : note_secret) : Z := (prf_nf (se_nk s) (se_rho s) + se_psi s) mod pmod.

  (** Two secrets with the same nullifier: a relation between K, R, Q and the Sinsemilla generators
      whose coefficients are read off the two, not all zero modulo the order. *)
  Definition nullifier_relation (s s' : note_secret) : Prop :=
    let Q := sins_Q "z.cash:Orchard-NoteCommit-M" in
    let R := commit_R "z.cash:Orchard-NoteCommit" in
    (pt_add (pt_add (lin Q 0 (fun j => weight (se_words s) j - weight (se_words s') j)) (pt_mul (se_rcm s - se_rcm s') R))
            (pt_mul (se_factor s - se_factor s') nullifier_K) = pt_id /\
       ((exists j, is_word j /\ (weight (se_words s) j - weight (se_words s') j) mod qmod <> 0) \/
        (se_rcm s - se_rcm s') mod qmod <> 0 \/ (se_factor s - se_factor s') mod qmod <> 0)) \/
    pt_add (pt_add (lin Q (2 * 2 ^ Z.of_nat (length (se_words s))) (fun j => weight (se_words s) j + weight (se_words s') j))
                   (pt_mul (se_rcm s + se_rcm s') R))
           (pt_mul (se_factor s + se_factor s') nullifier_K) = pt_id.

  (** The secrets of a note in a wallet with viewing key [f], and of the note an action spends. *)
  Definition own_secret (f : fvk) (n : note) : note_secret :=
    mk_secret (fvk_nk f) (diversify_hash (ad_d (n_recipient n))) (ad_pk_d (n_recipient n)) (n_value n) (n_rho n)
      (rseed_psi (n_rseed n) (n_rho n)) (rseed_rcm (n_rseed n) (n_rho n)).
  Definition spent_secret (w : witness) : note_secret :=
    mk_secret (w_nk w) (w_g_d_old w) (w_pk_d_old w) (w_v_old w) (w_rho_old w) (w_psi_old w) (w_rcm_old w).

  (** The note belongs to one of the two incoming viewing keys of [f]. *)
  Definition in_wallet (f : fvk) (s : scope) (n : note) : Prop :=
    note_ok n /\ exists k, fvk_to_ivk f s = Ret k /\ owned_by k (n_recipient n).

  (** The action with witness [w] spends exactly the note [n] of [f], with the keys of [f] (the
      circuit only sees the x-coordinate of the validating key). *)
  Definition spends_own (f : fvk) (n : note) (w : witness) : Prop :=
    spent_secret w = own_secret f n /\ pt_x (w_ak w) = pt_x (fvk_ak f).

  (** [x] is the spend authorizing key of [f], up to sign. *)
  Definition signed_by_owner (f : fvk) (x : Z) : Prop :=
    fvk_ak f = pt_mul x (basepoint SpendAuth) \/ fvk_ak f = pt_neg (pt_mul x (basepoint SpendAuth)).

  (** Two openings of one incoming viewing key. *)
  Definition ivk_relation (ak nk rivk ak' nk' rivk' : Z) : Prop :=
    sins_relation_R (sins_Q "z.cash:Orchard-CommitIvk-M") (commit_R "z.cash:Orchard-CommitIvk")
      (msg_words (commit_ivk_msg ak nk)) (msg_words (commit_ivk_msg ak' nk')) rivk rivk'.
  Definition foreign_opening (f : fvk) (s : scope) (w : witness) : Prop :=
    exists rivk, fvk_rivk_scope f s = Ret rivk /\
      ivk_relation (pt_x (w_ak w)) (w_nk w) (w_rivk w) (pt_x (fvk_ak f)) (fvk_nk f) rivk.

  (** * A wallet watching a chain *)

  Definition chain_actions {V} (h : list (@tx C V)) : list (action signature) := flat_map (fun t => b_actions (fst t)) h.

  (** Trial decryption of the action at position [pos] with a key of [f] yields [n]. *)
  Definition receives {V} (f : fvk) (s : scope) (h : list (@tx C V)) (pos : nat) (n : note) : Prop :=
    exists a k to memo, nth_error (chain_actions h) pos = Some a /\ fvk_to_ivk f s = Ret k /\
      try_note_decryption k a = Ret (Some (n, to, memo)).
End Spec.
