(** A chain that applies Orchard bundles (C63). The crate leaves this to its users; the rules are
    those of the protocol: the anchor is an earlier root of the note commitment tree, nullifiers are
    never repeated, every bundle passes the checks of the crate, its commitments are
    appended to the tree and its value balance leaves the pool. *)
From Coq Require Import String ZArith List Bool.
From Coq Require Import Init.Byte.
From Verif Require Import Prelude Fields Curve Oracles Spec Sinsemilla SinsSpec RedPallas Value Keys Note Tree TreeSpec Action NoteEnc
  Bundle Batch Builder BundleSpec Halo2 Circuit CircuitSpec PipelineSpec.
Import ListNotations.
Open Scope Z_scope.

Section Spec.
  Context {C : Curve} {OR : @Oracles C} {V : Type}.
  Variables (halo2_verify : bytes -> list (list Z) -> bool) (into : V -> Z).
  (** The extractors of halo2 and of the binding signature (PipelineSpec.v). *)
  Variables (extract : bytes -> list (list Z) -> list action_cells) (bx : point -> bytes -> signature -> Z).

  (** A bundle and the sighash of its transaction. *)
  Definition tx : Type := bundle authorized signature V * bytes.
  Record ledger := mk_ledger {
    lg_cmxs : list Z;  (* the leaves of the tree, oldest first *)
    lg_nfs : list Z;   (* the nullifiers revealed so far *)
    lg_pool : Z        (* the value in the pool *)
  }.
  Definition genesis : ledger := mk_ledger [] [] 0.
  Definition apply (lg : ledger) (t : tx) : ledger :=
    mk_ledger (lg_cmxs lg ++ map a_cmx (b_actions (fst t))) (lg_nfs lg ++ map a_nf (b_actions (fst t)))
      (lg_pool lg - into (b_value_balance (fst t))).

  (** The tree holding these commitments from position 0; the other leaves are the fixed empty one. *)
  Definition leaves_of (cmxs : list Z) (p : Z) : Z :=
    if (0 <=? p) && (p <? Z.of_nat (length cmxs)) then nth (Z.to_nat p) cmxs empty_leaf else empty_leaf.

  Record accepts (lg : ledger) (t : tx) : Prop := {
    ac_types : bundle_ok into (fst t);
    ac_valid : bundle_valid halo2_verify into (fst t) (snd t);
    ac_anchor : exists n, (n <= length (lg_cmxs lg))%nat /\
                  b_anchor (fst t) = tree_root (leaves_of (firstn n (lg_cmxs lg))) 32;
    ac_nfs : NoDup (lg_nfs lg ++ map a_nf (b_actions (fst t)));
    ac_space : Z.of_nat (length (lg_cmxs lg) + length (b_actions (fst t))) <= 2 ^ 32
  }.
  (** A history of accepted transactions, oldest first, and the state it leads to. *)
  Inductive reached : list tx -> ledger -> Prop :=
  | R_genesis : reached [] genesis
  | R_apply : forall h lg t, reached h lg -> accepts lg t -> reached (h ++ [t]) (apply lg t).

  (** * What the proofs say *)

  Definition cells_of (t : tx) : list action_cells :=
    match omap to_halo2_instance (to_instances (fst t)) with
    | Ret is => extract (au_proof (b_auth (fst t))) is
    | _ => []
    end.
  Definition acts_of (t : tx) : list (instance * witness) :=
    List.combine (to_instances (fst t)) (map cells_witness (cells_of t)).
  (** All actions of a history, in the order of their commitments in the tree. *)
  Definition acts (h : list tx) : list (instance * witness) := flat_map acts_of h.

  (** The note an action spends and the one it creates. *)
  Record plain_note := mk_plain { pn_g_d : point; pn_pk_d : point; pn_value : Z; pn_rho : Z; pn_psi : Z }.
  Definition spent_note (a : instance * witness) : plain_note :=
    let w := snd a in mk_plain (w_g_d_old w) (w_pk_d_old w) (w_v_old w) (w_rho_old w) (w_psi_old w).
  Definition created_note (a : instance * witness) : plain_note :=
    let w := snd a in mk_plain (w_g_d_new w) (w_pk_d_new w) (w_v_new w) (i_nf_old (fst a)) (w_psi_new w).
  Definition spends_value (a : instance * witness) : bool := negb (w_v_old (snd a) =? 0).
  Definition position (a : instance * witness) : Z := w_pos (snd a).

  Record sound_ledger (h : list tx) (lg : ledger) : Prop := {
    (* every action proves the Action statement *)
    sl_statements : Forall (fun a => action_statement (fst a) (snd a)) (acts h);
    (* the pool is what was created less what was spent, and is never negative *)
    sl_pool : lg_pool lg = zsum (map (fun a => pn_value (created_note a)) (acts h)) -
                           zsum (map (fun a => pn_value (spent_note a)) (acts h));
    sl_solvent : 0 <= lg_pool lg;
    (* each spend of a value is of the note that an earlier transaction put at that position *)
    sl_spends : forall h1 t h2 a, h = h1 ++ t :: h2 -> In a (acts_of t) -> spends_value a = true ->
                  exists a', nth_error (acts h1) (Z.to_nat (position a)) = Some a' /\ spent_note a = created_note a';
    (* and no position is spent twice *)
    sl_once : NoDup (map position (filter spends_value (acts h)));
    (* no two actions create the same commitment, so no two notes share a nullifier *)
    sl_distinct : NoDup (lg_cmxs lg)
  }.

  (** * The exceptions, all computed from the history *)

  Definition note_opening (n : plain_note) (rcm : Z) : list bool * Z :=
    (note_commit_msg (pt_encode (pn_g_d n)) (pt_encode (pn_pk_d n)) (pn_value n) (pn_rho n) (pn_psi n), rcm).
  Definition openings (a : instance * witness) : list (list bool * Z) :=
    [note_opening (spent_note a) (w_rcm_old (snd a)); note_opening (created_note a) (w_rcm_new (snd a))].
  Definition ivk_opening (a : instance * witness) : list bool * Z :=
    (commit_ivk_msg (pt_x (w_ak (snd a))) (w_nk (snd a)), w_rivk (snd a)).
  (** Two openings of one commitment: a discrete-log relation. *)
  Definition two_openings (Q R : point) (o o' : list bool * Z) : Prop :=
    sins_relation_R Q R (msg_words (fst o)) (msg_words (fst o')) (snd o) (snd o').

  Inductive break (h : list tx) : Prop :=
  | B_hash : forall t k, In t h -> In k (cells_of t) -> undefined_hash k -> break h
  | B_value : forall t bvk, In t h -> binding_validating_key into (fst t) = Ret bvk ->
      let ws := map cells_witness (cells_of t) in
      let surplus := surplus_of ws (into (b_value_balance (fst t))) in
      surplus mod qmod <> 0 ->
      pt_mul surplus value_base_V =
        pt_mul (bx bvk (snd t) (au_binding_sig (b_auth (fst t))) - zsum (map w_rcv ws)) value_base_R -> break h
  | B_note : forall a o a' o', In a (acts h) -> In a' (acts h) -> In o (openings a) -> In o' (openings a') ->
      two_openings (sins_Q "z.cash:Orchard-NoteCommit-M") (commit_R "z.cash:Orchard-NoteCommit") o o' -> break h
  | B_ivk : forall a a', In a (acts h) -> In a' (acts h) ->
      two_openings (sins_Q "z.cash:Orchard-CommitIvk-M") (commit_R "z.cash:Orchard-CommitIvk") (ivk_opening a) (ivk_opening a') ->
      break h
  | B_tree : forall h1 t h2 n k l m x y, h = h1 ++ t :: h2 -> In k (cells_of t) -> nth_error (k_layers k) l = Some m ->
      let leaves := leaves_of (firstn n (map (fun a => i_cmx (fst a)) (acts h1))) in
      let pos := bits_val (map ml_swap (k_layers k)) in
      In (l, x, y) (root_inputs pos 0 (leaves pos) (auth_path leaves pos 32)) ->
      sins_relation (sins_Q "z.cash:Orchard-MerkleCRH") (layer_words (Z.of_nat l) m) (msg_words (merkle_msg l x y)) \/
      sins_exception (sins_Q "z.cash:Orchard-MerkleCRH") (msg_words (merkle_msg l x y)) -> break h
  (* a note commitment that looks like an empty leaf; impossible on Pallas *)
  | B_empty : forall t k, In t h -> In k (cells_of t) -> pt_x (k_cm_old k) = empty_leaf -> break h.
End Spec.
Arguments ledger : clear implicits.
