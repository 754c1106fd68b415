(** The Action circuit: src/circuit.rs and src/circuit/gadget.rs.  [circuit_sat inst k] says that
    the cells [k], picked by any prover, meet every constraint of Circuit::synthesize for the
    public inputs [inst]; [synthesize] is the assignment an honest prover computes. *)
From Coq Require Import String ZArith List Bool.
From Verif Require Import Prelude Fields Curve Oracles Sinsemilla RedPallas Value Keys Note Action Bundle Builder
  Halo2 CircuitIvk CircuitNote.
Import ListNotations.
Open Scope Z_scope.

(** circuit.rs:70-78: offsets of the public inputs. *)
Definition ANCHOR : nat := 0.
Definition CV_NET_X : nat := 1.
Definition CV_NET_Y : nat := 2.
Definition NF_OLD : nat := 3.
Definition RK_X : nat := 4.
Definition RK_Y : nat := 5.
Definition CMX : nat := 6.
Definition ENABLE_SPEND : nat := 7.
Definition ENABLE_OUTPUT : nat := 8.

(** circuit.rs:217-253, the gate "Orchard circuit checks". *)
Definition orchard_gate (r : region) : list Z :=
  let v_old := query r 0 0 in
  let v_new := query r 1 0 in
  let magnitude := query r 2 0 in
  let sign := query r 3 0 in
  let root := query r 4 0 in
  let anchor := query r 5 0 in
  let enable_spends := query r 6 0 in
  let enable_outputs := query r 7 0 in
  [ v_old - v_new - magnitude * sign;
    v_old * (root - anchor);
    v_old * (1 - enable_spends);
    v_new * (1 - enable_outputs) ].

(** circuit.rs:704-749: the region the gate is enabled on. *)
Definition orchard_region (v_old v_new magnitude sign root anchor enable_spends enable_outputs : Z) : region :=
  [ at_cell 0 0 v_old; at_cell 1 0 v_new; at_cell 2 0 magnitude; at_cell 3 0 sign; at_cell 4 0 root;
    at_cell 5 0 anchor; at_cell 6 0 enable_spends; at_cell 7 0 enable_outputs ].

(** add_chip.rs:37-54 the addition gate, on the columns of circuit.rs:256 (a, b, c are advice
    columns 7, 8, 6), and 63-84 its region. *)
Definition add_gate (r : region) : list Z :=
  let a := query r 7 0 in
  let b := query r 8 0 in
  let c := query r 6 0 in
  [ a + b - c ].
Definition add_region (a b c : Z) : region := [ at_cell 7 0 a; at_cell 8 0 b; at_cell 6 0 c ].

(** All cells a prover picks in the circuit. *)
Record action_cells {C : Curve} := mk_cells {
  k_psi_old : Z; k_rho_old : Z; k_cm_old : point; k_g_d_old : point; k_ak : point; k_nk : Z;
  k_v_old : Z; k_v_new : Z;
  k_layers : list layer; k_root : Z;
  k_magnitude : Z; k_sign : Z; k_rcv : Z;
  k_scalar : Z; k_nf_old : Z;
  k_alpha : Z;
  k_rivk : Z; k_ivk_cells : ivk_cells; k_ivk : Z; k_pk_d_old : point;
  k_rcm_old : Z; k_nc_old : nc_cells;
  k_g_d_new : point; k_pk_d_new : point; k_psi_new : Z; k_rcm_new : Z; k_nc_new : nc_cells;
  k_cm_new : point
}.
Arguments mk_cells {C}.

Section Circuit.
  Context {C : Curve} {OR : @Oracles C}.

  (** gadget.rs:112-142 value_commit_orchard. *)
  Definition value_commit_chip (magnitude sign rcv : Z) (cv : point) : Prop :=
    short_magnitude magnitude /\ short_sign sign /\ scalar_fixed rcv /\
    cv = pt_add (pt_mul (short_value magnitude sign) value_base_V) (pt_mul rcv value_base_R).

  (** gadget.rs:148-200 derive_nullifier: Poseidon, the addition chip, and the product by the
      (canonical) scalar cell. *)
  Definition derive_nullifier_chip (rho psi : Z) (cm : point) (nk scalar nf : Z) : Prop :=
    is_base scalar /\ gate_holds (add_gate (add_region (prf_nf nk rho) psi scalar)) /\
    nf = pt_x (pt_add cm (pt_mul scalar nullifier_K)).

  (** circuit.rs:385-753 synthesize, in the order of the code. *)
  Record circuit_sat (inst : list Z) (k : action_cells) : Prop := {
    (* 396-454: private inputs *)
    cs_psi_old : is_base (k_psi_old k);
    cs_rho_old : is_base (k_rho_old k);
    cs_g_d_old : k_g_d_old k <> pt_id;
    cs_ak : k_ak k <> pt_id;
    cs_nk : is_base (k_nk k);
    cs_v_old : is_base (k_v_old k);
    cs_v_new : is_base (k_v_new k);
    (* 456-470: Merkle path *)
    cs_depth : length (k_layers k) = merkle_depth;
    cs_merkle : merkle_chip "z.cash:Orchard-MerkleCRH" 0 (pt_x (k_cm_old k)) (k_layers k) (k_root k);
    (* 472-527: value commitment *)
    cs_cv : exists cv, value_commit_chip (k_magnitude k) (k_sign k) (k_rcv k) cv /\
              pt_x cv = nth CV_NET_X inst 0 /\ pt_y cv = nth CV_NET_Y inst 0;
    (* 529-546: nullifier *)
    cs_nullifier : derive_nullifier_chip (k_rho_old k) (k_psi_old k) (k_cm_old k) (k_nk k)
                     (k_scalar k) (k_nf_old k);
    cs_nf : k_nf_old k = nth NF_OLD inst 0;
    (* 548-566: spend authority *)
    cs_alpha : scalar_fixed (k_alpha k);
    cs_rk_x : pt_x (pt_add (pt_mul (k_alpha k) (basepoint SpendAuth)) (k_ak k)) = nth RK_X inst 0;
    cs_rk_y : pt_y (pt_add (pt_mul (k_alpha k) (basepoint SpendAuth)) (k_ak k)) = nth RK_Y inst 0;
    (* 568-613: diversified address *)
    cs_rivk : scalar_fixed (k_rivk k);
    cs_ivk : commit_ivk_chip (pt_x (k_ak k)) (k_nk k) (k_rivk k) (k_ivk_cells k) (k_ivk k);
    cs_pk_d_old : k_pk_d_old k <> pt_id;
    cs_address : pt_mul (k_ivk k) (k_g_d_old k) = k_pk_d_old k;
    (* 615-643: old note commitment *)
    cs_rcm_old : scalar_fixed (k_rcm_old k);
    cs_old : note_commit_chip (k_g_d_old k) (k_pk_d_old k) (k_v_old k) (k_rho_old k) (k_psi_old k)
               (k_rcm_old k) (k_nc_old k) (k_cm_old k);
    (* 645-702: new note commitment; rho_new is the nullifier cell *)
    cs_g_d_new : k_g_d_new k <> pt_id;
    cs_pk_d_new : k_pk_d_new k <> pt_id;
    cs_psi_new : is_base (k_psi_new k);
    cs_rcm_new : scalar_fixed (k_rcm_new k);
    cs_new : note_commit_chip (k_g_d_new k) (k_pk_d_new k) (k_v_new k) (k_nf_old k) (k_psi_new k)
               (k_rcm_new k) (k_nc_new k) (k_cm_new k);
    cs_cmx : pt_x (k_cm_new k) = nth CMX inst 0;
    (* 704-752: the remaining checks *)
    cs_checks : gate_holds (orchard_gate (orchard_region (k_v_old k) (k_v_new k) (k_magnitude k) (k_sign k)
                  (k_root k) (nth ANCHOR inst 0) (nth ENABLE_SPEND inst 0) (nth ENABLE_OUTPUT inst 0)))
  }.

  (** The Sinsemilla hashes of the circuit: starting point and words. *)
  Fixpoint layer_hashes (l : Z) (layers : list layer) : list (point * list Z) :=
    match layers with
    | [] => []
    | m :: layers' => (sins_Q "z.cash:Orchard-MerkleCRH", layer_words l m) :: layer_hashes (l + 1) layers'
    end.
  Definition circuit_hashes (k : action_cells) : list (point * list Z) :=
    layer_hashes 0 (k_layers k) ++
    [ (sins_Q "z.cash:Orchard-CommitIvk-M", ivk_words (k_ivk_cells k));
      (sins_Q "z.cash:Orchard-NoteCommit-M", nc_words (k_nc_old k));
      (sins_Q "z.cash:Orchard-NoteCommit-M", nc_words (k_nc_new k)) ].

  (** ** The honest prover. [None]: a Sinsemilla hash on the way is undefined, so the assignment
      of the incomplete additions cannot be completed. *)

  Definition honest_commit (domain : string) (words : list Z) (r : Z) : option point :=
    let? P := sins_hash_words (sins_Q (domain ++ "-M")) words in
    Some (pt_add P (pt_mul r (commit_R domain))).

  (** MerklePath::calculate_root on known values. *)
  Fixpoint honest_layers (l node : Z) (path : list (Z * bool)) : option (list layer * Z) :=
    match path with
    | [] => Some ([], node)
    | (s, swap) :: path' =>
        let left := if swap : bool then s else node in
        let right := if swap then node else s in
        let? P := sins_hash_words (sins_Q "z.cash:Orchard-MerkleCRH")
                    (layer_words l (mk_layer s swap left right 0)) in
        let? (ms, root) := honest_layers (l + 1) (pt_x P) path' in
        Some (mk_layer s swap left right (pt_x P) :: ms, root)
    end.

  (** circuit.rs:385-753 synthesize on known values. The magnitude and sign are those of
      value.rs:167-178 (circuit.rs:475-489); the position bits are taken by MerklePath::construct. *)
  Definition synthesize (w : witness) : option action_cells :=
    let? (layers, root) := honest_layers 0 (pt_x (w_cm_old w))
                             (List.combine (w_path w) (le_bits merkle_depth (w_pos w))) in
    let v_net := w_v_old w - w_v_new w in
    let? (magnitude, sign) := match magnitude_sign v_net with
                              | Ret (m, Positive) => Some (m, 1)
                              | Ret (m, Negative) => Some (m, pmod - 1)
                              | _ => None
                              end in
    let scalar := (prf_nf (w_nk w) (w_rho_old w) + w_psi_old w) mod pmod in
    let nf_old := pt_x (pt_add (w_cm_old w) (pt_mul scalar nullifier_K)) in
    let ivk_k := ivk_honest (pt_x (w_ak w)) (w_nk w) in
    let? ivk := honest_commit "z.cash:Orchard-CommitIvk" (ivk_words ivk_k) (w_rivk w) in
    let nc_old := nc_honest (pt_x (w_g_d_old w)) (pt_y (w_g_d_old w)) (pt_x (w_pk_d_old w)) (pt_y (w_pk_d_old w))
                    (w_v_old w) (w_rho_old w) (w_psi_old w) in
    let? _ := honest_commit "z.cash:Orchard-NoteCommit" (nc_words nc_old) (w_rcm_old w) in
    let nc_new := nc_honest (pt_x (w_g_d_new w)) (pt_y (w_g_d_new w)) (pt_x (w_pk_d_new w)) (pt_y (w_pk_d_new w))
                    (w_v_new w) nf_old (w_psi_new w) in
    let? cm_new := honest_commit "z.cash:Orchard-NoteCommit" (nc_words nc_new) (w_rcm_new w) in
    Some (mk_cells (w_psi_old w) (w_rho_old w) (w_cm_old w) (w_g_d_old w) (w_ak w) (w_nk w)
            (w_v_old w) (w_v_new w) layers root magnitude sign (w_rcv w) scalar nf_old (w_alpha w)
            (w_rivk w) ivk_k (pt_x ivk) (w_pk_d_old w) (w_rcm_old w) nc_old
            (w_g_d_new w) (w_pk_d_new w) (w_psi_new w) (w_rcm_new w) nc_new cm_new).
End Circuit.
