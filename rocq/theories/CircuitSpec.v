(** The Action statement (Zcash protocol specification 4.18.4), written with the NATIVE functions
    of the crate, independently of the circuit. *)
From Coq Require Import String ZArith List Bool.
From Verif Require Import Prelude Fields Curve Oracles Sinsemilla SinsSpec RedPallas Value Keys Note Tree Bundle Builder Halo2
  Circuit.
Import ListNotations.
Open Scope Z_scope.

Section Spec.
  Context {C : Curve} {OR : @Oracles C}.

  (** A Merkle path from [x] to [root]: each step is (sibling, whether the node is on the right).
      The specification lets the two hashed nodes be any 255-bit strings that represent them
      modulo p, not only the canonical ones. *)
  Fixpoint path_valid (l : nat) (x : Z) (path : list (Z * bool)) (root : Z) : Prop :=
    match path with
    | [] => root = x
    | (s, on_right) :: rest =>
        exists lbits rbits y,
          length lbits = 255%nat /\ length rbits = 255%nat /\
          bits_val lbits mod pmod = (if on_right : bool then s else x) /\
          bits_val rbits mod pmod = (if on_right then x else s) /\
          sins_hash "z.cash:Orchard-MerkleCRH" (le_bits 10 (Z.of_nat l) ++ lbits ++ rbits) = Some y /\
          path_valid (S l) y rest root
    end.
  Definition witness_path (w : witness) : list (Z * bool) := List.combine (w_path w) (le_bits 32 (w_pos w)).

  Record action_statement (i : instance) (w : witness) : Prop := {
    (* the private inputs are values of their types; g_d, pk_d and ak are not the identity *)
    st_old_types : w_g_d_old w <> pt_id /\ w_pk_d_old w <> pt_id /\ is_base (w_rho_old w) /\ is_base (w_psi_old w) /\
                   is_scalar (w_rcm_old w);
    st_key_types : w_ak w <> pt_id /\ is_base (w_nk w) /\ is_scalar (w_rivk w) /\ is_scalar (w_alpha w) /\
                   is_scalar (w_rcv w);
    st_new_types : w_g_d_new w <> pt_id /\ w_pk_d_new w <> pt_id /\ is_base (w_psi_new w) /\
                   is_scalar (w_rcm_new w);
    st_path_types : length (w_path w) = 32%nat /\ Forall is_base (w_path w) /\ 0 <= w_pos w < 2 ^ 32;
    st_values : is_u64 (w_v_old w) /\ is_u64 (w_v_new w);
    (* old note commitment integrity *)
    st_cm_old : note_commitment_derive (pt_encode (w_g_d_old w)) (pt_encode (w_pk_d_old w)) (w_v_old w)
                  (w_rho_old w) (w_psi_old w) (w_rcm_old w) = Some (w_cm_old w);
    (* Merkle path validity *)
    st_merkle : w_v_old w = 0 \/ path_valid 0 (pt_x (w_cm_old w)) (witness_path w) (i_anchor i);
    (* value commitment integrity *)
    st_cv : derive_cv (w_v_old w - w_v_new w) (w_rcv w) = Ret (i_cv_net i);
    (* nullifier integrity *)
    st_nf : nf_derive (w_nk w) (w_rho_old w) (w_psi_old w) (w_cm_old w) = Ret (i_nf_old i);
    (* spend authority *)
    st_rk : i_rk i = vk_randomize (w_ak w) (w_alpha w);
    (* diversified address integrity *)
    st_pk_d : exists ivk, commit_ivk (pt_x (w_ak w)) (w_nk w) (w_rivk w) = Some ivk /\
                          w_pk_d_old w = pt_mul ivk (w_g_d_old w);
    (* new note commitment integrity: rho_new is the nullifier *)
    st_cmx : exists cm, note_commitment_derive (pt_encode (w_g_d_new w)) (pt_encode (w_pk_d_new w)) (w_v_new w)
                          (i_nf_old i) (w_psi_new w) (w_rcm_new w) = Some cm /\ i_cmx i = cmx_of cm;
    (* enable flags *)
    st_enable_spend : w_v_old w = 0 \/ i_enable_spend i = true;
    st_enable_output : w_v_new w = 0 \/ i_enable_output i = true
  }.

  (** The private inputs a prover put in the cells; blinding scalars are read modulo the order. *)
  Definition cells_witness (k : action_cells) : witness :=
    mk_witness (map ml_sibling (k_layers k)) (bits_val (map ml_swap (k_layers k)))
      (k_g_d_old k) (k_pk_d_old k) (k_v_old k) (k_rho_old k) (k_psi_old k) (k_rcm_old k mod qmod) (k_cm_old k)
      (k_alpha k mod qmod) (k_ak k) (k_nk k) (k_rivk k mod qmod)
      (k_g_d_new k) (k_pk_d_new k) (k_v_new k) (k_psi_new k) (k_rcm_new k mod qmod) (k_rcv k mod qmod).

  (** Some Sinsemilla hash evaluated inside the circuit on these cells is undefined; the words
      are part of the cells, so this is an explicit discrete-log relation (SinsSpec.v). *)
  Definition undefined_hash (k : action_cells) : Prop :=
    exists Q ws, In (Q, ws) (circuit_hashes k) /\ sins_exception Q ws.
End Spec.
