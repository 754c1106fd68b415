(** Small specifications for the statements about whole transactions (C61-C63). *)
From Coq Require Import String ZArith List Bool.
From Coq Require Import Init.Byte.
From Verif Require Import Prelude Fields Curve Oracles Spec Sinsemilla SinsSpec RedPallas Value Keys Note Tree TreeSpec Action NoteEnc
  Bundle Batch Builder Signing BundleSpec BuilderSpec SigningSpec Halo2 Circuit CircuitSpec.
Import ListNotations.
Open Scope Z_scope.

Section Spec.
  Context {C : Curve} {OR : @Oracles C}.

  (** The witness can be assigned to the circuit's cells so that all gates hold for the instance. *)
  Definition provable_instance (w : witness) (inst : list Z) : Prop :=
    exists k, synthesize w = Some k /\ circuit_sat inst k.

  (** halo2 is complete: a proof made from satisfying witnesses verifies, and one is always made. *)
  Definition proofs_verify (halo2_prove : list witness -> list (list Z) -> rng -> option bytes * rng)
    (halo2_verify : bytes -> list (list Z) -> bool) : Prop :=
    forall ws is r p r', Forall2 provable_instance ws is -> halo2_prove ws is r = (Some p, r') -> halo2_verify p is = true.
  Definition prover_succeeds (halo2_prove : list witness -> list (list Z) -> rng -> option bytes * rng) : Prop :=
    forall ws is r, Forall2 provable_instance ws is -> exists p r', halo2_prove ws is r = (Some p, r').

  (** Some Merkle hash on the path of one of the spends is undefined: the crate then goes on with a
      fixed value, the prover cannot. *)
  Definition undefined_merkle_hash (ws : list witness) : Prop :=
    exists w h x y, In w ws /\ In (h, x, y) (root_inputs (w_pos w) 0 (pt_x (w_cm_old w)) (w_path w)) /\
      sins_hash "z.cash:Orchard-MerkleCRH" (merkle_msg h x y) = None.

  (** * Accepted bundles *)

  (** halo2 is an argument of knowledge: [extract] finds satisfying cells for what it accepts. *)
  Definition finds_cells (halo2_verify : bytes -> list (list Z) -> bool)
    (extract : bytes -> list (list Z) -> list action_cells) : Prop :=
    forall p is, halo2_verify p is = true -> Forall2 circuit_sat is (extract p is).
  (** A signature proves knowledge of the key: [extract] finds it. *)
  Definition finds_keys (t : sig_type) (extract : point -> bytes -> signature -> Z) : Prop :=
    forall vk m s, verify t vk m s = true -> vk = vk_of t (extract vk m s).

  Definition surplus_of (ws : list witness) (balance : Z) : Z :=
    zsum (map w_v_old ws) - zsum (map w_v_new ws) - balance.

  (** What acceptance means for a bundle whose proof has these cells [ks], whose spend signatures
      have the keys [sk] and whose binding signature has the key [bsk]. *)
  Definition accepted_means {V} (into : V -> Z) (b : bundle authorized signature V) (ks : list action_cells)
    (sk : action signature -> Z) (bsk : Z) : Prop :=
    let ws := map cells_witness ks in
    let surplus := surplus_of ws (into (b_value_balance b)) in
    (* every action proves the Action statement, values balance, and who signed knew the spending key *)
    (Forall2 action_statement (to_instances b) ws /\ surplus = 0 /\
     Forall2 (fun a w => w_ak w = pt_mul (sk a - w_alpha w) (basepoint SpendAuth)) (b_actions b) ws) \/
    (* or the cells contain a discrete-log relation between the Sinsemilla generators *)
    (exists k, In k ks /\ undefined_hash k) \/
    (* or there is one between the two value bases *)
    (surplus mod qmod <> 0 /\ pt_mul surplus value_base_V = pt_mul (bsk - zsum (map w_rcv ws)) value_base_R).
End Spec.
