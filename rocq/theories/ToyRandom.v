(** Concrete cases for C72-C74. *)
From Coq Require Import String ZArith List Bool Lia.
From Coq Require Import Init.Byte.
From Verif Require Import Prelude Fields Curve Oracles Sinsemilla RedPallas Value Keys KeysSpec Note Tree Action NoteEnc Bundle Builder Signing Spec
  BuilderSpec RngSpec RandomSpec PreludeFacts Toy ToyFacts ToyKeys ToyNote ToyNoteEnc ToyBuilder.
Import ListNotations.
Open Scope Z_scope.

(** Two outputs, so two dummy spends. *)
Definition pay_calls : list call := [AddOutput (Some toy_ovk) my_addr 5 None; AddOutput None my_addr 7 None].
Definition pay_builder : builder := match run (builder_new toy_type 7) pay_calls with Ret (_, b) => b | _ => builder_new toy_type 7 end.
Lemma pay_builds_bool : outcome_kind pay_builder toy_rng = 1. Proof. vm_compute. reflexivity. Qed.
Lemma pay_reachable : reachable toy_type 7 pay_builder.
Proof.
  assert (K : Forall call_ok pay_calls).
  { repeat apply Forall_cons; [| |apply Forall_nil].
    - split; [intros k E; assert (k = toy_ovk) by congruence; subst k; reflexivity|]. split; [exact my_addr_ok|].
      split; [unfold is_u64; lia|intros m E; discriminate E].
    - split; [intros k E; discriminate E|]. split; [exact my_addr_ok|].
      split; [unfold is_u64; lia|intros m E; discriminate E]. }
  eexists _, _. split; [exact K|reflexivity].
Qed.
Lemma pay_holds : length (bl_spends pay_builder) = 0%nat /\ length (bl_outputs pay_builder) = 2%nat.
Proof. split; reflexivity. Qed.
#[local] Opaque pay_builder build.
Lemma pay_builds : exists bd meta r', build (fun i : Z => Some i) 5 pay_builder toy_rng = Ret (Ok (Some (bd, meta)), r').
Proof.
  pose proof pay_builds_bool as K. unfold outcome_kind in K. destruct (build _ 5 pay_builder toy_rng) as [[[[[bd meta]|]|[]] r']|w|]; try discriminate K.
  exists bd, meta, r'. reflexivity.
Qed.

(** One nonce used for two messages. *)
Definition reuse (m : bytes) : signature :=
  let B := @basepoint toy_curve toy_oracles SpendAuth in
  let vk := pt_mul 12345 B in
  let R := pt_encode (pt_mul 777 B) in
  mk_sig R (to_repr ((777 + @hstar toy_curve toy_oracles (R ++ pt_encode vk ++ m) * 12345) mod qmod)).
Definition reuse_vk : @point toy_curve := pt_mul 12345 (@basepoint toy_curve toy_oracles SpendAuth).
Lemma reuse_1 : @verify toy_curve toy_oracles SpendAuth reuse_vk [x01] (reuse [x01]) = true. Proof. vm_compute. reflexivity. Qed.
Lemma reuse_2 : @verify toy_curve toy_oracles SpendAuth reuse_vk [x02] (reuse [x02]) = true. Proof. vm_compute. reflexivity. Qed.
Lemma reuse_3 : bytes_eqb (sig_r (reuse [x01])) (sig_r (reuse [x02])) = true. Proof. vm_compute. reflexivity. Qed.
Lemma reuse_4 : negb ((@challenge toy_curve toy_oracles reuse_vk [x01] (reuse [x01]) - @challenge toy_curve toy_oracles reuse_vk [x02] (reuse [x02])) mod qmod =? 0) = true.
Proof. vm_compute. reflexivity. Qed.
Lemma reuse_5 : (length (sig_r (reuse [x01])) =? 32)%nat && (length (sig_s (reuse [x01])) =? 32)%nat = true. Proof. vm_compute. reflexivity. Qed.
#[local] Opaque reuse reuse_vk verify challenge.
Lemma reuse_ex : exists vk s s',
  @verify toy_curve toy_oracles SpendAuth vk [x01] s = true /\ @verify toy_curve toy_oracles SpendAuth vk [x02] s' = true /\
  sig_r s = sig_r s' /\ (@challenge toy_curve toy_oracles vk [x01] s - @challenge toy_curve toy_oracles vk [x02] s') mod qmod <> 0 /\ wf_sig s.
Proof.
  exists reuse_vk, (reuse [x01]), (reuse [x02]). split; [exact reuse_1|]. split; [exact reuse_2|].
  split; [apply bytes_eqb_eq; exact reuse_3|]. split.
  - intro E. pose proof reuse_4 as K. rewrite E in K. discriminate K.
  - pose proof reuse_5 as K. apply andb_true_iff in K as [K1 K2]. split; apply Nat.eqb_eq; assumption.
Qed.
