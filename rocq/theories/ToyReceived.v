(** Concrete cases for C103: three outputs, to two wallets, one of them of value zero. *)
From Coq Require Import String ZArith List Bool Lia.
From Coq Require Import Init.Byte.
From Verif Require Import Prelude Fields Curve Oracles Sinsemilla RedPallas Value Keys KeysSpec KeysFacts Note Tree Action NoteEnc Bundle Builder Signing Spec
  BuilderSpec SentSpec ReceivedSpec PreludeFacts Toy ToyFacts ToyKeys ToyNote ToyNoteEnc ToyBuilder ToyTwo.
Import ListNotations.
Open Scope Z_scope.

Definition mix_calls : list call :=
  [AddOutput (Some toy_ovk) my_addr 5 None; AddOutput None my_addr2 7 (Some toy_memo); AddOutput None my_addr 0 None].
Definition mix_builder : builder := match run (builder_new toy_type 7) mix_calls with Ret (_, b) => b | _ => builder_new toy_type 7 end.
Lemma mix_builds_bool : outcome_kind mix_builder toy_rng = 1. Proof. vm_compute. reflexivity. Qed.
Lemma mix_reachable : reachable toy_type 7 mix_builder.
Proof.
  assert (K : Forall call_ok mix_calls).
  { repeat apply Forall_cons; [| | |apply Forall_nil].
    - split; [intros k E; assert (k = toy_ovk) by congruence; subst k; reflexivity|]. split; [exact my_addr_ok|].
      split; [unfold is_u64; lia|intros m E; discriminate E].
    - split; [intros k E; discriminate E|]. split; [exact my_addr2_ok|].
      split; [unfold is_u64; lia|intros m E; assert (m = toy_memo) by congruence; subst m; reflexivity].
    - split; [intros k E; discriminate E|]. split; [exact my_addr_ok|].
      split; [unfold is_u64; lia|intros m E; discriminate E]. }
  eexists _, _. split; [exact K|reflexivity].
Qed.
Lemma mix_owners : match fvk_to_ivk toy_fvk External, fvk_to_ivk toy_fvk2 External with
  | Ret k1, Ret k2 => (address_eqb (ivk_address k1 (ad_d my_addr)) my_addr && negb (address_eqb (ivk_address k1 (ad_d my_addr2)) my_addr2)) &&
                      (address_eqb (ivk_address k2 (ad_d my_addr2)) my_addr2 && negb (address_eqb (ivk_address k2 (ad_d my_addr)) my_addr))
  | _, _ => false end = true.
Proof. vm_compute. reflexivity. Qed.
#[local] Opaque my_addr my_addr2 toy_fvk toy_fvk2 ivk_address address_eqb fvk_to_ivk toy_memo.
Lemma mix_outputs : bl_outputs mix_builder = [mk_output (Some toy_ovk) my_addr 5 (xf6 :: repeat x00 511); mk_output None my_addr2 7 toy_memo;
  mk_output None my_addr 0 (xf6 :: repeat x00 511)].
Proof. reflexivity. Qed.
#[local] Opaque mix_builder build.
Lemma mix_owed : exists k1 k2, fvk_to_ivk toy_fvk External = Ret k1 /\ fvk_to_ivk toy_fvk2 External = Ret k2 /\ ivk_ok k1 /\ ivk_ok k2 /\
  owed k1 mix_builder = [(my_addr, 5, xf6 :: repeat x00 511)] /\ owed k2 mix_builder = [(my_addr2, 7, toy_memo)].
Proof.
  destruct (fvk_ok_to_ivk toy_laws toy_fvk External toy_fvk_ok) as (k1 & E1 & K1).
  destruct (fvk_ok_to_ivk toy_laws toy_fvk2 External toy_fvk2_ok) as (k2 & E2 & K2).
  exists k1, k2. split; [exact E1|]. split; [exact E2|]. split; [exact K1|]. split; [exact K2|].
  pose proof mix_owners as X. rewrite E1, E2 in X. apply andb_true_iff in X as [X1 X2].
  apply andb_true_iff in X1 as [A1 A2]. apply andb_true_iff in X2 as [B1 B2]. apply negb_true_iff in A2. apply negb_true_iff in B2.
  unfold owed. rewrite mix_outputs. unfold for_key. cbn [filter o_recipient o_value]. rewrite A1, A2, B1, B2. split; reflexivity.
Qed.
Lemma mix_builds : exists bd meta r', build (fun i : Z => Some i) 5 mix_builder toy_rng = Ret (Ok (Some (bd, meta)), r').
Proof.
  pose proof mix_builds_bool as K. unfold outcome_kind in K. destruct (build _ 5 mix_builder toy_rng) as [[[[[bd meta]|]|[]] r']|w|]; try discriminate K.
  exists bd, meta, r'. reflexivity.
Qed.
