(** A concrete builder on the computable curve, used by the [Example]s and by C13. *)
From Coq Require Import String ZArith List Bool Lia.
From Coq Require Import Init.Byte.
From Verif Require Import Prelude Fields Curve Oracles Sinsemilla RedPallas Value Keys Note Tree Action NoteEnc Bundle Builder Spec
  PreludeFacts CurveFacts CodecFacts KeysSpec KeysFacts NoteSpec NoteFacts NoteEncSpec BuilderSpec BuilderFacts BuildFacts
  Toy ToyFacts ToyKeys ToyNote ToyNoteEnc.
Import ListNotations.
Open Scope Z_scope.

Definition my_addr : address :=
  match fvk_address_at toy_fvk (div_index_of_u32 3) External with Ret a => a | _ => toy_addr end.
Definition my_note (v : Z) : note := mk_note my_addr v 9 toy_rseed.
Definition toy_path : merkle_path := mk_path 5 (repeat 7 32).
Definition max_value : Z := 2 ^ 64 - 1.
Definition toy_anchor : Z :=
  match commitment (my_note max_value) with Ret cm => mp_root toy_path (pt_x cm) | _ => 0 end.
Definition toy_type : bundle_type := Transactional flags_enabled false.

(** Two spends and two outputs of the largest value, and two of each of value zero. *)
Definition toy_calls : list call :=
  [ AddSpend toy_fvk (my_note max_value) toy_path; AddOutput (Some toy_ovk) my_addr max_value None;
    AddSpend toy_fvk (my_note max_value) toy_path; AddOutput None my_addr 0 None;
    AddSpend toy_fvk (my_note 0) toy_path; AddOutput (Some toy_ovk) my_addr max_value (Some toy_memo);
    AddSpend toy_fvk (my_note 0) toy_path; AddOutput None my_addr 0 None ].
Definition toy_builder : builder :=
  match run (builder_new toy_type toy_anchor) toy_calls with
  | Ret (_, b) => b
  | _ => builder_new toy_type toy_anchor
  end.

Lemma my_addr_derived : fvk_address_at toy_fvk (div_index_of_u32 3) External = Ret my_addr.
Proof.
  unfold my_addr. destruct (fvk_ok_usable toy_laws toy_fvk toy_fvk_ok External) as (_ & _ & H & _).
  destruct (H (div_index_of_u32 3)) as [a ->]. reflexivity.
Qed.
Lemma address_at_ok : forall (f : fvk) j s a, fvk_ok f -> length j = 11%nat -> fvk_address_at f j s = Ret a -> address_ok a.
Proof.
  intros f j s a F HJ H. destruct (fvk_ok_to_ivk toy_laws f s F) as (k & H2 & H3).
  unfold fvk_address_at in H. rewrite H2 in H. cbn [obind] in H. injection H as <-.
  apply (ivk_addresses_ok toy_laws); [exact toy_gd|exact H3|exact HJ].
Qed.
Lemma address_at_owned : forall (f : fvk) j s a k, fvk_to_ivk f s = Ret k -> fvk_address_at f j s = Ret a -> owned_by k a.
Proof.
  intros f j s a k H1 H2. unfold fvk_address_at in H2. rewrite H1 in H2. cbn [obind] in H2. injection H2 as <-. reflexivity.
Qed.
#[local] Opaque fvk_address_at toy_fvk my_addr.
Lemma my_addr_ok : address_ok my_addr.
Proof. exact (address_at_ok _ _ _ _ toy_fvk_ok (le_bytes_length 11 3) my_addr_derived). Qed.
Lemma my_note_ok : forall v, is_u64 v -> note_ok (my_note v).
Proof.
  intros v Hv. constructor; [exact my_addr_ok|exact Hv| |reflexivity].
  unfold is_base. cbn [n_rho my_note]. assert (1000 < pmod) by (vm_compute; reflexivity). lia.
Qed.
Lemma my_note_commits : forall v, (v = max_value \/ v = 0) -> exists cm, commitment (my_note v) = Ret cm.
Proof.
  intros v Hv.
  assert (H : match commitment (my_note v) with Ret _ => true | _ => false end = true)
    by (destruct Hv; subst v; vm_compute; reflexivity).
  destruct (commitment (my_note v)) as [cm|w|]; [exists cm; reflexivity|discriminate H|discriminate H].
Qed.
Lemma toy_path_ok : path_ok toy_path.
Proof.
  constructor; [cbn [mp_position toy_path]; lia|reflexivity|]. apply Forall_forall. intros x H.
  apply repeat_spec in H. subst x. unfold is_base. assert (1000 < pmod) by (vm_compute; reflexivity). lia.
Qed.

Lemma toy_calls_ok : Forall call_ok toy_calls.
Proof.
  assert (S : forall v, v = max_value \/ v = 0 -> call_ok (AddSpend toy_fvk (my_note v) toy_path)).
  { intros v Hv. split; [exact toy_fvk_ok|]. split; [apply my_note_ok; destruct Hv; subst v; unfold is_u64, max_value; lia|].
    split; [apply my_note_commits; exact Hv|exact toy_path_ok]. }
  assert (U : forall k v m, v = max_value \/ v = 0 -> k = None \/ k = Some toy_ovk -> m = None \/ m = Some toy_memo ->
    call_ok (AddOutput k my_addr v m)).
  { intros k v m Hv Hk Hm. split; [intros k' E; destruct Hk; subst k; [discriminate E|assert (k' = toy_ovk) by congruence; subst k'; reflexivity]|].
    split; [exact my_addr_ok|]. split; [destruct Hv; subst v; unfold is_u64, max_value; lia|].
    intros m' E. destruct Hm; subst m; [discriminate E|assert (m' = toy_memo) by congruence; subst m'; reflexivity]. }
  unfold toy_calls. repeat (apply Forall_cons; [first [apply S; auto | apply U; auto]|]). apply Forall_nil.
Qed.

Lemma toy_run : exists rs, run (builder_new toy_type toy_anchor) toy_calls = Ret (rs, toy_builder).
Proof.
  unfold toy_builder.
  destruct (run_total toy_laws toy_calls (builder_new toy_type toy_anchor) toy_calls_ok) as (rs & b & H).
  exists rs. rewrite H. reflexivity.
Qed.
Lemma toy_reachable : reachable toy_type toy_anchor toy_builder.
Proof. destruct toy_run as [rs H]. exists toy_calls, rs. split; [exact toy_calls_ok|exact H]. Qed.

Definition holds_all (b : builder) : bool :=
  (length (bl_spends b) =? 4)%nat && (length (bl_outputs b) =? 4)%nat.

(** All eight calls are accepted; the builder then builds or fails depending on the random numbers. *)
Definition outcome_kind (b : builder) (r : @rng toy_curve toy_oracles) : Z :=
  match build (fun i : Z => Some i) 5 b r with
  | Ret (Ok (Some _), _) => 1
  | Ret (Err BE_ValueSum, _) => 2
  | _ => 0
  end.
Definition balance_fails (b : builder) : bool :=
  match value_balance (fun i : Z => Some i) b with Ret (Err OverflowError) => true | _ => false end.
Definition toy_r0 : @rng toy_curve toy_oracles := 0%Z.
(** One computation for all the facts, so that the kernel runs the calls once. *)
Lemma toy_facts_true :
  holds_all toy_builder && (balance_fails toy_builder && ((outcome_kind toy_builder toy_rng =? 1) &&
    ((outcome_kind toy_builder toy_r0 =? 2) && (spent toy_builder =? sent toy_builder)))) = true.
Proof. vm_compute. reflexivity. Qed.
Lemma and5 : forall a b c d e, a && (b && (c && (d && e))) = true -> a = true /\ b = true /\ c = true /\ d = true /\ e = true.
Proof. intros [] [] [] [] []; cbn [andb]; intro H; try discriminate H. repeat split. Qed.
Lemma toy_facts_split : holds_all toy_builder = true /\ balance_fails toy_builder = true /\ (outcome_kind toy_builder toy_rng =? 1) = true /\
  (outcome_kind toy_builder toy_r0 =? 2) = true /\ (spent toy_builder =? sent toy_builder) = true.
Proof. exact (and5 _ _ _ _ _ toy_facts_true). Qed.
#[local] Opaque holds_all balance_fails outcome_kind toy_builder.
Lemma toy_holds_all : holds_all toy_builder = true. Proof. exact (proj1 toy_facts_split). Qed.
Lemma toy_balance_fails : balance_fails toy_builder = true. Proof. exact (proj1 (proj2 toy_facts_split)). Qed.
Lemma toy_kind_1 : outcome_kind toy_builder toy_rng = 1. Proof. exact (proj1 (Z.eqb_eq _ _) (proj1 (proj2 (proj2 toy_facts_split)))). Qed.
Lemma toy_kind_2 : outcome_kind toy_builder toy_r0 = 2. Proof. exact (proj1 (Z.eqb_eq _ _) (proj1 (proj2 (proj2 (proj2 toy_facts_split))))). Qed.
Lemma toy_balanced : (spent toy_builder =? sent toy_builder) = true. Proof. exact (proj2 (proj2 (proj2 (proj2 toy_facts_split)))). Qed.
#[local] Transparent holds_all balance_fails outcome_kind toy_builder.
#[local] Opaque toy_builder build value_balance.

Lemma toy_builds : exists bd meta r', build (fun i : Z => Some i) 5 toy_builder toy_rng = Ret (Ok (Some (bd, meta)), r').
Proof.
  pose proof toy_kind_1 as K. unfold outcome_kind in K. destruct (build _ 5 toy_builder toy_rng) as [[[[[bd meta]|]|[]] r']|w|]; try discriminate K.
  exists bd, meta, r'. reflexivity.
Qed.
Lemma toy_holds : length (bl_spends toy_builder) = 4%nat /\ length (bl_outputs toy_builder) = 4%nat.
Proof.
  pose proof toy_holds_all as K. apply andb_true_iff in K as [K1 K2]. split; apply Nat.eqb_eq; assumption.
Qed.

Lemma balance_order_dependent :
  exists (C : Curve) (OR : @Oracles C) (t : bundle_type) (anchor : Z) (b : builder) (r1 r2 : rng),
    CurveLaws C /\ gd_fallback_ok /\ reachable t anchor b /\ spent b = sent b /\
    value_balance (fun i : Z => Some i) b = Ret (Err OverflowError) /\
    (exists bd meta r', build (fun i : Z => Some i) 5 b r1 = Ret (Ok (Some (bd, meta)), r') /\ b_value_balance bd = 0) /\
    (exists r', build (fun i : Z => Some i) 5 b r2 = Ret (Err BE_ValueSum, r')).
Proof.
  exists toy_curve, toy_oracles, toy_type, toy_anchor, toy_builder, toy_rng, toy_r0.
  split; [exact toy_laws|]. split; [exact toy_gd|]. split; [exact toy_reachable|].
  assert (B : spent toy_builder = sent toy_builder) by (apply Z.eqb_eq; exact toy_balanced).
  split; [exact B|]. pose proof toy_balance_fails as K1. pose proof toy_kind_2 as K2. split; [|split].
  - unfold balance_fails in K1. destruct (value_balance _ toy_builder) as [[v|[]]|w|]; try discriminate K1. reflexivity.
  - destruct toy_builds as (bd & meta & r' & H). exists bd, meta, r'. split; [exact H|].
    destruct (build_balance toy_laws (fun i : Z => Some i) _ _ _ toy_gd toy_reachable) as (H1 & _).
    apply H1 in H. rewrite B, Z.sub_diag in H. congruence.
  - unfold outcome_kind in K2. destruct (build _ 5 toy_builder toy_r0) as [[[[[bd meta]|]|[]] r']|w|]; try discriminate K2.
    exists r'. reflexivity.
Qed.

Lemma toy_reader : exists key, ivk_ok key /\ owned_by key my_addr.
Proof.
  destruct (fvk_ok_to_ivk toy_laws toy_fvk External toy_fvk_ok) as (k & H2 & H3). exists k. split; [exact H3|].
  exact (address_at_owned _ _ _ _ _ H2 my_addr_derived).
Qed.

Lemma toy_small : exists b, reachable toy_type 7 b /\ spent b = 0 /\ sent b = 12.
Proof.
  assert (K : Forall call_ok [AddOutput (Some toy_ovk) my_addr 5 None; AddOutput None my_addr 7 None]).
  { repeat apply Forall_cons; [| |apply Forall_nil].
    - split; [intros k E; assert (k = toy_ovk) by congruence; subst k; reflexivity|]. split; [exact my_addr_ok|].
      split; [unfold is_u64; lia|intros m E; discriminate E].
    - split; [intros k E; discriminate E|]. split; [exact my_addr_ok|].
      split; [unfold is_u64; lia|intros m E; discriminate E]. }
  eexists. split; [eexists _, _; split; [exact K|reflexivity]|]. split; reflexivity.
Qed.
