(** Facts about key indices (src/zip32.rs) and the named flag sets (src/bundle.rs). *)
From Coq Require Import String ZArith List Bool Lia.
From Coq Require Import Init.Byte.
From Verif Require Import Prelude PreludeFacts Fields Curve Oracles Keys Bundle Builder Zip32 Zip32Facts CodecFacts.
Import ListNotations.
Open Scope Z_scope.

Lemma key_index_new_iff (depth i : Z) (k : option Z) :
  key_index_new depth i = Some k <->
  (depth = 0 /\ i = 0 /\ k = None) \/ (depth <> 0 /\ 2 ^ 31 <= i /\ k = Some i).
Proof.
  unfold key_index_new, child_from_index.
  destruct (Z.eqb_spec depth 0) as [D|D].
  - destruct (Z.eqb_spec i 0) as [I|I]; split.
    + intro H; injection H as H; left; auto.
    + intros [[_ [_ ->]]|[N _]]; [reflexivity|contradiction].
    + discriminate.
    + intros [[_ [N _]]|[N _]]; contradiction.
  - destruct (Z.leb_spec (2 ^ 31) i) as [I|I]; split.
    + intro H; injection H as H; right; auto.
    + intros [[N _]|[_ [_ ->]]]; [contradiction|reflexivity].
    + discriminate.
    + intros [[N _]|[_ [N _]]]; [contradiction|lia].
Qed.

Lemma key_index_round (depth i : Z) (k : option Z) :
  key_index_new depth i = Some k -> key_index_index k = i.
Proof.
  intro H; apply key_index_new_iff in H.
  destruct H as [[_ [-> ->]]|[_ [_ ->]]]; reflexivity.
Qed.

Section S.
Context {C : Curve} {OR : @Oracles C}.

Lemma path_key_index (seed : bytes) (path : list Z) (k : xsk) :
  Forall (fun i => 2 ^ 31 <= i < 2 ^ 32) path ->
  xsk_from_path seed path = Ret (Ok k) ->
  key_index_index (x_child_index k) = last path 0 /\
  key_index_new (x_depth k) (key_index_index (x_child_index k)) = Some (x_child_index k).
Proof.
  intros F H. pose proof (from_path_spec _ _ _ H) as (D & _ & _ & M).
  destruct (rev path) as [|i rest] eqn:R.
  - destruct M as (_ & _ & ->).
    assert (path = []) as -> by (rewrite <- (rev_involutive path), R; reflexivity).
    rewrite D. split; reflexivity.
  - destruct M as (p & f & _ & _ & -> & _).
    assert (E : path = rev rest ++ [i]) by (rewrite <- (rev_involutive path), R; reflexivity).
    cbn [key_index_index]. split.
    + rewrite E, last_last. reflexivity.
    + apply key_index_new_iff. right. rewrite D, E, app_length, Nat2Z.inj_add. cbn [length].
      rewrite E in F. apply Forall_app in F. destruct F as [_ F].
      apply Forall_inv in F. pose proof (Nat2Z.is_nonneg (length (rev rest))).
      split; [lia|]. split; [exact (proj1 F)|reflexivity].
Qed.
End S.

Lemma named_flags :
  (spends_enabled flags_enabled = true /\ outputs_enabled flags_enabled = true /\
   flags_to_byte flags_enabled = 3) /\
  (spends_enabled flags_spends_disabled = false /\ outputs_enabled flags_spends_disabled = true /\
   flags_to_byte flags_spends_disabled = 2) /\
  (spends_enabled flags_outputs_disabled = true /\ outputs_enabled flags_outputs_disabled = false /\
   flags_to_byte flags_outputs_disabled = 1).
Proof. repeat split; reflexivity. Qed.

Lemma named_types (ns no : nat) :
  num_actions bt_default ns no = Ok (if Nat.eqb (ns + no) 0 then 0%nat else Nat.max 2 (Nat.max ns no)) /\
  (forall n, num_actions bt_disabled ns no = Ok n <-> (ns + no)%nat = 0%nat /\ n = 0%nat) /\
  (forall n, num_actions Coinbase ns no = Ok n <-> ns = 0%nat /\ n = no).
Proof.
  split; [|split].
  - pose proof (num_actions_spec bt_default ns no) as H; cbn zeta in H.
    destruct (num_actions bt_default ns no) as [n|e].
    + destruct H as (_ & _ & ->). destruct ns, no; reflexivity.
    + destruct H as [[H _]|[H _]]; discriminate H.
  - intro n. pose proof (num_actions_spec bt_disabled ns no) as H; cbn zeta in H.
    destruct (num_actions bt_disabled ns no) as [m|e].
    + destruct H as (A & B & E). destruct A as [A|A]; [discriminate A|].
      destruct B as [B|B]; [discriminate B|]. subst. cbn in *. split.
      * intro H; injection H as <-. split; reflexivity.
      * intros [_ ->]. reflexivity.
    + split; [discriminate|]. intros [Z _]. exfalso.
      destruct H as [[_ H]|[_ H]]; lia.
  - intro n. pose proof (num_actions_spec Coinbase ns no) as H; cbn zeta in H.
    destruct (num_actions Coinbase ns no) as [m|e].
    + destruct H as (A & _ & E). destruct A as [A|A]; [discriminate A|]. subst. split.
      * intro H; injection H as <-. split; reflexivity.
      * intros [_ ->]. reflexivity.
    + split; [discriminate|]. intros [Z _]. exfalso.
      destruct H as [[_ H]|[H _]]; [lia|discriminate H].
Qed.
