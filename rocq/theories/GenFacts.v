(** Facts about the hashed generators (C68). *)
From Coq Require Import String ZArith List Bool Lia.
From Coq Require Import Init.Byte Strings.Byte.
From Verif Require Import Prelude Fields Curve Oracles RedPallas Sinsemilla Value Keys Note PreludeFacts CurveFacts GenSpec.
Import ListNotations.
Open Scope Z_scope.

Lemma inputs_differ : forall g g', generator_ok g -> generator_ok g' ->
  domain_of g = domain_of g' -> message_of g = message_of g' -> g = g'.
Proof.
  intros g g' K K' D M. destruct g, g'; try reflexivity; try discriminate D; try discriminate M.
  - cbn [generator_ok message_of] in *. f_equal. apply (le_bytes_inj 4); [clear - K; cbn in K |- *; lia|clear - K'; cbn in K' |- *; lia|exact M].
  - cbn [message_of] in M. subst. reflexivity.
Qed.

Section Gen.
  Context {C : Curve} {OR : @Oracles C}.
  Variable L : CurveLaws C.

  (** A diversified base is the hash of the diversifier or of the empty string. *)
  Lemma point_hash : forall g, exists m, generator_point g = hash_to_curve (domain_of g) m /\
    (m = message_of g \/ m = [] /\ (exists d, g = Diversified d) /\ hash_to_curve (domain_of g) (message_of g) = pt_id).
  Proof.
    intro g. destruct g; try (eexists; split; [reflexivity|left; reflexivity]).
    cbn [generator_point domain_of message_of]. unfold diversify_hash.
    destruct (pt_is_id (hash_to_curve "z.cash:Orchard-gd" d)) eqn:E.
    - exists []. split; [reflexivity|]. right. split; [reflexivity|]. split; [eauto|].
      apply (is_id_true L) in E. exact E.
    - exists d. split; [reflexivity|left; reflexivity].
  Qed.

  Lemma input_dec : forall g g', generator_ok g -> generator_ok g' ->
    g = g' \/ (domain_of g, message_of g) <> (domain_of g', message_of g').
  Proof.
    intros g g' K K'. destruct (string_dec (domain_of g) (domain_of g')) as [D|D].
    - destruct (list_eq_dec Byte.byte_eq_dec (message_of g) (message_of g')) as [M|M].
      + left. exact (inputs_differ g g' K K' D M).
      + right. intro X. apply M. injection X. auto.
    - right. intro X. apply D. injection X. auto.
  Qed.
  Lemma gd_not_empty : forall d g', length d = 11%nat -> generator_ok g' ->
    (domain_of (Diversified d), ([] : bytes)) <> (domain_of g', message_of g').
  Proof.
    intros d g' H K X. destruct g'; try discriminate X. injection X as X. cbn [generator_ok] in K. subst d0. discriminate K.
  Qed.

  Lemma generators_distinct : forall g g', generator_ok g -> generator_ok g' -> generator_point g = generator_point g' ->
    g = g' \/ hash_collision g g'.
  Proof.
    intros g g' K K' E. destruct (input_dec g g' K K') as [X|X]; [left; exact X|]. right. revert E.
    destruct (point_hash g) as (m & -> & [-> | (-> & (d & G) & I)]), (point_hash g') as (m' & -> & [-> | (-> & (d' & G') & I')]); intro E.
    - exists (domain_of g, message_of g), (domain_of g', message_of g'). split; [left; reflexivity|]. split; [left; reflexivity|]. split; assumption.
    - exists (domain_of g, message_of g), (domain_of g', []). split; [left; reflexivity|]. split; [subst g'; right; left; reflexivity|].
      split; [|exact E]. subst g'. intro Y. symmetry in Y. revert Y. apply gd_not_empty; assumption.
    - exists (domain_of g, []), (domain_of g', message_of g'). split; [subst g; right; left; reflexivity|]. split; [left; reflexivity|].
      split; [|exact E]. subst g. apply gd_not_empty; assumption.
    - exists (domain_of g, message_of g), (domain_of g', message_of g'). split; [left; reflexivity|]. split; [left; reflexivity|].
      split; [exact X|]. cbn [fst snd]. rewrite I, I'. reflexivity.
  Qed.
End Gen.
