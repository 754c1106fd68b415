(** Small specification for a group of wallets that only pay each other (C102). *)
From Coq Require Import String ZArith List Bool.
From Coq Require Import Init.Byte.
From Verif Require Import Prelude Fields Curve Oracles Spec RedPallas Value Keys KeysSpec Note NoteSpec Tree TreeSpec Action NoteEnc
  Bundle Batch Builder Signing BuilderSpec SigningSpec Circuit PipelineSpec LedgerSpec WalletSpec LifeSpec BalanceSpec.
Import ListNotations.
Open Scope Z_scope.

Section Spec.
  Context {C : Curve} {OR : @Oracles C} {V : Type}.
  Variables (halo2_prove : list witness -> list (list Z) -> rng -> option bytes * rng) (halo2_verify : bytes -> list (list Z) -> bool)
    (try_from : Z -> option V) (into : V -> Z).

  (** The address belongs to exactly one of the wallets. *)
  Definition one_owner (fs : list fvk) (ad : address) : Prop :=
    exists l f l', fs = l ++ f :: l' /\ addressed f ad /\ forall g, In g (l ++ l') -> ~ addressed g ad.
  (** All value that the builder spends or sends is at addresses of the group. *)
  Definition inside (fs : list fvk) (b : builder) : Prop :=
    (forall s, In s (bl_spends b) -> n_value (s_note s) <> 0 -> one_owner fs (n_recipient (s_note s))) /\
    (forall o, In o (bl_outputs b) -> o_value o <> 0 -> one_owner fs (o_recipient o)).

  (** Every transaction was made with the crate inside the group and accepted, and spends only notes their owners
      found. Value enters and leaves through the value balances of the transactions only. *)
  Inductive economy (fs : list fvk) : list (entry C V) -> ledger -> Prop :=
  | E_start : economy fs [] genesis
  | E_step : forall es lg e anchor, economy fs es lg ->
      made halo2_prove try_from anchor (en_builder e) (en_tx e) (en_meta e) (en_witnesses e) ->
      accepts halo2_verify into lg (en_tx e) -> inside fs (en_builder e) ->
      (forall f, In f fs -> spends_found f (map en_tx es) (en_builder e)) ->
      economy fs (es ++ [e]) (apply into lg (en_tx e)).
End Spec.
