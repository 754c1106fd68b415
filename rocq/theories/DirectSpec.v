(** Small specification for direct calls of the public function [builder::bundle] (C67). *)
From Coq Require Import String ZArith List Bool.
From Coq Require Import Init.Byte.
From Verif Require Import Prelude Fields Curve Oracles RedPallas Value Keys Note Tree Action NoteEnc Bundle Builder
  KeysSpec NoteSpec BuilderSpec.
Import ListNotations.
Open Scope Z_scope.

Section Spec.
  Context {C : Curve} {OR : @Oracles C}.

  (** What [SpendInfo::new] and [OutputInfo::new] give on values the Rust types can hold. *)
  Definition spend_item (s : spend_info) : Prop :=
    exists f n p, call_ok (AddSpend f n p) /\ spend_info_new f n p = Ret (Some s).
  Definition output_item (o : output_info) : Prop :=
    exists k a v m, call_ok (AddOutput k a v m) /\ o = output_info_new k a v m.

  Definition witnessed_by (anchor : Z) (s : spend_info) : Prop := witnessed (s_note s) (s_path s) anchor.

  (** What a direct call must do; [as_builder b] stands for building [b]. The cases exclude each other. *)
  Inductive direct_spec {A} (as_builder : builder -> outcome (result build_error A * rng)) (anchor : Z) (t : bundle_type)
    (spends : list spend_info) (outputs : list output_info) (r : rng) : outcome (result build_error A * rng) -> Prop :=
  | direct_spends_disabled : spends_enabled (bt_flags t) = false -> spends <> [] ->
      direct_spec as_builder anchor t spends outputs r (Ret (Err BE_SpendsDisabled, r))
  | direct_unwitnessed : spends_enabled (bt_flags t) = true -> ~ Forall (witnessed_by anchor) spends ->
      direct_spec as_builder anchor t spends outputs r (Ret (Err BE_AnchorMismatch, r))
  | direct_outputs_disabled : spends_enabled (bt_flags t) = true \/ spends = [] -> Forall (witnessed_by anchor) spends ->
      outputs_enabled (bt_flags t) = false -> outputs <> [] ->
      direct_spec as_builder anchor t spends outputs r (Ret (Err BE_OutputsDisabled, r))
  | direct_accepted : forall b, spends_enabled (bt_flags t) = true \/ spends = [] -> Forall (witnessed_by anchor) spends ->
      outputs_enabled (bt_flags t) = true \/ outputs = [] ->
      reachable t anchor b -> bl_spends b = spends -> bl_outputs b = outputs ->
      direct_spec as_builder anchor t spends outputs r (as_builder b).
End Spec.
