(** Which spending keys are accepted, exactly (C30). *)
From Coq Require Import String ZArith List Bool Lia.
From Coq Require Import Init.Byte.
From Verif Require Import Prelude Fields Curve Oracles Sinsemilla RedPallas Keys PreludeFacts CurveFacts KeysSpec KeysFacts.
Import ListNotations.
Open Scope Z_scope.

Section Sk.
  Context {C : Curve} {OR : @Oracles C} (L : CurveLaws C).

  Lemma sk_accepted : forall sk f, fvk_from_sk sk = Ret f -> fvk_ok f -> sk_from_bytes sk = Ret (Some sk).
  Proof.
    intros sk f HF K. unfold sk_from_bytes. rewrite HF. cbn [obind].
    destruct (fvk_ok_ext f K) as [ke HE]. destruct (fvk_ok_int L f K) as (fi & ki & HD & _ & _ & _ & _ & HI).
    rewrite HE, HD. cbn [obind]. rewrite HI. cbn [is_some negb orb].
    destruct (fvk_from_sk_spec _ _ HF) as (ask & HA & _). destruct (ask_from_sk_inv L _ _ HA) as (NZ & _).
    change (to_scalar (prf_expand sk dom_orchard_ask [])) with (ask_inner sk) in NZ.
    rewrite (proj2 (Z.eqb_neq _ _) NZ). reflexivity.
  Qed.

  Lemma sk_accepted_exactly : forall sk, basepoint SpendAuth <> pt_id ->
    (sk_from_bytes sk = Ret (Some sk) <-> exists f, fvk_from_sk sk = Ret f /\ fvk_ok f) /\
    (sk_from_bytes sk = Ret None <-> exists f, fvk_from_sk sk = Ret f /\ ~ fvk_ok f).
  Proof.
    intros sk G. split; split.
    - intro H. destruct (sk_usable L _ _ H) as (_ & f & HF & _). exists f. split; [exact HF|]. exact (sk_fvk_ok L _ _ _ G H HF).
    - intros (f & HF & K). exact (sk_accepted sk f HF K).
    - intro H. pose proof H as H0. unfold sk_from_bytes in H0. destruct (fvk_from_sk sk) as [f|w|] eqn:HF; cbn [obind] in H0; try discriminate H0.
      exists f. split; [reflexivity|]. intro K. rewrite (sk_accepted sk f HF K) in H. discriminate H.
    - intros (f & HF & N). destruct (sk_from_bytes_panic_iff L sk) as [P1 P2].
      destruct (Z.eq_dec (to_scalar (prf_expand sk dom_orchard_ask [])) 0) as [E|E].
      + destruct (fvk_from_sk_spec _ _ HF) as (ask & HA & _). destruct (ask_from_sk_inv L _ _ HA) as (NZ & _). contradiction.
      + destruct (proj1 P2 E) as [H|H]; [exact H|]. destruct (N (sk_fvk_ok L _ _ _ G H HF)).
  Qed.
End Sk.
