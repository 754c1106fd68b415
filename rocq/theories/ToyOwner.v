(** A wallet and the key of its change addresses: two full viewing keys with a common address (C87). *)
From Coq Require Import String ZArith List Bool Lia.
From Coq Require Import Init.Byte.
From Verif Require Import Prelude Fields Curve Oracles Sinsemilla RedPallas Keys KeysSpec KeysFacts CurveFacts PreludeFacts
  Toy ToyFacts ToyKeys.
Import ListNotations.
Open Scope Z_scope.

(** Stated for any curve, so that nothing is computed on this one. *)
Lemma inner_fvk_ok : forall (C : Curve) (OR : @Oracles C) (L : CurveLaws C) (f fi fii : fvk) kk, fvk_ok f ->
  fvk_derive_internal f = Ret fi -> fvk_derive_internal fi = Ret fii -> ivk_derive_inner fii = Some kk -> fvk_ok fi.
Proof.
  intros C OR L f fi fii kk F D DI KK.
  destruct (fvk_ok_int L f F) as (fi' & k & D' & EA & EN & RV & SR & KI). assert (fi' = fi) by congruence. subst fi'.
  assert (A1 : fvk_ak fi <> pt_id) by (rewrite EA; exact (fo_ak _ F)).
  assert (A2 : pt_y (fvk_ak fi) mod 2 = 0) by (rewrite EA; exact (fo_sign _ F)).
  assert (A3 : is_base (fvk_nk fi)) by (rewrite EN; exact (fo_nk _ F)).
  exact (fvk_ok_intro L fi kk A1 A2 A3 SR k fii KI DI KK).
Qed.
Lemma inner_address : forall (C : Curve) (OR : @Oracles C) (f fi : fvk) j a,
  fvk_derive_internal f = Ret fi -> fvk_address_at f j Internal = Ret a -> fvk_address_at fi j External = Ret a.
Proof.
  intros C OR f fi j a D H. unfold fvk_address_at in *. cbn [fvk_to_ivk] in *. rewrite D in H. cbn [obind] in H. exact H.
Qed.

Definition inner_ok (f : @fvk toy_curve) : bool :=
  match fvk_derive_internal f with
  | Ret fi => negb (fvk_rivk fi =? fvk_rivk f) &&
      match fvk_derive_internal fi with
      | Ret fii => match ivk_derive_inner fii with Some _ => true | None => false end
      | _ => false
      end
  | _ => false
  end.
Lemma toy_inner : inner_ok toy_fvk = true. Proof. vm_compute. reflexivity. Qed.
#[local] Opaque toy_fvk fvk_derive_internal ivk_derive_inner.

Lemma toy_shared : exists f fi a, fvk_ok f /\ fvk_ok fi /\ f <> fi /\ derives f Internal a /\ derives fi External a.
Proof.
  pose proof toy_inner as T. unfold inner_ok in T.
  destruct (fvk_derive_internal toy_fvk) as [fi|w|] eqn:D; try discriminate T.
  apply andb_true_iff in T as [T1 T2]. apply negb_true_iff in T1. apply Z.eqb_neq in T1.
  destruct (fvk_derive_internal fi) as [fii|w|] eqn:DI; try discriminate T2.
  destruct (ivk_derive_inner fii) as [kk|] eqn:KK; [|discriminate T2].
  destruct (fvk_ok_usable toy_laws toy_fvk toy_fvk_ok Internal) as (_ & _ & H & _).
  destruct (H (div_index_of_u32 3)) as [a Ha]. exists toy_fvk, fi, a.
  split; [exact toy_fvk_ok|]. split; [exact (inner_fvk_ok _ _ toy_laws _ _ _ _ toy_fvk_ok D DI KK)|].
  split; [intro X; apply T1; rewrite X; reflexivity|].
  split; [exists (div_index_of_u32 3); split; [reflexivity|exact Ha]|].
  exists (div_index_of_u32 3). split; [reflexivity|exact (inner_address _ _ _ _ _ _ D Ha)].
Qed.
