(** A concrete key on the computable curve, used by the [Example]s. *)
From Coq Require Import String ZArith List Bool Lia.
From Coq Require Import Init.Byte.
From Verif Require Import Prelude Fields Curve Oracles Sinsemilla RedPallas Keys
  PreludeFacts CurveFacts CodecFacts KeysSpec KeysFacts Toy ToyFacts.
Import ListNotations.
Open Scope Z_scope.

Definition toy_sk : bytes := repeat x01 32.

Lemma toy_sk_ok : sk_from_bytes toy_sk = Ret (Some toy_sk).
Proof.
  assert (H : match sk_from_bytes toy_sk with Ret (Some _) => true | _ => false end = true)
    by (vm_compute; reflexivity).
  destruct (sk_from_bytes toy_sk) as [[sk'|]|w|] eqn:E; try discriminate H.
  f_equal. f_equal. apply (sk_from_bytes_inv _ _ E).
Qed.

Lemma toy_basepoint : basepoint SpendAuth <> pt_id.
Proof. intro H. apply (f_equal toy_k) in H. vm_compute in H. discriminate H. Qed.

Lemma toy_gd : gd_fallback_ok.
Proof. intro H. apply (f_equal toy_k) in H. vm_compute in H. discriminate H. Qed.

Definition toy_fvk : fvk :=
  match fvk_from_sk toy_sk with Ret f => f | _ => mk_fvk pt_id 0 0 end.

Lemma toy_fvk_ret : fvk_from_sk toy_sk = Ret toy_fvk.
Proof.
  unfold toy_fvk. destruct (sk_usable toy_laws _ _ toy_sk_ok) as (_ & f & H & _). rewrite H. reflexivity.
Qed.

Lemma toy_fvk_ok : fvk_ok toy_fvk.
Proof. exact (sk_fvk_ok toy_laws _ _ _ toy_basepoint toy_sk_ok toy_fvk_ret). Qed.

Lemma toy_fvk_ok_ex : exists f, fvk_from_sk toy_sk = Ret f /\ fvk_ok f.
Proof. exact (ex_intro _ toy_fvk (conj toy_fvk_ret toy_fvk_ok)). Qed.

Lemma toy_ivk_ex : exists k, gd_fallback_ok /\ fvk_to_ivk toy_fvk Internal = Ret k /\ ivk_ok k.
Proof.
  destruct (fvk_ok_to_ivk toy_laws toy_fvk Internal toy_fvk_ok) as (k & H1 & H2).
  exists k. exact (conj toy_gd (conj H1 H2)).
Qed.

Lemma toy_internal_address_ex :
  exists f a, fvk_ok f /\ fvk_address_at f (div_index_of_u32 3) Internal = Ret a.
Proof.
  destruct (fvk_ok_usable toy_laws toy_fvk toy_fvk_ok Internal) as (_ & _ & H & _).
  destruct (H (div_index_of_u32 3)) as [a Ha]. exists toy_fvk, a. exact (conj toy_fvk_ok Ha).
Qed.

Lemma toy_ask_ex : exists ask, ask_from_sk toy_sk = Ret ask.
Proof.
  destruct (fvk_from_sk_spec _ _ toy_fvk_ret) as (ask & H & _). exists ask. exact H.
Qed.

(** Oracles whose BLAKE2b is constantly zero. *)
Definition zero_oracles : @Oracles toy_curve := {|
  o_blake2b := fun n pers msg => repeat x00 n;
  o_hash_to_curve := @o_hash_to_curve _ toy_oracles;
  o_poseidon := @o_poseidon _ toy_oracles;
  o_keystream := @o_keystream _ toy_oracles;
  o_tag := @o_tag _ toy_oracles;
  o_ff1 := @o_ff1 _ toy_oracles;
  rng := Z;
  o_rng_bytes := fun r n => (le_bytes n (1000 + 17 * r), r + 1);
  o_rng_below := fun r n => (Z.to_nat (r mod 7), r + 1);
  o_rng_point := fun r => (toy_pt (2000 + 19 * r), r + 1)
|}.

Lemma sk_from_bytes_can_panic :
  exists (C : Curve) (OR : @Oracles C) (sk : bytes),
    CurveLaws C /\ length sk = 32%nat /\ exists why, sk_from_bytes sk = Panic why.
Proof.
  exists toy_curve, zero_oracles, toy_sk. split; [exact toy_laws|]. split; [reflexivity|].
  eexists. apply sk_from_bytes_panics. vm_compute. reflexivity.
Qed.
