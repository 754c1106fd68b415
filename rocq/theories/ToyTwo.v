(** A second wallet on the computable curve. *)
From Coq Require Import String ZArith List Bool Lia.
From Coq Require Import Init.Byte.
From Verif Require Import Prelude PreludeFacts Fields Curve CurveFacts Oracles Spec RedPallas Value Keys KeysSpec KeysFacts Note NoteSpec
  CodecFacts Toy ToyFacts ToyKeys ToyNote ToyNoteEnc ToyBuilder.
Import ListNotations.
Open Scope Z_scope.

Definition toy_sk2 : bytes := repeat x02 32.
Definition toy_fvk2 : fvk := match fvk_from_sk toy_sk2 with Ret f => f | _ => mk_fvk pt_id 0 0 end.
Definition my_addr2 : address :=
  match fvk_address_at toy_fvk2 (div_index_of_u32 4) External with Ret a => a | _ => toy_addr end.

Lemma toy_sk2_ok : sk_from_bytes toy_sk2 = Ret (Some toy_sk2).
Proof.
  assert (H : match sk_from_bytes toy_sk2 with Ret (Some _) => true | _ => false end = true) by (vm_compute; reflexivity).
  destruct (sk_from_bytes toy_sk2) as [[sk'|]|w|] eqn:E; try discriminate H.
  f_equal. f_equal. apply (sk_from_bytes_inv _ _ E).
Qed.
Lemma toy_fvk2_ok : fvk_ok toy_fvk2.
Proof.
  assert (R : fvk_from_sk toy_sk2 = Ret toy_fvk2).
  { unfold toy_fvk2. destruct (sk_usable toy_laws _ _ toy_sk2_ok) as (_ & f & H & _). rewrite H. reflexivity. }
  exact (sk_fvk_ok toy_laws _ _ _ toy_basepoint toy_sk2_ok R).
Qed.
Lemma my_addr2_derived : fvk_address_at toy_fvk2 (div_index_of_u32 4) External = Ret my_addr2.
Proof.
  assert (H : match fvk_address_at toy_fvk2 (div_index_of_u32 4) External with Ret _ => true | _ => false end = true) by (vm_compute; reflexivity).
  unfold my_addr2. destruct (fvk_address_at toy_fvk2 (div_index_of_u32 4) External) as [a|w|]; [reflexivity|discriminate H|discriminate H].
Qed.
#[local] Opaque fvk_address_at toy_fvk2 my_addr2.
Lemma my_addr2_ok : address_ok my_addr2.
Proof. exact (address_at_ok _ _ _ _ toy_fvk2_ok (le_bytes_length 11 4) my_addr2_derived). Qed.
