(** The payments of the builder of ToyRandom. *)
From Coq Require Import String ZArith List Bool.
From Coq Require Import Init.Byte.
From Verif Require Import Prelude Fields Curve Oracles RedPallas Value Keys Note Tree Action NoteEnc Bundle Builder SentSpec
  Toy ToyKeys ToyNote ToyNoteEnc ToyBuilder ToyRandom.
Import ListNotations.
Open Scope Z_scope.
#[local] Opaque my_addr.
Lemma pay_requested : requested toy_ovk pay_builder = [(my_addr, 5, xf6 :: repeat x00 511)].
Proof. reflexivity. Qed.
