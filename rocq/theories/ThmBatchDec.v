(** Property C85 (src/note_encryption.rs, the BatchDomain used by zcash_note_encryption::batch). *)
From Coq Require Import String ZArith List Bool.
From Coq Require Import Init.Byte.
From Verif Require Import Prelude Fields Curve Oracles Keys Note Action NoteEnc BatchDec
  KeysSpec NoteSpec NoteEncSpec BundleSpec BatchDecSpec BatchDecFacts Toy ToyFacts ToyKeys ToyNoteEnc ToyReaders.
Import ListNotations.
Open Scope Z_scope.

(** C85: trying many keys on many actions at once finds for each action what trying the keys one after the other on that
    action finds. *)
Theorem C85_batch_decryption :
  forall (C : Curve) (OR : @Oracles C) (L : CurveLaws C) (A : Type) (ivks : list ivk) (acts : list (action A)),
  gd_fallback_ok -> Forall ivk_ok ivks -> Forall action_ok acts ->
  exists res, batch_try_note_decryption ivks (map output_of_action acts) = Ret res /\
    batch_finds try_note_decryption ivks acts res.
Proof. exact @batch_full. Qed.
Print Assumptions C85_batch_decryption.

Theorem C85_batch_compact_decryption :
  forall (C : Curve) (OR : @Oracles C) (L : CurveLaws C) (ivks : list ivk) (acts : list compact_action),
  gd_fallback_ok -> Forall ivk_ok ivks ->
  Forall (fun c => is_base (c_nf c) /\ is_base (c_cmx c) /\ length (c_enc c) = 52%nat) acts ->
  exists res, batch_try_compact_note_decryption ivks (map output_of_compact acts) = Ret res /\
    batch_finds try_compact_note_decryption ivks acts res.
Proof. exact @batch_compact. Qed.
Print Assumptions C85_batch_compact_decryption.

Example C85_example : exists (a : action unit) x, gd_fallback_ok /\ Forall ivk_ok [mk_ivk (repeat x05 32) 9; toy_ivk] /\
  Forall action_ok [a; a] /\ try_note_decryption toy_ivk a = Ret (Some x).
Proof.
  destruct toy_readers as (a & GD & AO & K & D & _). exists a. eexists. split; [exact GD|]. split; [|split; [|exact D]].
  - constructor; [|constructor; [exact K|constructor]]. split; [reflexivity|split; reflexivity].
  - constructor; [exact AO|constructor; [exact AO|constructor]].
Qed.
