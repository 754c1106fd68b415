(** Properties C83, C84 (src/note_encryption.rs, src/note/commitment.rs, src/primitives/redpallas.rs, src/bundle.rs). *)
From Coq Require Import String ZArith List Bool.
From Coq Require Import Init.Byte.
From Verif Require Import Prelude Fields Curve Oracles RedPallas Value Keys Note Action NoteEnc Bundle
  KeysSpec NoteSpec NoteEncSpec BundleSpec ReadersSpec ReadersFacts Toy ToyFacts ToyKeys ToyNote ToyNoteEnc ToyReaders.
Import ListNotations.
Open Scope Z_scope.

(** C83: on any action whatever, made by anyone, all who can read it read the same note, address and memo, unless the two
    notes they read are themselves a collision. *)
Theorem C83_readers_agree :
  forall (C : Curve) (OR : @Oracles C) (L : CurveLaws C) (A : Type) (a : action A)
    (n : note) (to : address) (memo : bytes) (n' : note) (to' : address) (memo' : bytes),
  gd_fallback_ok -> action_ok a -> reads a (n, to, memo) -> reads a (n', to', memo') ->
  (n, to, memo) = (n', to', memo') \/ ambiguous n n'.
Proof. exact @readers_agree. Qed.
Print Assumptions C83_readers_agree.

(** C83: light clients read the same note and address as everyone else. *)
Theorem C83_light_clients_agree :
  forall (C : Curve) (OR : @Oracles C) (L : CurveLaws C) (A : Type) (a : action A)
    (n : note) (to : address) (n' : note) (to' : address),
  gd_fallback_ok -> action_ok a -> reads_note a (n, to) -> reads_note a (n', to') ->
  (n, to) = (n', to') \/ ambiguous n n'.
Proof. exact @note_readers_agree. Qed.
Print Assumptions C83_light_clients_agree.

(** C83: an output can be found with one incoming viewing key only. *)
Theorem C83_one_recipient :
  forall (C : Curve) (OR : @Oracles C) (L : CurveLaws C) (A : Type) (a : action A) (k k' : ivk)
    (n : note) (to : address) (n' : note) (to' : address),
  gd_fallback_ok -> action_ok a -> ivk_ok k -> ivk_ok k' ->
  try_compact_note_decryption k (compact_of_action a) = Ret (Some (n, to)) ->
  try_compact_note_decryption k' (compact_of_action a) = Ret (Some (n', to')) ->
  ivk_ivk k = ivk_ivk k' \/ ambiguous n n'.
Proof. exact @one_reader. Qed.
Print Assumptions C83_one_recipient.

Example C83_example : exists a : action unit, gd_fallback_ok /\ action_ok a /\ ivk_ok toy_ivk /\
  try_note_decryption toy_ivk a = Ret (Some (toy_sent, n_recipient toy_sent, toy_memo)) /\
  try_compact_note_decryption toy_ivk (compact_of_action a) = Ret (Some (toy_sent, n_recipient toy_sent)) /\
  try_output_recovery toy_ovk a = Ret (Some (toy_sent, n_recipient toy_sent, toy_memo)).
Proof. exact toy_readers. Qed.

(** C84: a signature is valid for one message only, unless the two messages are a collision of the challenge hash. *)
Theorem C84_signature_has_one_message :
  forall (C : Curve) (OR : @Oracles C) (L : CurveLaws C) (t : sig_type) (vk : point) (m m' : bytes) (s : signature),
  vk <> pt_id -> verify t vk m s = true -> verify t vk m' s = true ->
  m = m' \/ challenge_collision vk s m m'.
Proof. exact @one_message. Qed.
Print Assumptions C84_signature_has_one_message.

(** C84: when the sighash is computed from the bundle commitment, valid bundles that share one spend authorization have the
    same effects. *)
Theorem C84_signatures_fix_effects :
  forall (C : Curve) (OR : @Oracles C) (L : CurveLaws C) (V : Type) (into : V -> Z)
    (b b' : bundle authorized signature V) (halo2_verify : bytes -> list (list Z) -> bool)
    (a a' : action signature) (sighash : bytes -> bytes),
  (forall v w, into v = into w -> v = w) -> bundle_ok into b -> bundle_ok into b' ->
  bundle_valid halo2_verify into b (sighash (bundle_commitment into b)) ->
  bundle_valid halo2_verify into b' (sighash (bundle_commitment into b')) ->
  In a (b_actions b) -> In a' (b_actions b') -> a_rk a = a_rk a' -> a_auth a = a_auth a' -> a_rk a <> pt_id ->
  effects b = effects b' \/ txid_collision into b b' \/
  challenge_collision (a_rk a) (a_auth a) (sighash (bundle_commitment into b)) (sighash (bundle_commitment into b')) \/
  (bundle_commitment into b <> bundle_commitment into b' /\
   sighash (bundle_commitment into b) = sighash (bundle_commitment into b')).
Proof. exact @signatures_fix_effects. Qed.
Print Assumptions C84_signatures_fix_effects.

(** C84: the binding signature cannot be moved to another message either. *)
Theorem C84_binding_signature_stays :
  forall (C : Curve) (OR : @Oracles C) (L : CurveLaws C) (V : Type) (into : V -> Z)
    (b b' : bundle authorized signature V) (halo2_verify : bytes -> list (list Z) -> bool) (bvk : point) (sh sh' : bytes),
  bundle_valid halo2_verify into b sh -> bundle_valid halo2_verify into b' sh' ->
  binding_validating_key into b = Ret bvk -> binding_validating_key into b' = Ret bvk -> bvk <> pt_id ->
  au_binding_sig (b_auth b) = au_binding_sig (b_auth b') ->
  sh = sh' \/ challenge_collision bvk (au_binding_sig (b_auth b)) sh sh'.
Proof. exact @binding_signature_stays. Qed.
Print Assumptions C84_binding_signature_stays.

Example C84_example : exists (b b' : bundle authorized signature Z) a a',
  b <> b' /\ bundle_ok (fun v => v) b /\ bundle_ok (fun v => v) b' /\
  bundle_valid (fun _ _ => true) (fun v => v) b (bundle_commitment (fun v => v) b) /\
  bundle_valid (fun _ _ => true) (fun v => v) b' (bundle_commitment (fun v => v) b') /\
  In a (b_actions b) /\ In a' (b_actions b') /\ a_rk a = a_rk a' /\ a_auth a = a_auth a' /\ a_rk a <> pt_id /\
  (exists bvk, binding_validating_key (fun v => v) b = Ret bvk /\ binding_validating_key (fun v => v) b' = Ret bvk /\ bvk <> pt_id) /\
  au_binding_sig (b_auth b) = au_binding_sig (b_auth b').
Proof. exact toy_shared_signature. Qed.
