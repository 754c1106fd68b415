(** Who can read an output, and when two readers could disagree (C83); what one signature is valid for (C84). *)
From Coq Require Import String ZArith List Bool.
From Coq Require Import Init.Byte.
From Verif Require Import Prelude Fields Curve Oracles Sinsemilla RedPallas Keys Note Action NoteEnc Bundle
  KeysSpec SinsSpec NoteSpec BundleSpec.
Import ListNotations.
Open Scope Z_scope.

Section Spec.
  Context {C : Curve} {OR : @Oracles C}.

  (** Someone reads the note, its address and the memo in an action: the holder of an incoming viewing key or of an
      outgoing viewing key. *)
  Inductive reads {A} (a : action A) : note * address * bytes -> Prop :=
  | reads_incoming : forall k p, ivk_ok k -> try_note_decryption k a = Ret (Some p) -> reads a p
  | reads_outgoing : forall ovk p, try_output_recovery ovk a = Ret (Some p) -> reads a p.
  (** ... or a light client with the compact form, which has no memo. *)
  Inductive reads_note {A} (a : action A) : note * address -> Prop :=
  | reads_full : forall p, reads a p -> reads_note a (fst p)
  | reads_compact : forall k p, ivk_ok k -> try_compact_note_decryption k (compact_of_action a) = Ret (Some p) ->
      reads_note a p.

  (** Two different notes that one commitment could stand for. Each case is a collision computed from the two notes: in
      the note commitment, in the hash to a diversified base, or in the derivation of psi and rcm from the seed. *)
  Definition ambiguous (n n' : note) : Prop :=
    sins_relation_R (sins_Q "z.cash:Orchard-NoteCommit-M") (commit_R "z.cash:Orchard-NoteCommit")
      (msg_words (note_msg n)) (msg_words (note_msg n'))
      (rseed_rcm (n_rseed n) (n_rho n)) (rseed_rcm (n_rseed n') (n_rho n')) \/
    (ad_d (n_recipient n) <> ad_d (n_recipient n') /\
     diversify_hash (ad_d (n_recipient n)) = diversify_hash (ad_d (n_recipient n'))) \/
    (n_rseed n <> n_rseed n' /\ n_rho n = n_rho n' /\
     rseed_psi (n_rseed n) (n_rho n) = rseed_psi (n_rseed n') (n_rho n') /\
     rseed_rcm (n_rseed n) (n_rho n) = rseed_rcm (n_rseed n') (n_rho n')).

  (** Two messages with one challenge, for a given signature and key. *)
  Definition challenge_collision (vk : point) (s : signature) (m m' : bytes) : Prop :=
    let x := sig_r s ++ pt_encode vk ++ m in
    let x' := sig_r s ++ pt_encode vk ++ m' in
    x <> x' /\ hstar x = hstar x'.
End Spec.
