(** Small specification for the life of a payment on the chain of C63 (C80). *)
From Coq Require Import String ZArith List Bool.
From Coq Require Import Init.Byte.
From Verif Require Import Prelude Fields Curve Oracles RedPallas Value Keys Note Tree TreeSpec Action NoteEnc Bundle Batch Builder Signing
  BuilderSpec SigningSpec Circuit PipelineSpec LedgerSpec WalletSpec.
Import ListNotations.
Open Scope Z_scope.

Section Spec.
  Context {C : Curve} {OR : @Oracles C} {V : Type}.

  (** A transaction made with the crate from the builder [b], for [anchor]: built, proved and signed
      in any order, finalized. [meta] tells where requests went, [ws] are the proof witnesses. *)
  Definition made (halo2_prove : list witness -> list (list Z) -> rng -> option bytes * rng) (try_from : Z -> option V)
    (anchor : Z) (b : builder) (t : @tx C V) (meta : bundle_metadata) (ws : list witness) : Prop :=
    exists ty fuel r b0 r' b1, reachable ty anchor b /\ build try_from fuel b r = Ret (Ok (Some (b0, meta)), r') /\
      history halo2_prove b0 (snd t) true b1 /\ finalize b1 = Ret (Ok (fst t)) /\ ws = up_circuits (ip_proof (b_auth b0)).

  (** The anchor is the root of the tree at some earlier moment. *)
  Definition known_anchor (lg : ledger) (anchor : Z) : Prop :=
    exists n, (n <= length (lg_cmxs lg))%nat /\ anchor = tree_root (leaves_of (firstn n (lg_cmxs lg))) 32.

  (** The requested notes have not been spent, and are different notes. *)
  Definition unspent (lg : ledger) (b : builder) : Prop :=
    forall s nf, In s (bl_spends b) -> note_nullifier (s_note s) (s_fvk s) = Ret nf -> ~ In nf (lg_nfs lg).
  Definition different_notes (b : builder) : Prop := NoDup (map (fun s => n_rho (s_note s)) (bl_spends b)).

  (** The [k]-th action is padding, and by chance its nullifier was used before or is used again. *)
  Definition padding_repeats (lg : ledger) (t : @tx C V) (meta : bundle_metadata) : Prop :=
    exists k a, (forall i, spend_action_index meta i <> Some k) /\ nth_error (b_actions (fst t)) k = Some a /\
      (In (a_nf a) (lg_nfs lg) \/
       exists j a', j <> k /\ nth_error (b_actions (fst t)) j = Some a' /\ a_nf a' = a_nf a).
  (** Two of the requested notes share a nullifier: a discrete-log relation. *)
  Definition requests_collide (b : builder) : Prop :=
    exists i j s s', i <> j /\ nth_error (bl_spends b) i = Some s /\ nth_error (bl_spends b) j = Some s' /\
      nullifier_relation (own_secret (s_fvk s) (s_note s)) (own_secret (s_fvk s') (s_note s')).
End Spec.
