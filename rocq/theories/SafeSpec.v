(** Small specification for what a stretch of the chain of C63 does to one wallet (C99). *)
From Coq Require Import String ZArith List Bool.
From Coq Require Import Init.Byte.
From Verif Require Import Prelude Fields Curve Oracles Keys Note Action Bundle RedPallas Batch Builder Circuit CircuitSpec PipelineSpec LedgerSpec WalletSpec LifeSpec BalanceSpec PurseSpec MempoolSpec.
Import ListNotations.
Open Scope Z_scope.

Section Spec.
  Context {C : Curve} {OR : @Oracles C} {V : Type}.

  (** The coins of the earlier chain whose nullifier the transactions [h1] reveal. *)
  Definition taken (f : fvk) (h0 h1 : list (@tx C V)) : list (nat * note) :=
    filter (fun c => spent_in f (flat_map tx_nfs h1) (snd c)) (coins f h0).
  (** The coins of the later chain whose commitments [h1] added. *)
  Definition arrived (f : fvk) (h0 h1 : list (@tx C V)) : list (nat * note) :=
    filter (fun c => Nat.leb (length (chain_actions h0)) (fst c)) (coins f (h0 ++ h1)).

  (** The action [a] of the transaction [t] reveals the nullifier of [n] with the proof witness [w]. *)
  Definition reveals (extract : bytes -> list (list Z) -> list action_cells) (f : fvk) (n : note) (t : @tx C V) (a : action signature) (w : witness) : Prop :=
    In a (b_actions (fst t)) /\ note_nullifier n f = Ret (a_nf a) /\ In w (map cells_witness (cells_of extract t)).
  (** It spends exactly that note with the keys of the wallet, and whoever signed it for this transaction knew
      the spend authorizing key. *)
  Definition by_owner (sx : point -> bytes -> signature -> Z) (f : fvk) (n : note) (t : @tx C V) (a : action signature) (w : witness) : Prop :=
    spends_own f n w /\ signed_by_owner f (sx (a_rk a) (snd t) (a_auth a) - w_alpha w).
  (** Or it gives away a relation between generators, read off the note, the viewing key and the witness. *)
  Definition by_relation (f : fvk) (n : note) (w : witness) : Prop :=
    nullifier_relation (spent_secret w) (own_secret f n) \/ exists s, foreign_opening f s w.
End Spec.
