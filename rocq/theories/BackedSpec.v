(** Small specification for the balances of wallets on the chain of C63 (C81). *)
From Coq Require Import String ZArith List Bool.
From Coq Require Import Init.Byte.
From Verif Require Import Prelude Fields Curve Oracles Spec Sinsemilla SinsSpec RedPallas Value Keys KeysSpec Note Tree Action NoteEnc Bundle Batch Builder
  Circuit CircuitSpec PipelineSpec LedgerSpec WalletSpec.
Import ListNotations.
Open Scope Z_scope.

Section Spec.
  Context {C : Curve} {OR : @Oracles C}.

  (** A note that the owner of a viewing key found at a position of the chain. *)
  Record holding := mk_holding { hd_fvk : fvk; hd_scope : scope; hd_pos : nat; hd_note : note }.
  Definition found {V} (h : list (@tx C V)) (x : holding) : Prop :=
    fvk_ok (hd_fvk x) /\ receives (hd_fvk x) (hd_scope x) h (hd_pos x) (hd_note x).
  (** Its nullifier has not appeared. *)
  Definition seems_unspent (lg : ledger) (x : holding) : Prop :=
    forall nf, note_nullifier (hd_note x) (hd_fvk x) = Ret nf -> ~ In nf (lg_nfs lg).
  Definition total (l : list holding) : Z := zsum (map (fun x => n_value (hd_note x)) l).

  (** Some action consumed the note at this position. *)
  Definition consumed (as_ : list (instance * witness)) (pos : nat) : Prop :=
    exists a, In a as_ /\ spends_value a = true /\ Z.to_nat (position a) = pos.

  (** The decrypted note and the one an action is about are two openings of one commitment, or the
      keys of the action and of the wallet two openings of one incoming viewing key. *)
  Definition own_opening (n : note) : list bool * Z :=
    note_opening (mk_plain (diversify_hash (ad_d (n_recipient n))) (ad_pk_d (n_recipient n)) (n_value n) (n_rho n)
      (rseed_psi (n_rseed n) (n_rho n))) (rseed_rcm (n_rseed n) (n_rho n)).
  Definition other_opening (x : holding) (a : instance * witness) : Prop :=
    (exists o, In o (openings a) /\
       two_openings (sins_Q "z.cash:Orchard-NoteCommit-M") (commit_R "z.cash:Orchard-NoteCommit") (own_opening (hd_note x)) o) \/
    foreign_opening (hd_fvk x) (hd_scope x) (snd a).
End Spec.
