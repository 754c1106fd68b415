(** Small specification for a wallet that scans the chain of C63 as it grows (C100). *)
From Coq Require Import String ZArith List Bool.
From Coq Require Import Init.Byte.
From Verif Require Import Prelude Fields Curve Oracles Keys Note Action Bundle RedPallas LedgerSpec WalletSpec BalanceSpec.
Import ListNotations.
Open Scope Z_scope.

Section Spec.
  Context {C : Curve} {OR : @Oracles C} {V : Type}.

  (** What such a wallet keeps: the position of the next commitment and the notes it holds as unspent. *)
  Record wallet := mk_wallet { wl_next : nat; wl_notes : list (nat * note) }.
  Definition wallet_new : wallet := mk_wallet 0 [].

  (** It sees each action once: it drops the notes whose nullifier the action reveals and adds the note it finds. *)
  Definition scan_action (f : fvk) (w : wallet) (a : action signature) : wallet :=
    mk_wallet (S (wl_next w))
      (filter (fun c => negb (spent_in f [a_nf a] (snd c))) (wl_notes w) ++
       match opens f a with Some n => [(wl_next w, n)] | None => [] end).
  Definition scan (f : fvk) (w : wallet) (h : list (@tx C V)) : wallet :=
    fold_left (fun w t => fold_left (scan_action f) (b_actions (fst t)) w) h w.

  (** A note is found at a place where its nullifier has already been revealed. *)
  Definition found_too_late (f : fvk) (h : list (@tx C V)) : Prop :=
    exists i a n nf, nth_error (chain_actions h) i = Some a /\ opens f a = Some n /\ note_nullifier n f = Ret nf /\
      In nf (map a_nf (firstn (S i) (chain_actions h))).
End Spec.
Arguments wallet : clear implicits.
