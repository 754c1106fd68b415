(** Small specification for a light client that spends what it found (C101). *)
From Coq Require Import String ZArith List Bool.
From Coq Require Import Init.Byte.
From Verif Require Import Prelude Fields Curve Oracles Keys Note Action NoteEnc Bundle RedPallas Batch Builder LedgerSpec WalletSpec BackedSpec BalanceSpec LightSpec PurseSpec ScanSpec.
Import ListNotations.
Open Scope Z_scope.

Section Spec.
  Context {C : Curve} {OR : @Oracles C}.

  (** The notes that the owner of [f] finds in the downloaded compact actions and whose nullifier was not
      downloaded, each with the position of its commitment. *)
  Definition light_coin (f : fvk) (nfs : list Z) (pc : nat * compact_action) : list (nat * note) :=
    match opens_compact f (snd pc) with
    | Some n => if spent_in f nfs n then [] else [(fst pc, n)]
    | None => []
    end.
  Definition light_coins (f : fvk) (cs : list compact_action) : list (nat * note) :=
    flat_map (light_coin f (map c_nf cs)) (List.combine (seq 0 (length cs)) cs).

  (** A light client that sees each compact action once, with what it keeps as in C100. *)
  Definition light_scan_action (f : fvk) (w : wallet C) (a : compact_action) : wallet C :=
    mk_wallet (S (wl_next w))
      (filter (fun c => negb (spent_in f [c_nf a] (snd c))) (wl_notes w) ++
       match opens_compact f a with Some n => [(wl_next w, n)] | None => [] end).
  Definition light_scan (f : fvk) (w : wallet C) (cs : list compact_action) : wallet C := fold_left (light_scan_action f) cs w.
  (** A note is found at a place where its nullifier has already been downloaded. *)
  Definition light_too_late (f : fvk) (cs : list compact_action) : Prop :=
    exists i a n nf, nth_error cs i = Some a /\ opens_compact f a = Some n /\ note_nullifier n f = Ret nf /\ In nf (map c_nf (firstn (S i) cs)).
End Spec.
