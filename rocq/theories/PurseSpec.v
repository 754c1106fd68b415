(** Small specification for spending what a wallet found on the chain of C63 (C94). *)
From Coq Require Import String ZArith List Bool.
From Coq Require Import Init.Byte.
From Verif Require Import Prelude Fields Curve Oracles Spec RedPallas Value Keys Note Tree TreeSpec Action NoteEnc Bundle Builder BuilderSpec
  LedgerSpec WalletSpec BalanceSpec.
Import ListNotations.
Open Scope Z_scope.

Section Spec.
  Context {C : Curve} {OR : @Oracles C} {V : Type}.

  (** The notes that the owner of [f] finds on the chain and whose nullifier is not on the chain, each
      with the position of its commitment in the tree. *)
  Definition coin (f : fvk) (nfs : list Z) (pa : nat * action signature) : list (nat * note) :=
    match opens f (snd pa) with
    | Some n => if spent_in f nfs n then [] else [(fst pa, n)]
    | None => []
    end.
  Definition coins (f : fvk) (h : list (@tx C V)) : list (nat * note) :=
    flat_map (coin f (map a_nf (chain_actions h))) (List.combine (seq 0 (length (chain_actions h))) (chain_actions h)).
  Definition value_of (cs : list (nat * note)) : Z := zsum (map (fun c => n_value (snd c)) cs).

  (** The calls that ask a builder to spend them, with paths in the tree of these commitments. *)
  Definition spend_of (f : fvk) (cmxs : list Z) (c : nat * note) : list call :=
    match mp_from_position (Z.of_nat (fst c)) (auth_path (leaves_of cmxs) (Z.of_nat (fst c)) 32) with
    | Ret path => [AddSpend f (snd c) path]
    | _ => []
    end.

  (** A call that asks for an output, its value, and the output. *)
  Definition is_payment (c : call) : Prop := match c with AddOutput _ _ _ _ => True | _ => False end.
  Definition payment_value (c : call) : Z := match c with AddOutput _ _ v _ => v | _ => 0 end.
  Definition output_of (c : call) : list output_info :=
    match c with
    | AddOutput ovk a v memo => [mk_output ovk a v (match memo with Some m => m | None => xf6 :: repeat x00 511 end)]
    | _ => []
    end.

  Definition agrees (r : reply) : Prop := r = RSpend (Ok tt) \/ r = ROutput (Ok tt).
  (** The builder [b] after asking for these notes [cs] of the wallet, with paths in the tree of [lg], and for the
      payments [outs]: every call was accepted, and [b] holds exactly what was asked for. *)
  Definition purse_built (f : fvk) (lg : ledger) (ty : bundle_type) (cs : list (nat * note)) (outs : list call) (b : builder) : Prop :=
    (exists rs, run (builder_new ty (tree_root (leaves_of (lg_cmxs lg)) 32)) (flat_map (spend_of f (lg_cmxs lg)) cs ++ outs) = Ret (rs, b) /\ Forall agrees rs) /\
    reachable ty (tree_root (leaves_of (lg_cmxs lg)) 32) b /\
    map s_note (bl_spends b) = map snd cs /\ Forall (fun s => s_fvk s = f) (bl_spends b) /\ bl_outputs b = flat_map output_of outs.
End Spec.
