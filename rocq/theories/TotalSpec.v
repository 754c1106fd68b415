(** Small specification for the balances of several wallets on the chain of C63 (C96). *)
From Coq Require Import String ZArith List Bool.
From Coq Require Import Init.Byte.
From Verif Require Import Prelude Fields Curve Oracles Spec Sinsemilla SinsSpec RedPallas Value Keys KeysSpec Note NoteSpec Tree TreeSpec Action NoteEnc
  NoteEncSpec Bundle Batch Builder Circuit CircuitSpec PipelineSpec LedgerSpec WalletSpec BackedSpec ReadersSpec LifeSpec BalanceSpec PurseSpec.
Import ListNotations.
Open Scope Z_scope.

Section Spec.
  Context {C : Curve} {OR : @Oracles C} {V : Type}.

  (** Two wallets are different when they cannot spend the same notes: another spend validating key or another
      nullifier deriving key. *)
  Definition differ (f g : fvk) : Prop := fvk_ak f <> fvk_ak g \/ fvk_nk f <> fvk_nk g.
  Definition all_differ (fs : list fvk) : Prop := ForallOrdPairs differ fs.

  (** Two wallets found a note at one position. Either they read two notes in one output, or one address belongs to
      both: two openings of one incoming viewing key. *)
  Definition shared (f g : fvk) (h : list (@tx C V)) : Prop :=
    exists p n n', In (p, n) (coins f h) /\ In (p, n') (coins g h) /\
      (ambiguous n n' \/
       exists s s' r r', fvk_rivk_scope f s = Ret r /\ fvk_rivk_scope g s' = Ret r' /\
         ivk_relation (pt_x (fvk_ak f)) (fvk_nk f) r (pt_x (fvk_ak g)) (fvk_nk g) r').

  Definition all_balances (fs : list fvk) (h : list (@tx C V)) : Z := zsum (map (fun f => balance f h) fs).
End Spec.
