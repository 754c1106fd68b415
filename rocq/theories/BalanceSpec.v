(** Small specification for the balance a wallet computes by scanning the chain of C63 (C89). *)
From Coq Require Import String ZArith List Bool.
From Coq Require Import Init.Byte.
From Verif Require Import Prelude Fields Curve Oracles Spec Sinsemilla SinsSpec RedPallas Value Keys KeysSpec Note NoteSpec Tree TreeSpec Action NoteEnc
  NoteEncSpec Bundle Batch Builder Signing BuilderSpec SigningSpec Circuit PipelineSpec LedgerSpec WalletSpec BackedSpec LifeSpec.
Import ListNotations.
Open Scope Z_scope.

Section Spec.
  Context {C : Curve} {OR : @Oracles C} {V : Type}.

  (** The note that the owner of [f] finds in an action, with the incoming viewing key of either scope. *)
  Definition opens {A} (f : fvk) (a : action A) : option note :=
    match fvk_to_ivk f External, fvk_to_ivk f Internal with
    | Ret e, Ret i =>
        match try_note_decryption e a with
        | Ret (Some (n, _, _)) => Some n
        | _ => match try_note_decryption i a with
               | Ret (Some (n, _, _)) => Some n
               | _ => None
               end
        end
    | _, _ => None
    end.
  (** Its nullifier is among those revealed. *)
  Definition spent_in (f : fvk) (nfs : list Z) (n : note) : bool :=
    match note_nullifier n f with
    | Ret nf => existsb (Z.eqb nf) nfs
    | _ => false
    end.
  (** The balance: the value of all notes found on the chain whose nullifier is not on the chain. *)
  Definition worth {A} (f : fvk) (nfs : list Z) (a : action A) : Z :=
    match opens f a with
    | Some n => if spent_in f nfs n then 0 else n_value n
    | None => 0
    end.
  Definition balance (f : fvk) (h : list (@tx C V)) : Z :=
    zsum (map (worth f (map a_nf (chain_actions h))) (chain_actions h)).

  (** The address is one of the wallet's, external or internal; [mine] decides it. *)
  Definition addressed (f : fvk) (ad : address) : Prop := exists s, derives f s ad.
  Definition decides (mine : address -> bool) (f : fvk) : Prop := forall ad, mine ad = true <-> addressed f ad.

  (** What a builder pays to the wallet, and what it spends of the wallet's notes. *)
  Definition receipts (mine : address -> bool) (b : builder) : Z :=
    zsum (map o_value (filter (fun o => mine (o_recipient o)) (bl_outputs b))).
  Definition payments (mine : address -> bool) (b : builder) : Z :=
    zsum (map (fun s => n_value (s_note s)) (filter (fun s => mine (n_recipient (s_note s))) (bl_spends b))).

  (** The notes of the wallet that the builder spends were found on the chain. *)
  Definition spends_found (f : fvk) (h : list (@tx C V)) (b : builder) : Prop :=
    forall s, In s (bl_spends b) -> addressed f (n_recipient (s_note s)) -> n_value (s_note s) <> 0 ->
      exists a, In a (chain_actions h) /\ opens f a = Some (s_note s).

  (** What can go wrong, computed from the chain, the builder and its proof witnesses. *)
  Inductive surprise (f : fvk) (h : list (@tx C V)) (b : builder) (t : @tx C V) (ws : list witness) : Prop :=
  (* the wallet reads another note than the one sent: two openings of one note commitment *)
  | S_opening : forall k a w n, nth_error (b_actions (fst t)) k = Some a -> nth_error ws k = Some w -> opens f a = Some n ->
      two_openings (sins_Q "z.cash:Orchard-NoteCommit-M") (commit_R "z.cash:Orchard-NoteCommit") (own_opening n)
        (note_opening (mk_plain (w_g_d_new w) (w_pk_d_new w) (w_v_new w) (a_nf a) (w_psi_new w)) (w_rcm_new w)) ->
      surprise f h b t ws
  (* a spend of another note has the nullifier of a note of the wallet *)
  | S_nullifier : forall a n w, In a (chain_actions (h ++ [t])) -> opens f a = Some n -> In w ws ->
      nullifier_relation (own_secret f n) (spent_secret w) -> surprise f h b t ws
  (* another viewing key spends the wallet's notes: two openings of one incoming viewing key *)
  | S_key : forall s sc sc' r r', In s (bl_spends b) -> fvk_rivk_scope f sc = Ret r -> fvk_rivk_scope (s_fvk s) sc' = Ret r' ->
      ivk_relation (pt_x (fvk_ak f)) (fvk_nk f) r (pt_x (fvk_ak (s_fvk s))) (fvk_nk (s_fvk s)) r' -> surprise f h b t ws.
  (** The wallet receives a note whose nullifier was revealed before. *)
  Definition born_spent (f : fvk) (h : list (@tx C V)) (t : @tx C V) : Prop :=
    exists a n nf, In a (b_actions (fst t)) /\ opens f a = Some n /\ n_value n <> 0 /\ note_nullifier n f = Ret nf /\
      In nf (map a_nf (chain_actions h)).

  (** * A chain of transactions made with the crate *)

  Record entry := mk_entry { en_builder : builder; en_meta : bundle_metadata; en_witnesses : list witness; en_tx : @tx C V }.
  Variables (halo2_prove : list witness -> list (list Z) -> rng -> option bytes * rng) (halo2_verify : bytes -> list (list Z) -> bool)
    (try_from : Z -> option V) (into : V -> Z).

  (** Every transaction was made from its builder and accepted, and spends only what [f] found of its notes. *)
  Inductive account (f : fvk) : list entry -> ledger -> Prop :=
  | A_start : account f [] genesis
  | A_step : forall es lg e anchor, account f es lg ->
      made halo2_prove try_from anchor (en_builder e) (en_tx e) (en_meta e) (en_witnesses e) ->
      accepts halo2_verify into lg (en_tx e) -> spends_found f (map en_tx es) (en_builder e) ->
      account f (es ++ [e]) (apply into lg (en_tx e)).

  (** The exceptions of one of the transactions, or between a note and a spend of an earlier transaction. *)
  Inductive account_surprise (f : fvk) (es : list entry) : Prop :=
  | AS_step : forall es1 e es2, es = es1 ++ e :: es2 -> surprise f (map en_tx es1) (en_builder e) (en_tx e) (en_witnesses e) ->
      account_surprise f es
  | AS_nullifier : forall a n e w, In a (chain_actions (map en_tx es)) -> opens f a = Some n -> In e es -> In w (en_witnesses e) ->
      nullifier_relation (own_secret f n) (spent_secret w) -> account_surprise f es.
End Spec.
Arguments entry : clear implicits.
