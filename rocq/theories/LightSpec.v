(** Small specification for the balance a light client computes from compact actions (C93). *)
From Coq Require Import String ZArith List Bool.
From Coq Require Import Init.Byte.
From Verif Require Import Prelude Fields Curve Oracles Spec Sinsemilla SinsSpec RedPallas Value Keys KeysSpec Note NoteSpec Tree TreeSpec Action NoteEnc
  NoteEncSpec Bundle Batch Builder Signing BuilderSpec SigningSpec Circuit PipelineSpec LedgerSpec WalletSpec BackedSpec LifeSpec BalanceSpec.
Import ListNotations.
Open Scope Z_scope.

Section Spec.
  Context {C : Curve} {OR : @Oracles C} {V : Type}.

  (** What the client downloads of a chain: nullifier, commitment, ephemeral key and 52 bytes of each action. *)
  Definition compact_chain (h : list (@tx C V)) : list compact_action := map compact_of_action (chain_actions h).

  (** The note that the owner of [f] finds in a compact action. *)
  Definition opens_compact (f : fvk) (c : compact_action) : option note :=
    match fvk_to_ivk f External, fvk_to_ivk f Internal with
    | Ret e, Ret i =>
        match try_compact_note_decryption e c with
        | Ret (Some (n, _)) => Some n
        | _ => match try_compact_note_decryption i c with
               | Ret (Some (n, _)) => Some n
               | _ => None
               end
        end
    | _, _ => None
    end.
  (** The value of the notes found whose nullifier was not downloaded. *)
  Definition light_worth (f : fvk) (nfs : list Z) (c : compact_action) : Z :=
    match opens_compact f c with
    | Some n => if spent_in f nfs n then 0 else n_value n
    | None => 0
    end.
  Definition light_balance (f : fvk) (cs : list compact_action) : Z := zsum (map (light_worth f (map c_nf cs)) cs).

  (** The transaction was made with the crate from its builder. *)
  Definition entry_made (halo2_prove : list witness -> list (list Z) -> rng -> option bytes * rng) (try_from : Z -> option V) (e : entry C V) : Prop :=
    exists anchor, made halo2_prove try_from anchor (en_builder e) (en_tx e) (en_meta e) (en_witnesses e).

  (** The client reads another note than the one sent: two openings of one note commitment. *)
  Inductive light_surprise (f : fvk) (es : list (entry C V)) : Prop :=
  | LS_opening : forall e k a w n, In e es -> nth_error (b_actions (fst (en_tx e))) k = Some a -> nth_error (en_witnesses e) k = Some w ->
      opens_compact f (compact_of_action a) = Some n ->
      two_openings (sins_Q "z.cash:Orchard-NoteCommit-M") (commit_R "z.cash:Orchard-NoteCommit") (own_opening n)
        (note_opening (mk_plain (w_g_d_new w) (w_pk_d_new w) (w_v_new w) (a_nf a) (w_psi_new w)) (w_rcm_new w)) ->
      light_surprise f es.

  (** The same action with the last bytes of the note ciphertext, its tag, replaced. *)
  Definition tag_replaced {A B} (a : action A) (a' : action B) : Prop :=
    a_nf a' = a_nf a /\ a_cmx a' = a_cmx a /\ ct_epk (a_ct a') = ct_epk (a_ct a) /\
    firstn 564 (ct_enc (a_ct a')) = firstn 564 (ct_enc (a_ct a)) /\ skipn 564 (ct_enc (a_ct a')) <> skipn 564 (ct_enc (a_ct a)).
End Spec.
