(** Property C93: a light client computes the balance that a full wallet computes. *)
From Coq Require Import String ZArith List Bool.
From Coq Require Import Init.Byte.
From Verif Require Import Prelude Fields Curve Oracles Spec Sinsemilla SinsSpec RedPallas Value Keys KeysSpec Note NoteSpec Tree TreeSpec Action
  NoteEnc NoteEncSpec Bundle Batch Builder Signing BuilderSpec SigningSpec Circuit CircuitSpec PipelineSpec LedgerSpec WalletSpec BackedSpec LifeSpec
  BalanceSpec LightSpec LightFacts NoteEncFacts Toy ToyFacts ToyKeys ToyNoteEnc ToyBuilder ToySigning ToyPipeline ToyLife ToyBalance.
Import ListNotations.
Open Scope Z_scope.

(** C93. In an output written by the encryptor a key reads the same with and without the memo and tag,
    or the note read and the note sent are two openings of one commitment. *)
Theorem C93_light_client_reads_the_same :
  forall (C : Curve) (OR : @Oracles C) (L : CurveLaws C) (A : Type) (k : ivk) (ovk : option bytes) (n0 : note) (memo : bytes) (r : rng) (a : action A),
  gd_fallback_ok -> ivk_ok k -> note_ok n0 -> length memo = 512%nat -> encrypts ovk n0 memo r a ->
  match try_compact_note_decryption k (compact_of_action a) with
  | Ret (Some (n, to)) =>
      (exists m, try_note_decryption k a = Ret (Some (n, to, m))) \/
      two_openings (sins_Q "z.cash:Orchard-NoteCommit-M") (commit_R "z.cash:Orchard-NoteCommit") (own_opening n) (own_opening n0)
  | Ret None => try_note_decryption k a = Ret None
  | _ => False
  end.
Proof. exact @light_reads. Qed.
Print Assumptions C93_light_client_reads_the_same.

(** C93. So on any list of transactions made with the crate, the two balances are equal. *)
Theorem C93_light_client_balance :
  forall (C : Curve) (OR : @Oracles C) (V : Type) (L : CurveLaws C)
    (halo2_prove : list witness -> list (list Z) -> rng -> option bytes * rng) (try_from : Z -> option V) (into : V -> Z)
    (f : fvk) (es : list (entry C V)),
  gd_fallback_ok -> fvk_ok f -> Forall (entry_made halo2_prove try_from) es ->
  light_balance f (compact_chain (map en_tx es)) = balance f (map en_tx es) \/ light_surprise f es.
Proof. exact @light_same_balance. Qed.
Print Assumptions C93_light_client_balance.

(** C93. On an accepted chain of such transactions both are what was received less what was spent. *)
Theorem C93_light_account_book :
  forall (C : Curve) (OR : @Oracles C) (V : Type) (L : CurveLaws C)
    (halo2_prove : list witness -> list (list Z) -> rng -> option bytes * rng) (halo2_verify : bytes -> list (list Z) -> bool)
    (try_from : Z -> option V) (into : V -> Z)
    (f : fvk) (mine : address -> bool) (es : list (entry C V)) (lg : ledger),
  gd_fallback_ok -> fvk_ok f -> decides mine f -> account halo2_prove halo2_verify try_from into f es lg ->
  light_balance f (compact_chain (map en_tx es)) =
    zsum (map (fun e => receipts mine (en_builder e)) es) - zsum (map (fun e => payments mine (en_builder e)) es) \/
  account_surprise f es \/ light_surprise f es.
Proof. exact @light_account_book. Qed.
Print Assumptions C93_light_account_book.

Example C93_ex : @gd_fallback_ok toy_curve toy_oracles /\ fvk_ok toy_fvk /\ exists (es : list (entry toy_curve Z)) lg,
  account toy_prover toy_verifier (fun i : Z => Some i) (fun i => i) toy_fvk es lg /\ length es = 2%nat /\
  decides (mine_of toy_fvk) toy_fvk /\ Forall (entry_made toy_prover (fun i : Z => Some i)) es /\ balance toy_fvk (map en_tx es) = 600.
Proof.
  split; [exact toy_gd|]. split; [exact toy_fvk_ok|]. destruct toy_account as (es & lg & A & LE & D & _ & _ & B). exists es, lg.
  split; [exact A|]. split; [exact LE|]. split; [exact D|]. split; [exact (account_made _ _ _ _ _ _ _ A)|exact B].
Qed.

(** C93. The limit: if the sender spoils the tag of an honest output, which no rule of the chain forbids, a light
    client reads the note and a full wallet does not. *)
Theorem C93_a_spoiled_tag_is_seen_only_in_full :
  forall (C : Curve) (OR : @Oracles C) (L : CurveLaws C) (A B : Type) (k : ivk) (ovk : option bytes) (n : note) (memo : bytes) (r : rng)
    (a : action A) (a' : action B),
  gd_fallback_ok -> ivk_ok k -> note_ok n -> length memo = 512%nat -> encrypts ovk n memo r a -> owned_by k (n_recipient n) -> tag_replaced a a' ->
  try_compact_note_decryption k (compact_of_action a') = Ret (Some (n, n_recipient n)) /\
  forall x, try_note_decryption k a' <> Ret (Some x).
Proof. exact @light_reads_more. Qed.
Print Assumptions C93_a_spoiled_tag_is_seen_only_in_full.

Example C93_spoiled : exists (a a' : @action toy_curve unit),
  encrypts (Some toy_ovk) toy_sent toy_memo toy_rng a /\ tag_replaced a a' /\ note_ok toy_sent /\ owned_by toy_ivk (n_recipient toy_sent).
Proof.
  destruct toy_encrypts as [a H]. exists a, (spoil a). split; [exact H|]. split; [|split; [exact toy_sent_ok|reflexivity]].
  destruct (encrypts_roundtrip toy_laws unit (Some toy_ovk) toy_sent toy_memo toy_rng a toy_gd toy_sent_ok eq_refl H) as (CT & _).
  exact (spoil_replaces _ a (co_enc _ CT)).
Qed.
