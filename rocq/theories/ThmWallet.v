(** Properties C69, C70, C71: a wallet that watches the chain of C63. *)
From Coq Require Import String ZArith List Bool.
From Coq Require Import Init.Byte.
From Verif Require Import Prelude Fields Curve Oracles RedPallas Value Keys KeysSpec Note NoteSpec Tree TreeSpec Action NoteEnc Bundle Batch
  Builder BuilderSpec Circuit CircuitSpec PipelineSpec LedgerSpec WalletSpec WalletFacts
  Toy ToyFacts ToyKeys ToyNote ToyNoteEnc ToyBuilder ToyPipeline ToyLedger.
Import ListNotations.
Open Scope Z_scope.

(** C69: a note found by trial decryption can be given to a builder for the current tree, with the
    path of its position; the call is accepted. *)
Theorem C69_received_notes_can_be_spent :
  forall (C : Curve) (OR : @Oracles C) (L : CurveLaws C) (V : Type)
    (halo2_verify : bytes -> list (list Z) -> bool) (into : V -> Z)
    (f : fvk) (s : scope) (h : list (@tx C V)) (lg : ledger) (pos : nat) (n : note) (b : builder),
  gd_fallback_ok -> fvk_ok f -> reached halo2_verify into h lg -> receives f s h pos n ->
  spends_enabled (bt_flags (bl_type b)) = true -> bl_anchor b = tree_root (leaves_of (lg_cmxs lg)) 32 ->
  exists path s',
    mp_from_position (Z.of_nat pos) (auth_path (leaves_of (lg_cmxs lg)) (Z.of_nat pos) 32) = Ret path /\
    call_ok (AddSpend f n path) /\ owner f (n_recipient n) s' /\
    add_spend b f n path = Ret (Ok tt, with_spend b (mk_spend None f s' n path)).
Proof. exact @received_can_be_spent. Qed.
Print Assumptions C69_received_notes_can_be_spent.

(** C70: notes received in different actions have different nullifiers, whoever made them; otherwise
    a discrete-log relation can be read off the two notes. *)
Theorem C70_received_notes_have_distinct_nullifiers :
  forall (C : Curve) (OR : @Oracles C) (L : CurveLaws C) (V : Type)
    (halo2_verify : bytes -> list (list Z) -> bool) (into : V -> Z)
    (f : fvk) (s : scope) (f' : fvk) (s' : scope) (h : list (@tx C V)) (lg : ledger) (pos pos' : nat) (n n' : note) (nf nf' : Z),
  gd_fallback_ok -> fvk_ok f -> fvk_ok f' -> reached halo2_verify into h lg ->
  receives f s h pos n -> receives f' s' h pos' n' -> pos <> pos' ->
  note_nullifier n f = Ret nf -> note_nullifier n' f' = Ret nf' ->
  nf <> nf' \/ nullifier_relation (own_secret f n) (own_secret f' n').
Proof. exact @received_nullifiers. Qed.
Print Assumptions C70_received_notes_have_distinct_nullifiers.

(** C71: if the nullifier of a note in the wallet was revealed, some accepted action spends exactly
    that note with the keys of the wallet, and whoever signed it knew the spend authorizing key. *)
Theorem C71_only_the_owner_nullifies :
  forall (C : Curve) (OR : @Oracles C) (L : CurveLaws C) (V : Type)
    (halo2_verify : bytes -> list (list Z) -> bool) (into : V -> Z)
    (extract : bytes -> list (list Z) -> list action_cells) (sx bx : point -> bytes -> signature -> Z),
  finds_cells halo2_verify extract -> finds_keys SpendAuth sx -> finds_keys Binding bx ->
  forall (f : fvk) (s : scope) (n : note) (nf : Z) (h : list (@tx C V)) (lg : ledger),
  fvk_ok f -> in_wallet f s n -> note_nullifier n f = Ret nf ->
  reached halo2_verify into h lg -> In nf (lg_nfs lg) ->
  (exists t a w, In t h /\ In a (b_actions (fst t)) /\ a_nf a = nf /\ In w (map cells_witness (cells_of extract t)) /\
     ((spends_own f n w /\ signed_by_owner f (sx (a_rk a) (snd t) (a_auth a) - w_alpha w)) \/
      nullifier_relation (spent_secret w) (own_secret f n) \/ foreign_opening f s w)) \/
  break into extract bx h.
Proof. exact @only_owner_nullifies. Qed.
Print Assumptions C71_only_the_owner_nullifies.

(** A history in which one wallet receives two notes, of 1000 and 990, and spends the first. *)
Example C69_C70_C71_ex : exists halo2_verify extract h lg,
  finds_cells halo2_verify extract /\ finds_keys SpendAuth (toy_log SpendAuth) /\ finds_keys Binding (toy_log Binding) /\
  reached halo2_verify (fun v : Z => v) h lg /\ length h = 2%nat /\ lg_pool lg = 990 /\ existsb spends_value (acts extract h) = true /\
  receives toy_fvk External h 0 note2 /\ receives toy_fvk External h 1 note3 /\ note_nullifier note2 toy_fvk = Ret nf2 /\
  In nf2 (lg_nfs lg) /\ (exists nf, note_nullifier note3 toy_fvk = Ret nf /\ ~ In nf (lg_nfs lg)) /\
  (exists a, In a (acts extract h) /\ spends_value a = true /\ position a = 0).
Proof. exact toy_wallet. Qed.
Example C69_C70_C71_ex_key : @gd_fallback_ok toy_curve toy_oracles /\ fvk_ok toy_fvk.
Proof. exact (conj toy_gd toy_fvk_ok). Qed.
