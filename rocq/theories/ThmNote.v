(** Properties C44, C45 (src/note.rs) and C59 (Sinsemilla). *)
From Coq Require Import String ZArith List Bool Lia.
From Coq Require Import Init.Byte.
From Verif Require Import Prelude Fields Curve Oracles Sinsemilla RedPallas Value Keys Note Tree
  CurveFacts KeysSpec NoteSpec SinsSpec SinsFacts NoteFacts TreeFacts Toy ToyFacts ToyKeys ToyNote ToyTree.
Import ListNotations.
Open Scope Z_scope.

(** C59: the Sinsemilla hash of words is a fixed linear combination of Q and the generators. *)
Theorem C59_hash_is_linear :
  forall (C : Curve) (OR : @Oracles C) (L : CurveLaws C) (ws : list Z) (Q P : point),
  Forall is_word ws -> sins_hash_words Q ws = Some P -> P = lin Q (2 ^ Z.of_nat (length ws)) (weight ws).
Proof. exact @hash_words_lin. Qed.
Print Assumptions C59_hash_is_linear.

(** C59: two different messages of one length with the same hash give an explicit non-trivial
    relation between Q and the generators. *)
Theorem C59_hash_collision :
  forall (C : Curve) (OR : @Oracles C) (L : CurveLaws C) (D : string) (m m' : list bool) (x : Z),
  length m = length m' -> (length m <= 2530)%nat -> m <> m' ->
  sins_hash D m = Some x -> sins_hash D m' = Some x ->
  sins_relation (sins_Q D) (msg_words m) (msg_words m').
Proof. exact @hash_collision. Qed.
Print Assumptions C59_hash_collision.

(** C59: and so do two different openings of a commitment. *)
Theorem C59_commit_collision :
  forall (C : Curve) (OR : @Oracles C) (L : CurveLaws C) (D : string) (m m' : list bool) (r r' : Z) (P P' : point),
  length m = length m' -> (length m <= 2530)%nat -> (m, r mod qmod) <> (m', r' mod qmod) ->
  sins_commit D m r = Some P -> sins_commit D m' r' = Some P' -> pt_x P = pt_x P' ->
  sins_relation_R (sins_Q (D ++ "-M")) (commit_R D) (msg_words m) (msg_words m') r r'.
Proof. exact @commit_collision. Qed.
Print Assumptions C59_commit_collision.

(** C59: the hash is undefined only if a prefix of the message gives such a relation. *)
Theorem C59_hash_undefined :
  forall (C : Curve) (OR : @Oracles C) (L : CurveLaws C) (D : string) (m : list bool),
  sins_hash D m = None -> sins_exception (sins_Q D) (msg_words m).
Proof. exact @hash_undefined. Qed.
Print Assumptions C59_hash_undefined.

(** C59 applied to the tree: two node inputs that hash alike. *)
Theorem C59_merkle_collision :
  forall (C : Curve) (OR : @Oracles C) (L : CurveLaws C) (l : nat) (a b c d : Z),
  combine l a b = combine l c d -> merkle_msg l a b <> merkle_msg l c d ->
  let Q := sins_Q "z.cash:Orchard-MerkleCRH" in
  sins_relation Q (msg_words (merkle_msg l a b)) (msg_words (merkle_msg l c d)) \/
  sins_exception Q (msg_words (merkle_msg l a b)) \/ sins_exception Q (msg_words (merkle_msg l c d)).
Proof. exact @merkle_collision. Qed.
Print Assumptions C59_merkle_collision.

Example C59_example : forall j, weight [3; 5; 3] j = (if j =? 3 then 5 else if j =? 5 then 2 else 0).
Proof.
  intro j. cbn [weight length]. rewrite (Z.eqb_sym 3 j), (Z.eqb_sym 5 j).
  destruct (Z.eqb_spec j 3) as [->|A]; [reflexivity|]. destruct (Z.eqb_spec j 5) as [->|B]; reflexivity.
Qed.

(** Two messages that do collide on the toy curve, whose group hash is short, and one whose hash is undefined. *)
Example C59_example_collision :
  length (merkle_msg 0 10240 5) = length (merkle_msg 0 8193 5) /\ (length (merkle_msg 0 10240 5) <= 2530)%nat /\
  merkle_msg 0 10240 5 <> merkle_msg 0 8193 5 /\
  exists x, @sins_hash toy_curve toy_oracles "z.cash:Orchard-MerkleCRH" (merkle_msg 0 10240 5) = Some x /\
    @sins_hash toy_curve toy_oracles "z.cash:Orchard-MerkleCRH" (merkle_msg 0 8193 5) = Some x.
Proof.
  split; [reflexivity|]. split; [vm_compute; lia|]. split; [exact toy_messages|exact toy_hash_collision].
Qed.
Example C59_example_undefined : @sins_hash toy_curve toy_oracles "hh" (le_bits 10 236) = None.
Proof. exact toy_hash_undefined. Qed.

(** C44: the committed bits determine the committed values. *)
Theorem C44_message_determines_note :
  forall (C : Curve) (L : CurveLaws C) (g pk g' pk' : point) (v rho psi v' rho' psi' : Z),
  is_u64 v -> is_u64 v' -> is_base rho -> is_base rho' -> is_base psi -> is_base psi' ->
  note_commit_msg (pt_encode g) (pt_encode pk) v rho psi =
  note_commit_msg (pt_encode g') (pt_encode pk') v' rho' psi' ->
  g = g' /\ pk = pk' /\ v = v' /\ rho = rho' /\ psi = psi'.
Proof. exact (fun C L g pk g' pk' v rho psi v' rho' psi' => @note_msg_inj C L g pk v rho psi g' pk' v' rho' psi'). Qed.
Print Assumptions C44_message_determines_note.

(** C44: two notes compare equal exactly when their extracted commitments agree, and then they
    have the same contents and trapdoor, unless the two openings give a generator relation. *)
Theorem C44_equal_notes :
  forall (C : Curve) (OR : @Oracles C) (L : CurveLaws C) (a b : note),
  note_ok a -> note_ok b -> note_eqb a b = Ret true ->
  exists ca cb, commitment a = Ret ca /\ commitment b = Ret cb /\ pt_x ca = pt_x cb /\
  ((note_contents a = note_contents b /\
    rseed_rcm (n_rseed a) (n_rho a) = rseed_rcm (n_rseed b) (n_rho b)) \/
   sins_relation_R (sins_Q "z.cash:Orchard-NoteCommit-M") (commit_R "z.cash:Orchard-NoteCommit")
     (msg_words (note_msg a)) (msg_words (note_msg b))
     (rseed_rcm (n_rseed a) (n_rho a)) (rseed_rcm (n_rseed b) (n_rho b))).
Proof. exact @equal_notes. Qed.
Print Assumptions C44_equal_notes.

(** C44: from_parts returns exactly the given note, only when it has a commitment. *)
Theorem C44_from_parts :
  forall (C : Curve) (OR : @Oracles C) (a : address) (v rho : Z) (rs : bytes),
  (forall n, note_from_parts a v rho rs = Some n ->
     n = mk_note a v rho rs /\ (exists cm, commitment n = Ret cm) /\
     forall f, exists nf, note_nullifier n f = Ret nf) /\
  (note_from_parts a v rho rs = None -> exists w, commitment (mk_note a v rho rs) = Panic w).
Proof. exact @from_parts_full. Qed.
Print Assumptions C44_from_parts.

Theorem C44_new_notes :
  forall (C : Curve) (OR : @Oracles C) (fuel : nat) (a : address) (v rho : Z) (r : rng) (n : note) (r' : rng),
  note_new fuel a v rho r = Ret (n, r') ->
  n_recipient n = a /\ n_value n = v /\ n_rho n = rho /\ length (n_rseed n) = 32%nat /\
  (exists cm, commitment n = Ret cm) /\ (exists e, note_esk n = Ret e /\ is_scalar e /\ e <> 0).
Proof. exact @note_new_spec. Qed.
Print Assumptions C44_new_notes.

Example C44_example : note_ok (toy_note 5 9) /\ exists n, note_from_parts toy_addr 5 9 toy_rseed = Some n.
Proof. split; [apply toy_note_ok; lia|exact toy_note_commits]. Qed.

(** C45: true for the rho the seed was parsed with; false for another one. *)
Theorem C45_esk_same_rho :
  forall (C : Curve) (OR : @Oracles C) (b : bytes) (rho : Z) (rseed : bytes),
  rseed_from_bytes b rho = Some rseed ->
  rseed = b /\
  forall (a : address) (v : Z) (n : note), note_from_parts a v rho rseed = Some n ->
  exists e, note_esk n = Ret e /\ is_scalar e /\ e <> 0.
Proof. exact @esk_same_rho. Qed.
Print Assumptions C45_esk_same_rho.

Theorem C45_esk_never_panics_refuted :
  exists (C : Curve) (OR : @Oracles C) (b rseed : bytes) (rho rho' v : Z) (a : address) (n : note),
    CurveLaws C /\ length b = 32%nat /\ is_base rho /\ is_base rho' /\ is_u64 v /\ address_ok a /\
    rseed_from_bytes b rho = Some rseed /\ note_from_parts a v rho' rseed = Some n /\
    exists why, note_esk n = Panic why.
Proof. exact esk_can_panic. Qed.
Print Assumptions C45_esk_never_panics_refuted.
