(** src/note.rs, src/note/commitment.rs, src/note/nullifier.rs. *)
From Coq Require Import String ZArith List Bool.
From Coq Require Import Init.Byte.
From Verif Require Import Prelude Fields Curve Oracles Sinsemilla RedPallas Value Keys.
Import ListNotations.
Open Scope Z_scope.

(** note.rs:127-142 Note. rho is a base field element, rseed 32 bytes. *)
Record note {C : Curve} := mk_note {
  n_recipient : address;
  n_value : Z;
  n_rho : Z;
  n_rseed : bytes
}.
Arguments mk_note {C}.

(** note.rs:295-304 TransmittedNoteCiphertext. *)
Record note_ciphertext := mk_ciphertext {
  ct_epk : bytes;
  ct_enc : bytes;
  ct_out : bytes
}.

Section Note.
  Context {C : Curve} {OR : @Oracles C}.

  (** note.rs:40-47 Rho::from_bytes / to_bytes; 53-55 from_nf_old. *)
  Definition rho_from_bytes (b : bytes) : option Z := base_from_repr b.
  Definition rho_to_bytes (rho : Z) : bytes := to_repr rho.
  Definition rho_from_nf_old (nf : Z) : Z := nf.

  (** note.rs:95-97 psi; 102-106 esk_inner; 119-123 rcm. *)
  Definition rseed_psi (rseed : bytes) (rho : Z) : Z :=
    to_base (prf_expand rseed dom_psi [rho_to_bytes rho]).
  Definition rseed_esk_inner (rseed : bytes) (rho : Z) : option Z :=
    nonzero (to_scalar (prf_expand rseed dom_orchard_esk [rho_to_bytes rho])).
  Definition rseed_rcm (rseed : bytes) (rho : Z) : Z :=
    to_scalar (prf_expand rseed dom_orchard_rcm [rho_to_bytes rho]).

  (** note.rs:111-114 esk: unwrap. *)
  Definition rseed_esk (rseed : bytes) (rho : Z) : outcome Z :=
    unwrap "RandomSeed::esk" (rseed_esk_inner rseed rho).

  (** note.rs:81-85 RandomSeed::from_bytes. *)
  Definition rseed_from_bytes (b : bytes) (rho : Z) : option bytes :=
    if is_some (rseed_esk_inner b rho) then Some b else None.

  (** note.rs:67-76 RandomSeed::random. *)
  Fixpoint rseed_random (fuel : nat) (rho : Z) (r : rng) : outcome (bytes * rng) :=
    match fuel with
    | O => OutOfFuel
    | S fuel' =>
        let (b, r') := rng_bytes 32 r in
        match rseed_from_bytes b rho with
        | Some s => Ret (s, r')
        | None => rseed_random fuel' rho r'
        end
    end.

  (** note/commitment.rs:40-60 NoteCommitment::derive: the committed bits and the commitment. *)
  Definition note_commit_msg (g_d pk_d : bytes) (v rho psi : Z) : list bool :=
    bytes_bits g_d ++ bytes_bits pk_d ++ note_value_bits v ++ base_bits rho ++ base_bits psi.
  Definition note_commitment_derive (g_d pk_d : bytes) (v rho psi rcm : Z) : option point :=
    sins_commit "z.cash:Orchard-NoteCommit" (note_commit_msg g_d pk_d v rho psi) rcm.

  (** note.rs:270-281 commitment_inner. *)
  Definition commitment_inner (n : note) : option point :=
    note_commitment_derive (pt_encode (ad_g_d (n_recipient n))) (pt_encode (ad_pk_d (n_recipient n)))
      (n_value n) (n_rho n) (rseed_psi (n_rseed n) (n_rho n)) (rseed_rcm (n_rseed n) (n_rho n)).

  (** note.rs:256-259 commitment: unwrap. *)
  Definition commitment (n : note) : outcome point :=
    unwrap "Note::commitment" (commitment_inner n).

  (** note/commitment.rs:84-88 ExtractedNoteCommitment::from; 74-81 codec. *)
  Definition cmx_of (cm : point) : Z := extract_p cm.
  Definition cmx_from_bytes (b : bytes) : option Z := base_from_repr b.
  Definition cmx_to_bytes (x : Z) : bytes := to_repr x.

  (** note.rs:169-182 Note::from_parts. *)
  Definition note_from_parts (recipient : address) (v rho : Z) (rseed : bytes) : option note :=
    let n := mk_note recipient v rho rseed in
    if is_some (commitment_inner n) then Some n else None.

  (** note.rs:144-150 equality of notes: by extracted commitment. *)
  Definition note_eqb (a b : note) : outcome bool :=
    let! ca := commitment a in
    let! cb := commitment b in
    Ret (cmx_of ca =? cmx_of cb).

  (** note.rs:189-201 Note::new (rejection loop around from_parts). *)
  Fixpoint note_new (fuel : nat) (recipient : address) (v rho : Z) (r : rng)
    : outcome (note * rng) :=
    match fuel with
    | O => OutOfFuel
    | S fuel' =>
        let! (rseed, r') := rseed_random fuel rho r in
        match note_from_parts recipient v rho rseed with
        | Some n => Ret (n, r')
        | None => note_new fuel' recipient v rho r'
        end
    end.

  (** note/nullifier.rs:34-36 Nullifier::dummy; 39-46 codec. *)
  Definition nf_dummy (r : rng) : Z * rng :=
    let (P, r') := o_rng_point r in (extract_p P, r').
  Definition nf_from_bytes (b : bytes) : option Z := base_from_repr b.
  Definition nf_to_bytes (nf : Z) : bytes := to_repr nf.

  (** note/nullifier.rs:53-62 Nullifier::derive. *)
  Definition nullifier_K : point := hash_to_curve "z.cash:Orchard" (bytes_of_string "K").
  Definition nf_derive (nk rho psi : Z) (cm : point) : outcome Z :=
    let! s := mod_r_p ((prf_nf nk rho + psi) mod pmod) in
    Ret (extract_p (pt_add (pt_mul s nullifier_K) cm)).

  (** note.rs:284-291 Note::nullifier. *)
  Definition note_nullifier (n : note) (f : fvk) : outcome Z :=
    let! cm := commitment n in
    nf_derive (fvk_nk f) (n_rho n) (rseed_psi (n_rseed n) (n_rho n)) cm.

  (** note.rs:242-244 Note::esk. *)
  Definition note_esk (n : note) : outcome Z := rseed_esk (n_rseed n) (n_rho n).

  (** note.rs:208-224 Note::dummy. *)
  Definition note_dummy (fuel : nat) (rho : option Z) (r : rng)
    : outcome (bytes * fvk * note * rng) :=
    let! (sk, r1) := sk_random fuel r in
    let! f := fvk_from_sk sk in
    let! recipient := fvk_address_at f (div_index_of_u32 0) External in
    let (rho', r2) := match rho with
                      | Some x => (x, r1)
                      | None => let (nf, r') := nf_dummy r1 in (rho_from_nf_old nf, r')
                      end in
    let! (n, r3) := note_new fuel recipient 0 rho' r2 in
    Ret (sk, f, n, r3).
End Note.
