(** Batched trial decryption: zcash_note_encryption::batch with the domain of src/note_encryption.rs. *)
From Coq Require Import String ZArith List Bool.
From Coq Require Import Init.Byte.
From Verif Require Import Prelude Fields Curve Oracles Keys Note Action NoteEnc Bundle.
Import ListNotations.
Open Scope Z_scope.

Section BatchDec.
  Context {C : Curve} {OR : @Oracles C}.

  (** A domain (note_encryption.rs:83-85 OrchardDomain, the rho of the output note) and the three fields
      zcash_note_encryption reads of an output (ShieldedOutput: ephemeral_key, cmstar_bytes, enc_ciphertext;
      note_encryption.rs:255-267 for Action, 297-309 for CompactAction). *)
  Record batch_output := mk_output { bo_rho : Z; bo_epk : bytes; bo_cmx : bytes; bo_enc : bytes }.
  (** note_encryption.rs:97-101 for_action, 103-106 for_compact_action. *)
  Definition output_of_action {A} (a : action A) : batch_output :=
    mk_output (a_rho a) (ct_epk (a_ct a)) (cmx_to_bytes (a_cmx a)) (ct_enc (a_ct a)).
  Definition output_of_compact (c : compact_action) : batch_output :=
    mk_output (rho_from_nf_old (c_nf c)) (c_epk c) (cmx_to_bytes (c_cmx c)) (c_enc c).

  (** Domain::batch_epk, not overridden by the crate: parse each key, keep the bytes. Preparing a key is the identity
      (note_encryption.rs:133-135 prepare_epk). *)
  Definition batch_epk (keys : list bytes) : list (option point * bytes) := map (fun b => (epk_from_bytes b, b)) keys.

  (** [slice::chunks]: pieces of [k] elements, the last may be shorter. The first argument bounds the number of pieces. *)
  Fixpoint chunks {A} (fuel k : nat) (l : list A) : list (list A) :=
    match fuel, l with
    | S fuel', _ :: _ => firstn k l :: chunks fuel' k (skipn k l)
    | _, _ => []
    end.

  (** [filter_map(..).next()] on one output: stop at the first key that decrypts. *)
  Fixpoint next_hit {R} (decrypt : ivk -> bytes -> outcome (option R)) (l : list (option bytes * (nat * ivk)))
    : outcome (option (R * nat)) :=
    match l with
    | [] => Ret None
    | (None, _) :: rest => next_hit decrypt rest
    | (Some key, (i, k)) :: rest =>
        let! r := decrypt k key in
        match r with
        | Some x => Ret (Some (x, i))
        | None => next_hit decrypt rest
        end
    end.

  (** zcash_note_encryption batch.rs batch_note_decryption. [inner] is the rest of one decryption, given the key. *)
  Definition batch_note_decryption {R} (inner : Z -> Z -> bytes -> bytes -> bytes -> bytes -> outcome (option R))
    (ivks : list ivk) (outputs : list batch_output) : outcome (list (option (R * nat))) :=
    match ivks with
    | [] => Ret (map (fun _ => None) outputs)
    | _ :: _ =>
        let epks := batch_epk (map bo_epk outputs) in
        let items := flat_map (fun e => map (fun k => (option_map (fun epk => epk_agree epk (ivk_ivk k)) (fst e), snd e)) ivks) epks in
        let keys := batch_kdf items in
        omap (fun x => let '(chunk, (e, o)) := x in
                next_hit (fun k key => inner (bo_rho o) (ivk_ivk k) (snd e) (bo_cmx o) (bo_enc o) key)
                  (combine chunk (combine (seq 0 (length ivks)) ivks)))
             (combine (chunks (length keys) (length ivks) keys) (combine epks outputs))
    end.

  (** batch::try_note_decryption and batch::try_compact_note_decryption. *)
  Definition batch_try_note_decryption (ivks : list ivk) (outputs : list batch_output)
    : outcome (list (option (note * address * bytes * nat))) := batch_note_decryption try_note_decryption_inner ivks outputs.
  Definition batch_try_compact_note_decryption (ivks : list ivk) (outputs : list batch_output)
    : outcome (list (option (note * address * nat))) := batch_note_decryption try_compact_decryption_inner ivks outputs.
End BatchDec.
