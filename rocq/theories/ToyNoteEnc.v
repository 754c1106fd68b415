(** A concrete encrypted note on the computable curve, used by the [Example]s. *)
From Coq Require Import String ZArith List Bool Lia.
From Coq Require Import Init.Byte.
From Verif Require Import Prelude Fields Curve Oracles Sinsemilla RedPallas Value Keys Note Action NoteEnc
  PreludeFacts CurveFacts CodecFacts KeysSpec KeysFacts NoteSpec NoteFacts NoteEncSpec NoteEncFacts
  Toy ToyFacts ToyKeys ToyNote.
Import ListNotations.
Open Scope Z_scope.

Definition toy_ivk : ivk := mk_ivk (repeat x05 32) 4.
Definition toy_sent : note := mk_note (ivk_address toy_ivk (repeat x03 11)) 5 9 toy_rseed.
Definition toy_memo : bytes := repeat x41 512.
Definition toy_ovk : bytes := repeat x06 32.
Definition toy_rng : @rng toy_curve toy_oracles := 1%Z.

Lemma toy_ivk_ok : ivk_ok toy_ivk.
Proof. split; [reflexivity|]. cbn [ivk_ivk toy_ivk]. pose proof pmod_gt_4. lia. Qed.

Lemma toy_sent_ok : note_ok toy_sent.
Proof.
  constructor.
  - apply (ivk_address_ok toy_laws); [exact toy_gd|exact toy_ivk_ok|reflexivity].
  - cbn [n_value toy_sent]. unfold is_u64. lia.
  - cbn [n_rho toy_sent]. unfold is_base. assert (1000 < pmod) by (vm_compute; reflexivity). lia.
  - reflexivity.
Qed.

Lemma toy_sent_commits : exists cm, commitment toy_sent = Ret cm.
Proof.
  assert (H : match commitment toy_sent with Ret _ => true | _ => false end = true) by (vm_compute; reflexivity).
  destruct (commitment toy_sent) as [cm|w|]; try discriminate H. exists cm. reflexivity.
Qed.
Lemma toy_sent_esk : exists esk, note_esk toy_sent = Ret esk.
Proof.
  assert (H : match note_esk toy_sent with Ret _ => true | _ => false end = true) by (vm_compute; reflexivity).
  destruct (note_esk toy_sent) as [e|w|]; try discriminate H. exists e. reflexivity.
Qed.

Lemma toy_encrypts : exists a : action unit, encrypts (Some toy_ovk) toy_sent toy_memo toy_rng a.
Proof.
  destruct toy_sent_commits as [cm HC]. destruct toy_sent_esk as [esk HE].
  set (e := mk_encryptor (Some toy_ovk) toy_sent toy_memo esk (ka_derive_public toy_sent esk)).
  exists (@mk_action toy_curve unit 9 (toy_pt 3) (cmx_of cm)
    (mk_ciphertext (epk_to_bytes (e_epk e)) (encrypt_note_plaintext e)
       (fst (encrypt_outgoing_plaintext e (toy_pt 11) (cmx_of cm) toy_rng))) (toy_pt 11) tt).
  exists e, cm. split; [unfold encryptor_new; rewrite HE; reflexivity|]. split; [exact HC|].
  split; [reflexivity|]. split; [reflexivity|]. split; [reflexivity|]. split; reflexivity.
Qed.

Lemma toy_encrypted : exists (a : action unit) (k : ivk),
  note_ok toy_sent /\ length toy_memo = 512%nat /\ encrypts (Some toy_ovk) toy_sent toy_memo toy_rng a /\
  ivk_ok k /\ owned_by k (n_recipient toy_sent).
Proof.
  destruct toy_encrypts as [a H]. exists a, toy_ivk. split; [exact toy_sent_ok|]. split; [reflexivity|].
  split; [exact H|]. split; [exact toy_ivk_ok|reflexivity].
Qed.

Lemma toy_decrypts : exists (a : action unit) r,
  ct_ok (a_ct a) /\ is_base (a_nf a) /\ is_base (a_cmx a) /\ try_note_decryption toy_ivk a = Ret (Some r).
Proof.
  destruct toy_encrypts as [a H]. exists a.
  destruct (encrypts_roundtrip toy_laws unit (Some toy_ovk) toy_sent toy_memo toy_rng a toy_gd toy_sent_ok eq_refl H) as (CT & D & _).
  destruct (D toy_ivk toy_ivk_ok eq_refl) as [D1 _]. eexists. split; [exact CT|].
  destruct H as (e & cm & _ & _ & NF & CX & _). split; [rewrite NF; exact (no_rho _ toy_sent_ok)|].
  split; [rewrite CX; apply (x_range toy_laws)|]. exact D1.
Qed.

Lemma toy_keyed : exists (a : action unit) esk,
  encrypts (Some toy_ovk) toy_sent toy_memo toy_rng a /\ length toy_ovk = 32%nat /\ is_base (a_cmx a) /\
  note_ok toy_sent /\ note_esk toy_sent = Ret esk.
Proof.
  destruct toy_encrypts as [a H]. pose proof H as (e & cm & HE & HC & NF & CX & _).
  unfold encryptor_new in HE. destruct (note_esk toy_sent) as [esk|w|]; cbn [obind] in HE; try discriminate HE.
  exists a, esk. split; [exact H|]. split; [reflexivity|]. split; [|split; [exact toy_sent_ok|reflexivity]].
  rewrite CX. exact (pt_x_range toy_curve toy_laws cm).
Qed.
