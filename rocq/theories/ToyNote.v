(** Concrete notes on the computable curve, used by the [Example]s and by C45. *)
From Coq Require Import String ZArith List Bool Lia.
From Coq Require Import Init.Byte.
From Verif Require Import Prelude Fields Curve Oracles Sinsemilla RedPallas Value Keys Note
  PreludeFacts CurveFacts CodecFacts KeysSpec KeysFacts NoteSpec SinsSpec SinsFacts NoteFacts Toy ToyFacts ToyKeys.
Import ListNotations.
Open Scope Z_scope.

Definition toy_addr : address := mk_address (repeat x03 11) (toy_pt 4).
Definition toy_rseed : bytes := repeat x02 32.
Definition toy_note (v rho : Z) : note := mk_note toy_addr v rho toy_rseed.

Lemma toy_addr_ok : address_ok toy_addr.
Proof.
  split; [reflexivity|]. intro H. apply (f_equal toy_k) in H. vm_compute in H. discriminate H.
Qed.

Lemma toy_note_ok : forall v rho, 0 <= v < 2 ^ 64 -> 0 <= rho < 1000 -> note_ok (toy_note v rho).
Proof.
  intros v rho Hv Hr. constructor; [exact toy_addr_ok|exact Hv| |reflexivity].
  unfold is_base. cbn [n_rho toy_note]. assert (1000 < pmod) by (vm_compute; reflexivity). lia.
Qed.

Lemma toy_note_commits : exists n, note_from_parts toy_addr 5 9 toy_rseed = Some n.
Proof.
  destruct (note_from_parts toy_addr 5 9 toy_rseed) as [n|] eqn:E; [exists n; reflexivity|].
  assert (H : is_some (note_from_parts toy_addr 5 9 toy_rseed) = true) by (vm_compute; reflexivity).
  rewrite E in H. discriminate H.
Qed.

(** Oracles under which PRF^expand gives zero for one esk input: seed 02..02 with rho = 9. *)
Definition esk_oracles : @Oracles toy_curve := {|
  o_blake2b := fun n pers msg =>
    if bytes_eqb msg (toy_rseed ++ x04 :: to_repr 9) then repeat x00 n
    else @o_blake2b _ toy_oracles n pers msg;
  o_hash_to_curve := @o_hash_to_curve _ toy_oracles;
  o_poseidon := @o_poseidon _ toy_oracles;
  o_keystream := @o_keystream _ toy_oracles;
  o_tag := @o_tag _ toy_oracles;
  o_ff1 := @o_ff1 _ toy_oracles;
  rng := Z;
  o_rng_bytes := fun r n => (le_bytes n (1000 + 17 * r), r + 1);
  o_rng_below := fun r n => (Z.to_nat (r mod 7), r + 1);
  o_rng_point := fun r => (toy_pt (2000 + 19 * r), r + 1)
|}.

Lemma esk_can_panic :
  exists (C : Curve) (OR : @Oracles C) (b rseed : bytes) (rho rho' v : Z) (a : address) (n : note),
    CurveLaws C /\ length b = 32%nat /\ is_base rho /\ is_base rho' /\ is_u64 v /\ address_ok a /\
    rseed_from_bytes b rho = Some rseed /\ note_from_parts a v rho' rseed = Some n /\
    exists why, note_esk n = Panic why.
Proof.
  exists toy_curve, esk_oracles, toy_rseed, toy_rseed, 5, 9, 7, toy_addr, (toy_note 7 9).
  assert (P : 1000 < pmod) by (vm_compute; reflexivity).
  split; [exact toy_laws|]. split; [reflexivity|]. split; [unfold is_base; lia|]. split; [unfold is_base; lia|].
  split; [unfold is_u64; lia|]. split; [exact toy_addr_ok|]. split; [|split].
  - destruct (@rseed_from_bytes _ esk_oracles toy_rseed 5) as [s|] eqn:E.
    + destruct (rseed_from_bytes_spec _ _ _ E) as [-> _]. reflexivity.
    + assert (H : is_some (@rseed_from_bytes _ esk_oracles toy_rseed 5) = true) by (vm_compute; reflexivity).
      rewrite E in H. discriminate H.
  - destruct (@note_from_parts _ esk_oracles toy_addr 7 9 toy_rseed) as [s|] eqn:E.
    + destruct (from_parts_spec _ _ _ _ _ E) as [-> _]. reflexivity.
    + assert (H : is_some (@note_from_parts _ esk_oracles toy_addr 7 9 toy_rseed) = true) by (vm_compute; reflexivity).
      rewrite E in H. discriminate H.
  - apply rseed_from_bytes_none. vm_compute. reflexivity.
Qed.
