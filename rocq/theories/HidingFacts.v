(** Commitments and randomized keys hide perfectly on Pallas (C76). *)
From Coq Require Import String ZArith List Bool Lia Znumtheory.
From Coq Require Import Init.Byte.
From Verif Require Import Prelude Fields Curve Oracles Sinsemilla RedPallas Value Keys Note
  PreludeFacts NumTheory CurveFacts PallasCurve PallasFacts PallasOrder PallasLaws PallasUse RealOracles RealFacts HidingSpec.
Import ListNotations.
Open Scope Z_scope.

Lemma bez : forall a b u v m, u * b + v * m = 1 -> a * u * b = a + (- (a * v)) * m.
Proof. intros a b u v m E. transitivity (a * (u * b + v * m) - a * v * m); [ring|rewrite E; ring]. Qed.

(** * Every point is exactly one multiple of every other point *)
Lemma unique_log : forall B P : @point pallas, B <> pt_id -> exactly_one (fun k => is_scalar k /\ @pt_mul pallas k B = P).
Proof.
  intros B P NB. destruct (pallas_scalars B) as (b & Rb & EB & _). destruct (pallas_scalars P) as (a & Ra & EA & _).
  assert (Hb : b mod qmod <> 0).
  { rewrite Z.mod_small by exact Rb. intro E. apply NB. rewrite EB, E. apply mul_0. }
  assert (HR : rel_prime b qmod).
  { apply rel_prime_sym. apply prime_rel_prime; [exact prime_qmod|].
    intro D. apply Hb. apply Z.mod_divide; [|assumption]. pose proof qmod_pos; lia. }
  apply rel_prime_bezout in HR. destruct HR as [u v E].
  exists ((a * u) mod qmod). split.
  - split; [unfold is_scalar; apply Z.mod_pos_bound; exact qmod_pos|].
    rewrite (mul_mod pallas_laws), EB, <- (mul_mul pallas_laws). rewrite EA. apply (mul_mod_eq pallas_laws).
    replace (a * u * b) with (a + (- (a * v)) * qmod) by (symmetry; exact (bez a b u v qmod E)). apply Z.mod_add. pose proof qmod_pos; lia.
  - intros k [Rk Ek].
    assert (X : k mod qmod = (a * u) mod qmod).
    { apply (mul_inj pallas_laws _ _ B NB). rewrite Ek, EB, <- (mul_mul pallas_laws). rewrite EA. apply (mul_mod_eq pallas_laws).
      replace (a * u * b) with (a + (- (a * v)) * qmod) by (symmetry; exact (bez a b u v qmod E)). symmetry. apply Z.mod_add. pose proof qmod_pos; lia. }
    rewrite Z.mod_small in X by exact Rk. exact X.
Qed.
Lemma unique_shift : forall Q B P : @point pallas, B <> pt_id -> exactly_one (fun k => is_scalar k /\ @pt_add pallas Q (@pt_mul pallas k B) = P).
Proof.
  intros Q B P NB. destruct (unique_log B (@pt_sub pallas P Q) NB) as (k & [R E] & U). exists k. split.
  - split; [exact R|]. rewrite E, (add_comm pallas_laws). apply (sub_add pallas_laws).
  - intros j [Rj Ej]. apply U. split; [exact Rj|]. rewrite <- Ej, (add_comm pallas_laws), (add_sub pallas_laws). reflexivity.
Qed.

(** * Reducing 64 uniform bytes *)
Lemma wide_div : forall M m s t q v, 0 < m -> 0 <= s -> M = m * q + t -> 0 <= t < m -> 0 <= v < M -> v = m * (v / m) + s ->
  v / m < (if s <? t then q + 1 else q).
Proof. intros M m s t q v Hm Hs EM Ht Hv E. destruct (Z.ltb_spec s t); nia. Qed.
Lemma wide_mul : forall M m s t q k, 0 < m -> 0 <= s < m -> M = m * q + t -> 0 <= t < m -> 0 <= k < (if s <? t then q + 1 else q) ->
  0 <= s + k * m < M.
Proof. intros M m s t q k Hm Hs EM Ht Hk. destruct (Z.ltb_spec s t); nia. Qed.
Lemma wide_reduction : forall m s, 0 < m -> 0 <= s < m ->
  exists n, (n = 2 ^ 512 / m \/ n = 2 ^ 512 / m + 1) /\
  forall b, length b = 64%nat -> (le_val b mod m = s <-> exists k, 0 <= k < n /\ b = le_bytes 64 (s + k * m)).
Proof.
  intros m s Hm Hs. assert (EM : 256 ^ Z.of_nat 64 = 2 ^ 512) by reflexivity. revert EM. generalize (2 ^ 512). intros M EM.
  pose proof (Z_div_mod_eq_full M m) as DM. pose proof (Z.mod_pos_bound M m Hm) as MB.
  exists (if s <? M mod m then M / m + 1 else M / m). split; [destruct (s <? M mod m); [right|left]; reflexivity|].
  intros b LB. pose proof (le_val_range b) as R. rewrite LB, EM in R.
  split.
  - intro E. pose proof (Z_div_mod_eq_full (le_val b) m) as D. rewrite E in D. exists (le_val b / m). split.
    + split; [apply Z.div_pos; [exact (proj1 R)|exact Hm]|]. exact (wide_div M m s _ _ _ Hm (proj1 Hs) DM MB R D).
    + replace (s + le_val b / m * m) with (le_val b) by (rewrite D at 1; ring). symmetry. apply le_bytes_le_val. exact LB.
  - intros (k & Hk & ->). rewrite le_val_le_bytes.
    + rewrite Z.mod_add by (intros ->; discriminate Hm). apply Z.mod_small. exact Hs.
    + rewrite EM. exact (wide_mul M m s _ _ k Hm Hs DM MB Hk).
Qed.
Lemma to_scalar_uniform : forall s, is_scalar s -> exists n, (n = 2 ^ 512 / qmod \/ n = 2 ^ 512 / qmod + 1) /\
  forall b, length b = 64%nat -> (to_scalar b = s <-> exists k, 0 <= k < n /\ b = le_bytes 64 (s + k * qmod)).
Proof. intros s Hs. apply wide_reduction; [reflexivity|exact Hs]. Qed.

Section Real.
  Variables (R : Type) (rng_b : R -> nat -> bytes * R) (rng_i : R -> nat -> nat * R) (rng_p : R -> pallas_point * R).
  Let OR : @Oracles pallas := real_oracles R rng_b rng_i rng_p.

  Lemma value_hides : forall v (cv : @point pallas), Z.abs v < 2 ^ 64 ->
    exactly_one (fun rcv => is_scalar rcv /\ @derive_cv pallas OR v rcv = Ret cv).
  Proof.
    intros v cv Hv. unfold derive_cv. rewrite (proj2 (Z.ltb_lt _ _) Hv). cbn [unwrap obind].
    destruct (unique_shift (@pt_mul pallas (if v <? 0 then - Z.abs v mod qmod else Z.abs v) (@value_base_V pallas OR)) (@value_base_R pallas OR) cv)
      as (k & [Rk E] & U); [exact (not_id _ _ (e_r R rng_b rng_i rng_p))|].
    exists k. split; [split; [exact Rk|rewrite E; reflexivity]|]. intros j [Rj Ej]. apply U. split; [exact Rj|congruence].
  Qed.
  Lemma note_hides : forall g_d pk_d v rho psi,
    (forall rcm, @note_commitment_derive pallas OR g_d pk_d v rho psi rcm = None) \/
    (forall cm : @point pallas, exactly_one (fun rcm => is_scalar rcm /\ @note_commitment_derive pallas OR g_d pk_d v rho psi rcm = Some cm)).
  Proof.
    intros g_d pk_d v rho psi. unfold note_commitment_derive, sins_commit.
    destruct (sins_hash_to_point _ _) as [Q|]; [|left; reflexivity]. right. intro cm. cbn [optbind].
    destruct (unique_shift Q (@commit_R pallas OR "z.cash:Orchard-NoteCommit") cm) as (k & [Rk E] & U);
      [exact (not_id _ _ (e_r_note R rng_b rng_i rng_p))|].
    exists k. split; [split; [exact Rk|rewrite E; reflexivity]|]. intros j [Rj Ej]. apply U. split; [exact Rj|congruence].
  Qed.
  Lemma key_hides : forall ak rk : @point pallas,
    exactly_one (fun alpha => is_scalar alpha /\ @vk_randomize pallas OR ak alpha = rk).
  Proof. intros ak rk. apply unique_shift. exact (not_id _ _ (e_g R rng_b rng_i rng_p)). Qed.
  Lemma ivk_hides : forall ak nk ak' nk',
    (forall rivk, @commit_ivk pallas OR ak nk rivk = None) \/ (forall rivk, @commit_ivk pallas OR ak' nk' rivk = None) \/
    exists d, is_scalar d /\ forall rivk, @commit_ivk pallas OR ak' nk' ((rivk + d) mod qmod) = @commit_ivk pallas OR ak nk rivk.
  Proof.
    intros ak nk ak' nk'. unfold commit_ivk, sins_short_commit, sins_commit.
    destruct (sins_hash_to_point _ (commit_ivk_msg ak nk)) as [Q|]; [|left; reflexivity]. right.
    destruct (sins_hash_to_point _ (commit_ivk_msg ak' nk')) as [Q'|]; [|left; reflexivity]. right. cbn [optbind option_map].
    destruct (unique_shift Q' (@commit_R pallas OR "z.cash:Orchard-CommitIvk") Q) as (d & [Rd E] & _);
      [exact (not_id _ _ (e_r_ivk R rng_b rng_i rng_p))|].
    exists d. split; [exact Rd|]. intro rivk. rewrite (mul_mod pallas_laws), <- E, (mul_add pallas_laws).
    rewrite (add_comm pallas_laws (pt_mul rivk _)), (add_assoc pallas_laws). reflexivity.
  Qed.
End Real.
