(** Proofs about src/zip32.rs, and the distinctness of PRF^expand inputs. *)
From Coq Require Import String ZArith List Bool Lia.
From Coq Require Import Init.Byte.
From Verif Require Import Prelude Fields Curve Oracles Sinsemilla RedPallas Keys Note Zip32
  PreludeFacts CurveFacts CodecFacts KeysSpec KeysFacts PrfSpec Toy ToyFacts ToyKeys.
Import ListNotations.
Open Scope Z_scope.

Lemma blake2b_length : forall {C : Curve} {OR : @Oracles C} n p m, length (blake2b n p m) = n.
Proof. intros. apply fit_length. Qed.

#[local] Opaque commit_ivk prf_expand to_scalar to_base blake2b.

Section Zip32.
  Context {C : Curve} {OR : @Oracles C}.

  (** * Paths *)

  Lemma derive_path_app : forall a k b,
    derive_path k (a ++ b) =
    obind (derive_path k a) (fun r => match r with Ok k' => derive_path k' b | Err e => Ret (Err e) end).
  Proof.
    induction a as [|i a IH]; intros k b; [reflexivity|].
    cbn [app derive_path]. destruct (derive_child k i) as [[k'|e]|w|]; cbn [obind]; try reflexivity. apply IH.
  Qed.

  Lemma from_path_app : forall seed a b,
    xsk_from_path seed (a ++ b) =
    obind (xsk_from_path seed a) (fun r => match r with Ok k' => derive_path k' b | Err e => Ret (Err e) end).
  Proof.
    intros seed a b. unfold xsk_from_path. destruct (xsk_master seed) as [[k|e]|w|]; cbn [obind]; try reflexivity.
    apply derive_path_app.
  Qed.

  Lemma from_path_snoc : forall seed a i,
    xsk_from_path seed (a ++ [i]) =
    obind (xsk_from_path seed a) (fun r => match r with Ok k' => derive_child k' i | Err e => Ret (Err e) end).
  Proof.
    intros. rewrite from_path_app. destruct (xsk_from_path seed a) as [[k|e]|w|]; cbn [obind derive_path]; try reflexivity.
    destruct (derive_child k i) as [[k'|e]|w|]; reflexivity.
  Qed.

  Variable L : CurveLaws C.

  (** What every derived key satisfies. *)
  Record xsk_ok (k : xsk) : Prop := {
    xo_depth : 0 <= x_depth k <= 255;
    xo_tag : length (x_parent_tag k) = 4%nat;
    xo_cc : length (x_chain_code k) = 32%nat;
    xo_len : length (x_sk k) = 32%nat;
    xo_sk : sk_from_bytes (x_sk k) = Ret (Some (x_sk k))
  }.

  Lemma slice_prf : forall b, length b = 64%nat -> length (slice 0 32 b) = 32%nat /\ length (slice 32 64 b) = 32%nat.
  Proof. intros b H. split; rewrite slice_length; lia. Qed.

  Lemma fvk_tag_length : forall f, length (fvk_tag f) = 4%nat.
  Proof. intro f. unfold fvk_tag. rewrite firstn_length, blake2b_length. lia. Qed.

  Lemma master_ok : forall seed k, xsk_master seed = Ret (Ok k) ->
    xsk_ok k /\ x_depth k = 0 /\ x_parent_tag k = repeat x00 4 /\ x_child_index k = None.
  Proof.
    intros seed k H. unfold xsk_master in H. inv_ret.
    destruct a0 as [sk|]; [|discriminate H]. injection H as <-.
    pose proof (sk_from_bytes_some _ _ H1) as E. subst sk.
    destruct (slice_prf _ (blake2b_length 64 "ZcashIP32Orchard" seed)) as [L1 L2].
    split; [|repeat split]. constructor; cbn [x_depth x_parent_tag x_chain_code x_sk]; try assumption; try lia. reflexivity.
  Qed.

  Lemma derive_child_ok : forall k i k', xsk_ok k -> derive_child k i = Ret (Ok k') ->
    xsk_ok k' /\ x_depth k' = x_depth k + 1 /\ x_child_index k' = Some i /\
    exists f, fvk_from_sk (x_sk k) = Ret f /\ x_parent_tag k' = fvk_tag f.
  Proof.
    intros k i k' K H. unfold derive_child in H. inv_ret.
    destruct a as [sk|]; [|discriminate H]. inv_ret.
    match goal with X : (_ <? 255) = true |- _ => apply Z.ltb_lt in X end.
    match goal with X : sk_from_bytes _ = Ret (Some sk) |- _ => pose proof (sk_from_bytes_some _ _ X) as E; subst sk end.
    destruct (slice_prf _ (prf_expand_length (x_chain_code k) dom_orchard_zip32_child [x_sk k; le_bytes 4 i])) as [L1 L2].
    fold (child_prf k i) in L1, L2.
    split; [|split; [reflexivity|split; [reflexivity|eexists; split; [eassumption|reflexivity]]]].
    pose proof (xo_depth k K).
    constructor; cbn [x_depth x_parent_tag x_chain_code x_sk]; try assumption; try lia. apply fvk_tag_length.
  Qed.

  (** A child derivation can panic only because the new ask is zero or the depth is 255. *)
  Lemma derive_child_panics : forall k i w, xsk_ok k -> derive_child k i = Panic w ->
    (w = "ask != 0"%string /\ to_scalar (prf_expand (slice 0 32 (child_prf k i)) dom_orchard_ask []) = 0) \/
    (w = "depth + 1 overflows u8"%string /\ x_depth k = 255).
  Proof.
    intros k i w K H. unfold derive_child in H.
    set (ski := slice 0 32 (child_prf k i)) in *.
    destruct (Z.eq_dec (ask_inner ski) 0) as [E|E].
    - rewrite (sk_from_bytes_panics ski E) in H. cbn [obind] in H. left. split; [congruence|exact E].
    - destruct (sk_from_bytes_total L ski E) as [o Ho]. rewrite Ho in H. cbn [obind] in H.
      destruct o as [sk|]; [|discriminate H].
      destruct (sk_usable L _ _ (xo_sk k K)) as (_ & f & Hf & _). rewrite Hf in H. cbn [obind] in H.
      destruct (Z.ltb_spec (x_depth k) 255) as [D|D]; [discriminate H|].
      right. split; [cbn in H; congruence|]. pose proof (xo_depth k K). lia.
  Qed.

  Lemma derive_child_no_fuel : forall k i, derive_child k i <> OutOfFuel.
  Proof.
    intros k i H. unfold derive_child in H. set (ski := slice 0 32 (child_prf k i)) in *.
    destruct (Z.eq_dec (ask_inner ski) 0) as [E|E].
    - rewrite (sk_from_bytes_panics ski E) in H. discriminate H.
    - destruct (sk_from_bytes_total L ski E) as [o Ho]. rewrite Ho in H. cbn [obind] in H.
      destruct o as [sk|]; [|discriminate H]. unfold fvk_from_sk in H.
      destruct (Z.eq_dec (ask_inner (x_sk k)) 0) as [E'|E'].
      + rewrite (ask_from_sk_panics _ E') in H. discriminate H.
      + destruct (ask_from_sk_spec L _ E') as (ask & A & _). rewrite A in H. cbn [obind] in H.
        destruct (x_depth k <? 255); discriminate H.
  Qed.

  Lemma derive_path_ok : forall path k k', xsk_ok k -> derive_path k path = Ret (Ok k') ->
    xsk_ok k' /\ x_depth k' = x_depth k + Z.of_nat (length path).
  Proof.
    induction path as [|i path IH]; intros k k' K H.
    - cbn in H. injection H as <-. split; [exact K|]. cbn. lia.
    - cbn [derive_path] in H. destruct (derive_child k i) as [[k1|e]|w|] eqn:E; cbn [obind] in H; try discriminate H.
      destruct (derive_child_ok _ _ _ K E) as (K1 & D1 & _). destruct (IH _ _ K1 H) as [K' D'].
      split; [exact K'|]. cbn [length]. lia.
  Qed.

  Lemma from_path_ok : forall seed path k, xsk_from_path seed path = Ret (Ok k) ->
    xsk_ok k /\ x_depth k = Z.of_nat (length path).
  Proof.
    intros seed path k H. unfold xsk_from_path in H.
    destruct (xsk_master seed) as [[m|e]|w|] eqn:E; cbn [obind] in H; try discriminate H.
    destruct (master_ok _ _ E) as (M & D & _). destruct (derive_path_ok _ _ _ M H) as [K D'].
    split; [exact K|]. lia.
  Qed.

  (** The statement of C39. *)
  Lemma from_path_spec : forall seed path k, xsk_from_path seed path = Ret (Ok k) ->
    x_depth k = Z.of_nat (length path) /\ (length path <= 255)%nat /\
    sk_from_bytes (x_sk k) = Ret (Some (x_sk k)) /\
    match rev path with
    | [] => xsk_master seed = Ret (Ok k) /\ x_parent_tag k = repeat x00 4 /\ x_child_index k = None
    | i :: rest => exists parent f,
        xsk_from_path seed (rev rest) = Ret (Ok parent) /\ derive_child parent i = Ret (Ok k) /\
        x_child_index k = Some i /\ fvk_from_sk (x_sk parent) = Ret f /\
        x_parent_tag k = firstn 4 (blake2b 32 "ZcashOrchardFVFP" (fvk_to_bytes f))
    end.
  Proof.
    intros seed path k H. destruct (from_path_ok _ _ _ H) as [K D].
    split; [exact D|]. split; [pose proof (xo_depth k K); lia|]. split; [apply (xo_sk k K)|].
    destruct (rev path) as [|i rest] eqn:R.
    - assert (path = []) as -> by (rewrite <- (rev_involutive path), R; reflexivity).
      unfold xsk_from_path in H. destruct (xsk_master seed) as [[m|e]|w|] eqn:E; cbn [obind derive_path] in H; try discriminate H.
      injection H as <-. destruct (master_ok _ _ E) as (_ & _ & T & I). auto.
    - assert (P : path = rev rest ++ [i]) by (rewrite <- (rev_involutive path), R; reflexivity).
      rewrite P, from_path_snoc in H.
      destruct (xsk_from_path seed (rev rest)) as [[p|e]|w|] eqn:E; cbn [obind] in H; try discriminate H.
      destruct (from_path_ok _ _ _ E) as [Kp _].
      destruct (derive_child_ok _ _ _ Kp H) as (_ & _ & I & f & F & T).
      exists p, f. repeat split; assumption.
  Qed.

  (** C40, the part that holds: with a legal seed and at most 255 steps the only panic left is
      the one for a derived ask of zero. *)
  Lemma derive_path_panics : forall path k w, xsk_ok k ->
    x_depth k + Z.of_nat (length path) <= 255 -> derive_path k path = Panic w -> w = "ask != 0"%string.
  Proof.
    induction path as [|i path IH]; intros k w K HD H; [discriminate H|].
    cbn [derive_path] in H. cbn [length] in HD.
    destruct (derive_child k i) as [[k1|e]|w'|] eqn:E; cbn [obind] in H; try discriminate H.
    - destruct (derive_child_ok _ _ _ K E) as (K1 & D1 & _). apply (IH k1 w K1); [lia|exact H].
    - injection H as ->. destruct (derive_child_panics _ _ _ K E) as [[X _]|[_ X]]; [exact X|lia].
  Qed.

  Lemma from_path_panics : forall seed path w,
    (32 <= length seed <= 252)%nat -> (length path <= 255)%nat ->
    xsk_from_path seed path = Panic w -> w = "ask != 0"%string.
  Proof.
    intros seed path w HS HP H. unfold xsk_from_path in H.
    destruct (xsk_master seed) as [[m|e]|w'|] eqn:E; cbn [obind] in H; try discriminate H.
    - destruct (master_ok _ _ E) as (M & D & _). apply (derive_path_panics path m w M); [lia|exact H].
    - injection H as ->. unfold xsk_master in E.
      rewrite (proj2 (Nat.leb_le 32 _)), (proj2 (Nat.leb_le _ 252)) in E by lia. cbn [andb assert_ obind] in E.
      set (s := slice 0 32 (blake2b 64 "ZcashIP32Orchard" seed)) in *.
      destruct (Z.eq_dec (ask_inner s) 0) as [Z0|Z0].
      + rewrite (sk_from_bytes_panics s Z0) in E. cbn [obind] in E. congruence.
      + destruct (sk_from_bytes_total L s Z0) as [o Ho]. rewrite Ho in E. cbn [obind] in E.
        destruct o; discriminate E.
  Qed.

  Lemma bad_seed_panics : forall seed path, ~ (32 <= length seed <= 252)%nat ->
    xsk_from_path seed path = Panic "seed length".
  Proof.
    intros seed path H. unfold xsk_from_path, xsk_master.
    assert (E : Nat.leb 32 (length seed) && Nat.leb (length seed) 252 = false).
    { destruct (Nat.leb_spec 32 (length seed)); destruct (Nat.leb_spec (length seed) 252); try reflexivity. lia. }
    rewrite E. reflexivity.
  Qed.

  (** * from_zip32_seed *)

  Lemma zip32_seed_spec : forall seed coin account, 0 <= coin -> 0 <= account < 2 ^ 31 ->
    (2 ^ 31 <= coin -> sk_from_zip32_seed seed coin account = Ret (Err (InvalidChildIndex coin))) /\
    (coin < 2 ^ 31 ->
       sk_from_zip32_seed seed coin account =
       obind (xsk_from_path seed [32 + 2 ^ 31; coin + 2 ^ 31; account + 2 ^ 31])
             (fun x => Ret (match x with Ok k => Ok (x_sk k) | Err e => Err e end))).
  Proof.
    intros seed coin account HC HA. unfold sk_from_zip32_seed. split; intro H.
    - rewrite (proj2 (Z.leb_le _ _) H). reflexivity.
    - rewrite (proj2 (Z.leb_gt _ _) H). unfold child_hardened.
      rewrite (proj2 (Z.ltb_lt coin _) H), (proj2 (Z.ltb_lt account _)) by lia. reflexivity.
  Qed.

  (** * PRF^expand inputs *)

  Lemma use_inputs_inj : forall u v, prf_use_ok u -> prf_use_ok v -> prf_use_input u = prf_use_input v -> u = v.
  Proof.
    assert (S1 : forall (a b x y : bytes) d e, length a = 32%nat -> length b = 32%nat ->
                 a ++ d :: x = b ++ e :: y -> a = b /\ d = e /\ x = y).
    { intros a b x y d e Ha Hb H. apply app_inj_len in H as [H1 H2]; [|congruence].
      split; [exact H1|]. split; congruence. }
    intros u v Hu Hv H.
    destruct u, v; cbn [prf_use_input prf_use_ok] in *;
      repeat match goal with X : _ /\ _ |- _ => destruct X end;
      apply S1 in H as (H1' & H2' & H3'); auto using to_repr_length; try discriminate H2'; clear H2'; subst;
      try reflexivity.
    - f_equal. apply to_repr_inj_base; assumption.
    - f_equal. apply to_repr_inj_base; assumption.
    - f_equal. apply to_repr_inj_base; assumption.
    - apply app_inj_len in H3' as [A B]; [|rewrite !encode_length; reflexivity].
      apply (encode_inj L) in A. apply to_repr_inj_base in B; [|assumption|assumption].
      apply to_repr_inj_scalar in H1'; [|assumption|assumption]. subst. reflexivity.
    - apply app_inj_len in H3' as [A B]; [|rewrite !encode_length; reflexivity].
      apply (encode_inj L) in A. apply to_repr_inj_base in B; [|assumption|assumption].
      apply to_repr_inj_scalar in H1'; [|assumption|assumption]. subst. reflexivity.
    - apply app_inj_len in H3' as [A B]; [|congruence]. apply (le_bytes_inj 4) in B; [|lia|lia].
      subst. reflexivity.
  Qed.

  #[local] Transparent prf_expand.
  Lemma use_is_what_is_called :
    (forall sk, prf_expand sk dom_orchard_ask [] = prf64 (UAsk sk)) /\
    (forall sk, nk_from_sk sk = to_base (prf64 (UNk sk))) /\
    (forall sk, rivk_from_sk sk = to_scalar (prf64 (URivk sk))) /\
    (forall rseed rho, rseed_esk_inner rseed rho = nonzero (to_scalar (prf64 (UEsk rseed rho)))) /\
    (forall rseed rho, rseed_rcm rseed rho = to_scalar (prf64 (URcm rseed rho))) /\
    (forall rseed rho, rseed_psi rseed rho = to_base (prf64 (UPsi rseed rho))) /\
    (forall f, derive_dk_ovk f = (slice 0 32 (prf64 (UDkOvk (fvk_rivk f) (fvk_ak f) (fvk_nk f))),
                                  slice 32 64 (prf64 (UDkOvk (fvk_rivk f) (fvk_ak f) (fvk_nk f))))) /\
    (forall f r, fvk_rivk_scope f Internal = Ret r ->
       r = to_scalar (prf64 (URivkInternal (fvk_rivk f) (fvk_ak f) (fvk_nk f)))) /\
    (forall k i, child_prf k i = prf64 (UChild (x_chain_code k) (x_sk k) i)).
  Proof.
    unfold prf64, prf_use_input, nk_from_sk, rivk_from_sk, rseed_esk_inner, rseed_rcm, rseed_psi, derive_dk_ovk,
      child_prf, prf_expand, prf_expand_input.
    repeat split; intros; cbn [List.concat app]; rewrite ?app_nil_r; try reflexivity.
    cbn [fvk_rivk_scope] in H. unfold ak_to_bytes in H. inv_ret.
    unfold prf_expand, prf_expand_input. cbn [List.concat app]. rewrite app_nil_r. reflexivity.
  Qed.

  Lemma derive_child_hash : forall k i k', derive_child k i = Ret (Ok k') ->
    let I := blake2b 64 "Zcash_ExpandSeed" (x_chain_code k ++ x81 :: x_sk k ++ le_bytes 4 i) in
    x_sk k' = slice 0 32 I /\ x_chain_code k' = slice 32 64 I.
  Proof.
    intros k i k' H. cbv zeta.
    assert (E : child_prf k i = blake2b 64 "Zcash_ExpandSeed" (x_chain_code k ++ x81 :: x_sk k ++ le_bytes 4 i))
      by apply use_is_what_is_called.
    rewrite <- E. unfold derive_child in H. inv_ret. destruct a as [sk|]; [|discriminate H]. inv_ret.
    cbn [x_sk x_chain_code]. split; [|reflexivity].
    match goal with X : sk_from_bytes _ = Ret (Some sk) |- _ => exact (sk_from_bytes_some _ _ X) end.
  Qed.
End Zip32.

(** * A path that overflows the depth *)
#[local] Transparent prf_expand.

(** Oracles with a constant BLAKE2b: every derived key is the same. *)
Definition const_oracles : @Oracles toy_curve := {|
  o_blake2b := fun n pers msg => le_bytes n 7;
  o_hash_to_curve := @o_hash_to_curve _ toy_oracles;
  o_poseidon := @o_poseidon _ toy_oracles;
  o_keystream := @o_keystream _ toy_oracles;
  o_tag := @o_tag _ toy_oracles;
  o_ff1 := @o_ff1 _ toy_oracles;
  rng := Z;
  o_rng_bytes := fun r n => (le_bytes n (1000 + 17 * r), r + 1);
  o_rng_below := fun r n => (Z.to_nat (r mod 7), r + 1);
  o_rng_point := fun r => (toy_pt (2000 + 19 * r), r + 1)
|}.
Definition const_sk : bytes := le_bytes 32 7.

Lemma const_sk_ok : @sk_from_bytes _ const_oracles const_sk = Ret (Some const_sk).
Proof.
  assert (H : match @sk_from_bytes _ const_oracles const_sk with Ret (Some _) => true | _ => false end = true)
    by (vm_compute; reflexivity).
  destruct (@sk_from_bytes _ const_oracles const_sk) as [[sk'|]|w|] eqn:E; try discriminate H.
  f_equal. f_equal. apply (@sk_from_bytes_inv _ const_oracles _ _ E).
Qed.

#[local] Transparent blake2b.
Lemma const_blake : forall n p m, @blake2b _ const_oracles n p m = fit n (le_bytes n 7).
Proof. reflexivity. Qed.
#[local] Opaque blake2b.

Lemma const_child : forall k i, x_sk k = const_sk -> 0 <= x_depth k < 255 ->
  exists k', @derive_child _ const_oracles k i = Ret (Ok k') /\ x_sk k' = const_sk /\ x_depth k' = x_depth k + 1.
Proof.
  intros k i K D. unfold derive_child, child_prf, prf_expand. rewrite const_blake.
  change (slice 0 32 (fit 64 (le_bytes 64 7))) with const_sk.
  rewrite const_sk_ok. cbn [obind]. rewrite K.
  destruct (sk_usable toy_laws _ _ const_sk_ok) as (_ & f & Hf & _). rewrite Hf. cbn [obind].
  rewrite (proj2 (Z.ltb_lt _ _)) by lia. cbn [assert_ obind].
  eexists. split; [reflexivity|]. split; reflexivity.
Qed.

Lemma const_child_255 : forall k i, x_sk k = const_sk -> x_depth k = 255 ->
  @derive_child _ const_oracles k i = Panic "depth + 1 overflows u8".
Proof.
  intros k i K D. unfold derive_child, child_prf, prf_expand. rewrite const_blake.
  change (slice 0 32 (fit 64 (le_bytes 64 7))) with const_sk.
  rewrite const_sk_ok. cbn [obind]. rewrite K.
  destruct (sk_usable toy_laws _ _ const_sk_ok) as (_ & f & Hf & _). rewrite Hf. cbn [obind].
  rewrite D. reflexivity.
Qed.

Lemma const_path : forall path k, x_sk k = const_sk -> 0 <= x_depth k -> x_depth k + Z.of_nat (length path) = 256 ->
  path <> [] ->
  @derive_path _ const_oracles k path = Panic "depth + 1 overflows u8".
Proof.
  induction path as [|i path IH]; intros k K D0 D NE; [contradiction|].
  cbn [derive_path length] in *. destruct path as [|j path].
  - rewrite const_child_255; [reflexivity|exact K|cbn [length] in D; lia].
  - destruct (const_child k i K) as (k' & E & K' & D'); [cbn [length] in D; lia|].
    rewrite E. cbn [obind]. apply IH; [exact K'|lia|cbn [length] in *; lia|]. intro X. discriminate X.
Qed.

Lemma const_master : forall seed, (32 <= length seed <= 252)%nat ->
  exists k, @xsk_master _ const_oracles seed = Ret (Ok k) /\ x_sk k = const_sk /\ x_depth k = 0.
Proof.
  intros seed H. unfold xsk_master.
  rewrite (proj2 (Nat.leb_le 32 _)), (proj2 (Nat.leb_le _ 252)) by lia. cbn [andb assert_ obind].
  rewrite const_blake. change (slice 0 32 (fit 64 (le_bytes 64 7))) with const_sk.
  rewrite const_sk_ok. cbn [obind]. eexists. split; [reflexivity|]. split; reflexivity.
Qed.

Lemma long_path_panics :
  exists (C : Curve) (OR : @Oracles C) (seed : bytes) (path : list Z),
    CurveLaws C /\ (32 <= length seed <= 252)%nat /\ Forall (fun i => 2 ^ 31 <= i < 2 ^ 32) path /\
    length path = 256%nat /\ exists why, xsk_from_path seed path = Panic why.
Proof.
  exists toy_curve, const_oracles, (repeat x00 32), (repeat (2 ^ 31) 256).
  split; [exact toy_laws|]. split; [rewrite repeat_length; lia|]. split.
  - apply Forall_forall. intros x H. apply repeat_spec in H. subst. lia.
  - split; [apply repeat_length|]. eexists. unfold xsk_from_path.
    destruct (const_master (repeat x00 32)) as (k & E & K & D); [rewrite repeat_length; lia|].
    rewrite E. cbn [obind]. apply const_path; [exact K|lia|rewrite repeat_length, D; reflexivity|].
    intro X. discriminate X.
Qed.

(** A path of 255 steps works there. *)
Lemma const_path_ok : forall path k, x_sk k = const_sk -> 0 <= x_depth k ->
  x_depth k + Z.of_nat (length path) <= 255 -> exists k', @derive_path _ const_oracles k path = Ret (Ok k').
Proof.
  induction path as [|i path IH]; intros k K D0 D; [eexists; reflexivity|].
  cbn [derive_path length] in *. destruct (const_child k i K) as (k' & E & K' & D'); [lia|].
  rewrite E. cbn [obind]. apply IH; [exact K'|lia|lia].
Qed.

Lemma const_from_path_ok : forall seed path, (32 <= length seed <= 252)%nat -> (length path <= 255)%nat ->
  exists k, @xsk_from_path _ const_oracles seed path = Ret (Ok k).
Proof.
  intros seed path HS HP. unfold xsk_from_path. destruct (const_master seed HS) as (k & E & K & D).
  rewrite E. cbn [obind]. apply const_path_ok; [exact K|lia|lia].
Qed.
