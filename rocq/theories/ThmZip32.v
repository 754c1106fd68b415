(** Properties C39, C40 (src/zip32.rs) and C55 (PRF^expand inputs). *)
From Coq Require Import String ZArith List Bool Lia.
From Coq Require Import Init.Byte.
From Verif Require Import Prelude Fields Curve Oracles RedPallas Keys Note Zip32 PrfSpec Zip32Facts KeyIndexFacts
  Toy ToyFacts ToyKeys.
Import ListNotations.
Open Scope Z_scope.

(** C39: a path can be followed in two parts. *)
Theorem C39_path_in_two_parts :
  forall (C : Curve) (OR : @Oracles C) (seed : bytes) (a b : list Z),
  xsk_from_path seed (a ++ b) =
  obind (xsk_from_path seed a)
        (fun r => match r with Ok k => derive_path k b | Err e => Ret (Err e) end).
Proof. exact @from_path_app. Qed.
Print Assumptions C39_path_in_two_parts.

(** C39: what the key at the end of a path is. The master key has depth 0, no parent and no
    index; every other key is the child of the key one step up, carries that step's index, its
    parent's fingerprint tag and the path length as depth. *)
Theorem C39_path_key :
  forall (C : Curve) (OR : @Oracles C) (seed : bytes) (path : list Z) (k : xsk),
  xsk_from_path seed path = Ret (Ok k) ->
  x_depth k = Z.of_nat (length path) /\ (length path <= 255)%nat /\
  sk_from_bytes (x_sk k) = Ret (Some (x_sk k)) /\
  match rev path with
  | [] => xsk_master seed = Ret (Ok k) /\ x_parent_tag k = repeat x00 4 /\ x_child_index k = None
  | i :: rest => exists parent f,
      xsk_from_path seed (rev rest) = Ret (Ok parent) /\ derive_child parent i = Ret (Ok k) /\
      x_child_index k = Some i /\ fvk_from_sk (x_sk parent) = Ret f /\
      x_parent_tag k = firstn 4 (blake2b 32 "ZcashOrchardFVFP" (fvk_to_bytes f))
  end.
Proof. exact @from_path_spec. Qed.
Print Assumptions C39_path_key.

(** C39: one step hashes exactly (chain code, key, index) and splits the result. *)
Theorem C39_child_derivation :
  forall (C : Curve) (OR : @Oracles C) (k : xsk) (i : Z) (k' : xsk),
  derive_child k i = Ret (Ok k') ->
  let I := blake2b 64 "Zcash_ExpandSeed" (x_chain_code k ++ x81 :: x_sk k ++ le_bytes 4 i) in
  x_sk k' = slice 0 32 I /\ x_chain_code k' = slice 32 64 I.
Proof. exact @derive_child_hash. Qed.
Print Assumptions C39_child_derivation.

(** C39: from_zip32_seed takes exactly the path 32' / coin_type' / account'. *)
Theorem C39_from_zip32_seed :
  forall (C : Curve) (OR : @Oracles C) (seed : bytes) (coin account : Z),
  0 <= coin -> 0 <= account < 2 ^ 31 ->
  (2 ^ 31 <= coin -> sk_from_zip32_seed seed coin account = Ret (Err (InvalidChildIndex coin))) /\
  (coin < 2 ^ 31 ->
     sk_from_zip32_seed seed coin account =
     obind (xsk_from_path seed [32 + 2 ^ 31; coin + 2 ^ 31; account + 2 ^ 31])
           (fun x => Ret (match x with Ok k => Ok (x_sk k) | Err e => Err e end))).
Proof. exact @zip32_seed_spec. Qed.
Print Assumptions C39_from_zip32_seed.

Example C39_example : exists k, @xsk_from_path _ const_oracles (repeat x00 32) (repeat (2 ^ 31) 255) = Ret (Ok k).
Proof. apply const_from_path_ok; rewrite repeat_length; lia. Qed.

(** C39: which (depth, index) pairs name a key: depth 0 with index 0, or any other depth with a
    hardened index. The index is given back, and the pair carried by the key at the end of a path
    of hardened indices is one of these, its index being the last step of the path. *)
Theorem C39_key_indices :
  (forall (depth i : Z) (k : option Z),
     key_index_new depth i = Some k <->
     (depth = 0 /\ i = 0 /\ k = None) \/ (depth <> 0 /\ 2 ^ 31 <= i /\ k = Some i)) /\
  (forall (depth i : Z) (k : option Z), key_index_new depth i = Some k -> key_index_index k = i) /\
  (forall (C : Curve) (OR : @Oracles C) (seed : bytes) (path : list Z) (k : xsk),
     Forall (fun i => 2 ^ 31 <= i < 2 ^ 32) path ->
     xsk_from_path seed path = Ret (Ok k) ->
     key_index_index (x_child_index k) = last path 0 /\
     key_index_new (x_depth k) (key_index_index (x_child_index k)) = Some (x_child_index k)).
Proof. exact (conj key_index_new_iff (conj key_index_round (@path_key_index))). Qed.
Print Assumptions C39_key_indices.

Example C39_key_indices_example :
  key_index_new 0 0 = Some None /\ key_index_new 0 1 = None /\ key_index_new 3 5 = None /\
  key_index_new 3 (2 ^ 31) = Some (Some (2 ^ 31)) /\
  Forall (fun i => 2 ^ 31 <= i < 2 ^ 32) (repeat (2 ^ 31) 255).
Proof.
  repeat (split; [reflexivity|]). apply Forall_forall. intros i H. apply repeat_spec in H. lia.
Qed.

(** C40: false as stated, in two independent ways. *)
Theorem C40_no_panic_long_path_refuted :
  exists (C : Curve) (OR : @Oracles C) (seed : bytes) (path : list Z),
    CurveLaws C /\ (32 <= length seed <= 252)%nat /\ Forall (fun i => 2 ^ 31 <= i < 2 ^ 32) path /\
    length path = 256%nat /\ exists why, xsk_from_path seed path = Panic why.
Proof. exact long_path_panics. Qed.
Print Assumptions C40_no_panic_long_path_refuted.

Theorem C40_no_panic_bad_seed_refuted :
  forall (C : Curve) (OR : @Oracles C) (seed : bytes) (path : list Z),
  ~ (32 <= length seed <= 252)%nat -> xsk_from_path seed path = Panic "seed length".
Proof. exact @bad_seed_panics. Qed.
Print Assumptions C40_no_panic_bad_seed_refuted.

(** C40, what does hold: with a legal seed and at most 255 steps the only panic left is the
    one of C31 (a derived ask of zero). *)
Theorem C40_only_zero_ask_panics :
  forall (C : Curve) (OR : @Oracles C) (L : CurveLaws C) (seed : bytes) (path : list Z) (w : string),
  (32 <= length seed <= 252)%nat -> (length path <= 255)%nat ->
  xsk_from_path seed path = Panic w -> w = "ask != 0"%string.
Proof. exact @from_path_panics. Qed.
Print Assumptions C40_only_zero_ask_panics.

(** C55: each use of PRF^expand hashes the string given by PrfSpec.v, and the strings of two
    uses agree only if the uses do: same role, same arguments. *)
Theorem C55_inputs_distinct :
  forall (C : Curve) (L : CurveLaws C) (u v : prf_use),
  prf_use_ok u -> prf_use_ok v -> prf_use_input u = prf_use_input v -> u = v.
Proof. exact @use_inputs_inj. Qed.
Print Assumptions C55_inputs_distinct.

Theorem C55_inputs_are_these :
  forall (C : Curve) (OR : @Oracles C),
  (forall sk, prf_expand sk dom_orchard_ask [] = prf64 (UAsk sk)) /\
  (forall sk, nk_from_sk sk = to_base (prf64 (UNk sk))) /\
  (forall sk, rivk_from_sk sk = to_scalar (prf64 (URivk sk))) /\
  (forall rseed rho, rseed_esk_inner rseed rho = nonzero (to_scalar (prf64 (UEsk rseed rho)))) /\
  (forall rseed rho, rseed_rcm rseed rho = to_scalar (prf64 (URcm rseed rho))) /\
  (forall rseed rho, rseed_psi rseed rho = to_base (prf64 (UPsi rseed rho))) /\
  (forall f, derive_dk_ovk f = (slice 0 32 (prf64 (UDkOvk (fvk_rivk f) (fvk_ak f) (fvk_nk f))),
                                slice 32 64 (prf64 (UDkOvk (fvk_rivk f) (fvk_ak f) (fvk_nk f))))) /\
  (forall f r, fvk_rivk_scope f Internal = Ret r ->
     r = to_scalar (prf64 (URivkInternal (fvk_rivk f) (fvk_ak f) (fvk_nk f)))) /\
  (forall k i, child_prf k i = prf64 (UChild (x_chain_code k) (x_sk k) i)).
Proof. exact @use_is_what_is_called. Qed.
Print Assumptions C55_inputs_are_these.

Example C55_example :
  prf_use_ok (UAsk toy_sk) /\ prf_use_ok (UEsk toy_sk 5) /\ prf_use_ok (UDkOvk 3 (toy_pt 4) 5) /\
  prf_use_ok (UChild toy_sk toy_sk (2 ^ 31)).
Proof. cbn [prf_use_ok]. unfold is_base, is_scalar. vm_compute. intuition discriminate. Qed.
