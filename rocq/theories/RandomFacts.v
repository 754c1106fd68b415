(** Where the secrets of a built bundle come from (C72). *)
From Coq Require Import String ZArith List Bool Lia Permutation.
From Coq Require Import Init.Byte.
From Verif Require Import Prelude Fields Curve Oracles RedPallas Value Keys KeysSpec Note NoteSpec Tree Action NoteEnc Bundle Builder Signing BuilderSpec BundleSpec SigningSpec
  PreludeFacts NoteFacts CodecFacts RngSpec RngFacts RandomSpec BuilderFacts BuildFacts SigningFacts.
Import ListNotations.
Open Scope Z_scope.

(** * Lists *)

Lemma forall2_perm : forall A B (R : A -> B -> Prop) l l', Permutation l l' -> forall m, Forall2 R l m ->
  exists m', Forall2 R l' m' /\ Permutation m m'.
Proof.
  intros A B R l l' P. induction P as [|x l l' P IH|x y l|l l1 l2 P1 IH1 P2 IH2]; intros m F.
  - inversion F; subst. exists []. split; constructor.
  - inversion F as [|? b ? m0 H F']; subst. destruct (IH _ F') as (m' & F1 & Q). exists (b :: m'). split; [constructor; assumption|].
    apply perm_skip. exact Q.
  - inversion F as [|? b ? m0 H F']; subst. inversion F' as [|? c ? m1 H' F'']; subst. exists (c :: b :: m1).
    split; [constructor; [assumption|constructor; assumption]|apply perm_swap].
  - destruct (IH1 _ F) as (m1 & F1 & Q1). destruct (IH2 _ F1) as (m2 & F2 & Q2). exists m2. split; [exact F2|].
    apply (Permutation_trans Q1 Q2).
Qed.
Lemma forall2_length : forall A B (R : A -> B -> Prop) l m, Forall2 R l m -> length l = length m.
Proof. intros A B R l m F. induction F; cbn [length]; congruence. Qed.
Lemma forall2_enumerate : forall A B (R : A -> B -> Prop) l m, Forall2 R l m -> Forall2 (fun p b => R (snd p) b) (enumerate l) m.
Proof.
  intros A B R l m F. unfold enumerate. generalize 0%nat. induction F as [|a b l m H F IH]; intro s; cbn [length seq List.combine]; constructor.
  - exact H.
  - apply IH.
Qed.
Lemma forall2_map_l : forall A A' B (f : A -> A') (R : A' -> B -> Prop) l m, Forall2 (fun a b => R (f a) b) l m -> Forall2 R (map f l) m.
Proof. intros A A' B f R l m F. induction F; cbn [map]; constructor; assumption. Qed.
Lemma perm_four : forall A (a b c d a' b' c' d' : list A),
  Permutation ((a ++ b ++ c ++ d) ++ (a' ++ b' ++ c' ++ d')) ((a ++ a') ++ (b ++ b') ++ (c ++ c') ++ (d ++ d')).
Proof.
  assert (T : forall A (x y x' y' : list A), Permutation ((x ++ y) ++ (x' ++ y')) ((x ++ x') ++ (y ++ y'))).
  { intros A x y x' y'. rewrite <- !app_assoc. apply Permutation_app_head. rewrite !app_assoc. apply Permutation_app_tail. apply Permutation_app_comm. }
  intros. rewrite (T _ a (b ++ c ++ d) a' (b' ++ c' ++ d')). apply Permutation_app_head.
  rewrite (T _ b (c ++ d) b' (c' ++ d')). apply Permutation_app_head. apply T.
Qed.
Lemma flat_map_perm : forall A B (f : A -> list B) l l', Permutation l l' -> Permutation (flat_map f l) (flat_map f l').
Proof. intros A B f l l' P. apply Permutation_flat_map. exact P. Qed.

Section Random.
  Context {C : Curve} {OR : @Oracles C}.

  #[local] Opaque sk_random note_new fvk_from_sk fvk_address_at mp_dummy commitment note_nullifier fvk_rivk_scope ask_from_sk encrypt_note_plaintext
    encrypt_outgoing_plaintext note_esk rng_bytes to_scalar rseed_psi rseed_rcm aead_encrypt.

  Lemma shuffle_later : forall A (l : list A) r l' r', shuffle l r = (l', r') -> draws r [] r'.
  Proof.
    assert (G : forall A i (l : list A) r l' r', shuffle_from i l r = (l', r') -> draws r [] r').
    { intro A. induction i as [|i IH]; intros l r l' r' H; cbn [shuffle_from] in H; [injection H as _ <-; apply draws_nil|].
      destruct (rng_below (S (S i)) r) as [j r1] eqn:E. apply (draws_after _ r1); [apply (draws_none _ _ _ (below_draws _ _ _ _ E))|].
      apply (IH _ _ _ _ H). }
    intros A l r l' r' H. apply (G _ _ _ _ _ _ H).
  Qed.

  Lemma spend_dummy_draws : forall fuel r s r' l, spend_dummy fuel r = Ret (s, r') ->
    exists x, spend_from l s (Some x) /\ draws r (spend_draws (Some x)) r'.
  Proof.
    intros fuel r s r' l H. unfold spend_dummy in H.
    destruct (note_dummy fuel None r) as [[[[sk f] n] r1]|w|] eqn:E; cbn [obind] in H; try discriminate H.
    destruct (mp_dummy r1) as [path r2] eqn:E'. injection H as <- <-.
    unfold note_dummy in E. destruct (sk_random fuel r) as [[sk0 q1]|w|] eqn:E1; cbn [obind] in E; try discriminate E.
    destruct (fvk_from_sk sk0) as [f0|w|] eqn:EF; cbn [obind] in E; try discriminate E.
    destruct (fvk_address_at f0 _ External) as [a|w|] eqn:EA; cbn [obind] in E; try discriminate E.
    destruct (nf_dummy q1) as [nf q2] eqn:EN. unfold nf_dummy in EN. destruct (o_rng_point q1) as [P q] eqn:EP. injection EN as <- <-.
    destruct (note_new fuel a 0 _ q) as [[n0 q3]|w|] eqn:E2; cbn [obind] in E; try discriminate E.
    destruct (sk_random_draws _ _ _ _ E1) as (D1 & L1 & _). destruct (note_new_draws _ _ _ _ _ _ _ E2) as (D2 & L2 & R2).
    destruct (note_new_spec _ _ _ _ _ _ _ E2) as (_ & V2 & _).
    injection E as -> -> -> ->. exists (sk, P, n_rseed n). split.
    - cbn [spend_from s_dummy_sk s_fvk s_note]. split; [exact L1|]. split; [exact L2|]. split; [reflexivity|]. split; [exact EF|].
      split; [exact V2|]. split; [exact R2|reflexivity].
    - cbn [spend_draws]. apply (draws_before _ _ r1); [|apply (mp_dummy_draws _ _ _ E')].
      apply (draws_app _ [Bytes sk] q1 [Point P; Bytes (n_rseed n)]); [exact D1|].
      apply (draws_app _ [Point P] q [Bytes (n_rseed n)]); [apply (point_draws _ _ _ EP)|exact D2].
  Qed.
  Lemma output_dummy_draws : forall fuel r o r' l, output_dummy fuel r = Ret (o, r') ->
    exists x, output_from l o (Some x) /\ draws r (output_draws (Some x)) r'.
  Proof.
    intros fuel r o r' l H. unfold output_dummy in H.
    destruct (sk_random fuel r) as [[sk r1]|w|] eqn:E; cbn [obind] in H; try discriminate H.
    destruct (fvk_from_sk sk) as [f|w|] eqn:F; cbn [obind] in H; try discriminate H.
    destruct (fvk_address_at f _ External) as [a|w|] eqn:A; cbn [obind] in H; try discriminate H.
    injection H as <- <-. destruct (sk_random_draws _ _ _ _ E) as (D1 & L1 & _). exists sk.
    split; [|exact D1]. cbn [output_from output_info_new o_value o_ovk o_recipient]. split; [exact L1|]. split; [reflexivity|]. split; [reflexivity|].
    exists f. split; [exact F|exact A].
  Qed.

  Lemma pad_draws : forall A X (from : A -> option X -> Prop) (dd : option X -> list draw) (dummy : rng -> outcome (A * rng)),
    dd None = [] -> (forall r d r', dummy r = Ret (d, r') -> exists x, from d (Some x) /\ draws r (dd (Some x)) r') ->
    forall l n r full r', (forall a, In a l -> from a None) -> pad dummy l n r = Ret (full, r') ->
    exists xs, Forall2 from full xs /\ draws r (flat_map dd xs) r'.
  Proof.
    intros A X from dd dummy N H.
    assert (G : forall n r ds r', pad_dummies dummy n r = Ret (ds, r') -> exists xs, Forall2 from ds xs /\ draws r (flat_map dd xs) r').
    { induction n as [|n IH]; intros r ds r' E; cbn [pad_dummies] in E.
      - injection E as <- <-. exists []. split; [constructor|apply draws_nil].
      - destruct (dummy r) as [[d r1]|w|] eqn:E1; cbn [obind] in E; try discriminate E.
        destruct (pad_dummies dummy n r1) as [[l' r2]|w|] eqn:E2; cbn [obind] in E; try discriminate E.
        injection E as <- <-. destruct (H _ _ _ E1) as (x & F1 & D1). destruct (IH _ _ _ E2) as (xs & F2 & D2).
        exists (Some x :: xs). split; [constructor; assumption|]. cbn [flat_map]. apply (draws_app _ _ r1); assumption. }
    intros l n r full r' HL E. unfold pad in E.
    destruct (pad_dummies dummy (n - length l) r) as [[ds r1]|w|] eqn:E1; cbn [obind] in E; try discriminate E. injection E as <- <-.
    destruct (G _ _ _ _ E1) as (xs & F & D).
    assert (HF : forall a, In a (firstn n l) -> from a None).
    { intros a Ha. apply HL. rewrite <- (firstn_skipn n l). apply in_or_app. left. exact Ha. }
    exists (repeat None (length (firstn n l)) ++ xs). split.
    - apply Forall2_app; [|exact F]. clear -HF. induction (firstn n l) as [|a k IH]; cbn [length repeat]; constructor.
      + apply HF. left. reflexivity.
      + apply IH. intros b Hb. apply HF. right. exact Hb.
    - rewrite flat_map_app. assert (Z : flat_map dd (repeat None (length (firstn n l))) = []).
      { induction (length (firstn n l)) as [|k IH]; cbn [repeat flat_map]; [reflexivity|]. rewrite N, IH. reflexivity. }
      rewrite Z. exact D.
  Qed.

  Lemma pair_up_draws : forall ns no l idx m r pre m' r', pair_up ns no idx l m r = (pre, m', r') ->
    map ai_spend pre = map (fun x => snd (fst x)) l /\ map ai_output pre = map (fun x => snd (snd x)) l /\
    exists rcvs, Forall2 (fun a b => length b = 64%nat /\ ai_rcv a = to_scalar b) pre rcvs /\ draws r (flat_map (fun b => [Bytes b]) rcvs) r'.
  Proof.
    intros ns no. induction l as [|[[si s] [oi o]] l IH]; intros idx m r pre m' r' H; cbn [pair_up] in H.
    - injection H as <- <- <-. split; [reflexivity|]. split; [reflexivity|]. exists []. split; [constructor|apply draws_nil].
    - unfold trapdoor_random in H. destruct (rng_scalar r) as [rcv r1] eqn:E.
      destruct (pair_up ns no (S idx) l _ r1) as [[rest m1] r2] eqn:E1. injection H as <- <- <-.
      destruct (IH _ _ _ _ _ _ E1) as (M1 & M2 & rcvs & F & D). destruct (scalar_draws _ _ _ E) as (b & LB & -> & DB).
      cbn [map ai_spend ai_output fst snd]. split; [rewrite M1; reflexivity|]. split; [rewrite M2; reflexivity|].
      exists (b :: rcvs). split; [constructor; [split; [exact LB|reflexivity]|exact F]|].
      apply (draws_app _ [Bytes b] r1); assumption.
  Qed.

  Lemma pre_actions_draws : forall fuel n spends outputs r pre meta r',
    (length spends <= n)%nat -> (length outputs <= n)%nat ->
    pre_actions fuel n spends outputs r = Ret (pre, meta, r') ->
    exists xs ys rcvs, Forall2 (spend_from spends) (map ai_spend pre) xs /\ Forall2 (output_from outputs) (map ai_output pre) ys /\
      Forall2 (fun a b => length b = 64%nat /\ ai_rcv a = to_scalar b) pre rcvs /\
      draws r (flat_map spend_draws xs ++ flat_map output_draws ys ++ flat_map (fun b => [Bytes b]) rcvs) r'.
  Proof.
    intros fuel n spends outputs r pre meta r' LS LO H. unfold pre_actions in H.
    destruct (pad (spend_dummy fuel) spends n r) as [[sp r1]|w|] eqn:E1; cbn [obind] in H; try discriminate H.
    destruct (pad (output_dummy fuel) outputs n r1) as [[ou r2]|w|] eqn:E2; cbn [obind] in H; try discriminate H.
    destruct (pad_draws _ _ (spend_from spends) spend_draws (spend_dummy fuel) eq_refl
      (fun q d q' E => spend_dummy_draws fuel q d q' spends E) spends n r sp r1 (fun a Ha => Ha) E1) as (xs & F1 & D1).
    destruct (pad_draws _ _ (output_from outputs) output_draws (output_dummy fuel) eq_refl
      (fun q d q' E => output_dummy_draws fuel q d q' outputs E) outputs n r1 ou r2 (fun a Ha => Ha) E2) as (ys & F2 & D2).
    apply (pad_spec _ _ _ _ _ _ _ LS) in E1 as (_ & _ & S2 & _). apply (pad_spec _ _ _ _ _ _ _ LO) in E2 as (_ & _ & O2 & _).
    pose proof (shuffle_permutation _ (enumerate sp) r2) as P1. destruct (shuffle (enumerate sp) r2) as [sp' r3] eqn:ES1.
    pose proof (shuffle_permutation _ (enumerate ou) r3) as P2. destruct (shuffle (enumerate ou) r3) as [ou' r4] eqn:ES2.
    cbn [fst] in P1, P2. injection H as H. apply pair_up_draws in H as (M1 & M2 & rcvs & F3 & D3).
    assert (LL : length sp' = length ou').
    { rewrite (Permutation_length P1), (Permutation_length P2), !enumerate_length. congruence. }
    rewrite <- (map_map fst snd), combine_fst in M1 by exact LL. rewrite <- (map_map snd snd), combine_snd in M2 by exact LL.
    apply Permutation_sym in P1. apply Permutation_sym in P2.
    destruct (forall2_perm _ _ _ _ _ P1 _ (forall2_enumerate _ _ _ _ _ F1)) as (xs' & F1' & Q1).
    destruct (forall2_perm _ _ _ _ _ P2 _ (forall2_enumerate _ _ _ _ _ F2)) as (ys' & F2' & Q2).
    exists xs', ys', rcvs. split; [rewrite M1; apply forall2_map_l; exact F1'|]. split; [rewrite M2; apply forall2_map_l; exact F2'|].
    split; [exact F3|].
    apply (draws_app _ _ r1); [apply (draws_perm _ _ _ _ (flat_map_perm _ _ _ _ _ Q1) D1)|].
    apply (draws_app _ _ r2); [apply (draws_perm _ _ _ _ (flat_map_perm _ _ _ _ _ Q2) D2)|].
    apply (draws_after _ r3); [apply (shuffle_later _ _ _ _ _ ES1)|]. apply (draws_after _ r4); [apply (shuffle_later _ _ _ _ _ ES2)|exact D3].
  Qed.

  (** What building one action draws: alpha, rseed, and the key and plaintext used without an ovk. *)
  Definition late : Type := bytes * bytes * option (bytes * bytes).
  Definition late_draws (z : late) : list draw := Bytes (fst (fst z)) :: Bytes (snd (fst z)) :: out_draws (snd z).
  Definition late_for (a : action_info) (act : action signing_metadata) (w : witness) (z : late) : Prop :=
    let '(al, rs, ot) := z in
    length al = 64%nat /\ length rs = 32%nat /\ w_rcv w = ai_rcv a /\ w_alpha w = to_scalar al /\
    sp_alpha (sm_parts (a_auth act)) = to_scalar al /\
    w_psi_new w = rseed_psi rs (a_nf act) /\ w_rcm_new w = rseed_rcm rs (a_nf act) /\
    match o_ovk (ai_output a), ot with
    | Some _, None => True
    | None, Some (k, p) => length k = 32%nat /\ length p = 64%nat /\ ct_out (a_ct act) = aead_encrypt k p
    | _, _ => False
    end.

  Lemma ai_build_draws : forall fuel a r act w r', ai_build fuel a r = Ret (act, w, r') ->
    exists z, late_for a act w z /\ draws r (late_draws z) r'.
  Proof.
    intros fuel a r act w r' H. unfold ai_build in H.
    destruct (ai_value_sum a) as [vn|?|]; cbn [obind] in H; try discriminate H.
    destruct (derive_cv vn (ai_rcv a)) as [cv|?|]; cbn [obind] in H; try discriminate H.
    destruct (note_nullifier _ _) as [nf|?|]; cbn [obind] in H; try discriminate H.
    destruct (rng_scalar r) as [alpha r1] eqn:EA. destruct (scalar_draws _ _ _ EA) as (al & LA & -> & DA).
    destruct (note_new fuel _ _ _ r1) as [[n r2]|z|] eqn:E; cbn [obind] in H; try discriminate H.
    destruct (note_new_draws _ _ _ _ _ _ _ E) as (DN & LN & RN).
    destruct (commitment n) as [cm|?|]; cbn [obind] in H; try discriminate H.
    destruct (encryptor_new (o_ovk (ai_output a)) n (o_memo (ai_output a))) as [en|z|] eqn:EN; cbn [obind] in H; try discriminate H.
    assert (OV : e_ovk en = o_ovk (ai_output a)).
    { unfold encryptor_new in EN. destruct (note_esk n) as [e|?|]; cbn [obind] in EN; try discriminate EN. injection EN as <-. reflexivity. }
    destruct (encrypt_outgoing_plaintext en _ _ r2) as [out r3] eqn:EO. apply outgoing_draws in EO. rewrite OV in EO.
    destruct (opt_omap ask_from_sk (s_dummy_sk (ai_spend a))) as [da|z|]; cbn [obind] in H; try discriminate H.
    unfold from_action_context_unchecked in H.
    destruct (commitment (s_note (ai_spend a))) as [co|z|]; cbn [obind] in H; try discriminate H.
    destruct (fvk_rivk_scope (s_fvk (ai_spend a)) (s_scope (ai_spend a))) as [rivk|z|]; cbn [obind] in H; try discriminate H.
    injection H as <- <- <-. change (rho_from_nf_old nf) with nf in RN.
    destruct (o_ovk (ai_output a)) as [ov|] eqn:EV.
    - subst r3. exists (al, n_rseed n, None). split.
      + unfold late_for. cbn [w_rcv w_alpha a_auth sm_parts sp_alpha w_psi_new w_rcm_new a_nf a_ct ct_out]. rewrite EV, RN. repeat split; assumption.
      + unfold late_draws. cbn [fst snd out_draws]. apply (draws_app _ [Bytes al] r1 [Bytes (n_rseed n)]); assumption.
    - destruct EO as (k & p & LK & LP & -> & DO). exists (al, n_rseed n, Some (k, p)). split.
      + unfold late_for. cbn [w_rcv w_alpha a_auth sm_parts sp_alpha w_psi_new w_rcm_new a_nf a_ct ct_out]. rewrite EV, RN. repeat split; assumption.
      + unfold late_draws. cbn [fst snd out_draws]. apply (draws_app _ [Bytes al] r1 (Bytes (n_rseed n) :: [Bytes k; Bytes p])); [assumption|].
        apply (draws_app _ [Bytes (n_rseed n)] r2 [Bytes k; Bytes p]); assumption.
  Qed.

  Lemma build_actions_draws : forall fuel pre r acts ws r', build_actions fuel pre r = Ret (acts, ws, r') ->
    exists zs, length zs = length pre /\ draws r (flat_map late_draws zs) r' /\
    forall k a, nth_error pre k = Some a -> exists act w z,
      nth_error acts k = Some act /\ nth_error ws k = Some w /\ nth_error zs k = Some z /\ late_for a act w z.
  Proof.
    intro fuel. induction pre as [|a pre IH]; intros r acts ws r' E; cbn [build_actions] in E.
    - injection E as <- <- <-. exists []. split; [reflexivity|]. split; [apply draws_nil|]. intros [|k] a X; discriminate X.
    - destruct (ai_build fuel a r) as [[[act w] r1]|z|] eqn:E1; cbn [obind] in E; try discriminate E.
      destruct (build_actions fuel pre r1) as [[[acts1 ws1] r2]|z|] eqn:E2; cbn [obind] in E; try discriminate E.
      injection E as <- <- <-. destruct (ai_build_draws _ _ _ _ _ _ E1) as (z & LZ & DZ). destruct (IH _ _ _ _ E2) as (zs & L1 & D1 & N1).
      exists (z :: zs). split; [cbn [length]; congruence|]. split; [cbn [flat_map]; apply (draws_app _ _ r1); assumption|].
      intros [|k] b X; cbn [nth_error] in *.
      + assert (b = a) by congruence. subst b. exists act, w, z. repeat split; assumption || reflexivity.
      + apply N1. exact X.
  Qed.

  (** Putting the pieces of one action together. *)
  Fixpoint assemble (xs : list (option (bytes * point * bytes))) (ys : list (option bytes)) (rcvs : list bytes) (zs : list late) : list action_draws :=
    match xs, ys, rcvs, zs with
    | x :: xs', y :: ys', b :: rcvs', (al, rs, ot) :: zs' => mk_draws x y b al rs ot :: assemble xs' ys' rcvs' zs'
    | _, _, _, _ => []
    end.
  Lemma assemble_draws : forall xs ys rcvs zs, length ys = length xs -> length rcvs = length xs -> length zs = length xs ->
    Permutation (flat_map spend_draws xs ++ flat_map output_draws ys ++ flat_map (fun b => [Bytes b]) rcvs ++ flat_map late_draws zs)
      (flat_map draws_of (assemble xs ys rcvs zs)).
  Proof.
    induction xs as [|x xs IH]; intros [|y ys] [|b rcvs] [|[[al rs] ot] zs] L1 L2 L3; try discriminate L1; try discriminate L2; try discriminate L3.
    - constructor.
    - cbn [assemble flat_map]. rewrite <- (IH ys rcvs zs); [|cbn in *; congruence|cbn in *; congruence|cbn in *; congruence].
      unfold draws_of at 1. cbn [dr_spend dr_output dr_rcv dr_alpha dr_rseed dr_out].
      symmetry. apply perm_four.
  Qed.
  Lemma assemble_nth : forall xs ys rcvs zs k x y b al rs ot, nth_error xs k = Some x -> nth_error ys k = Some y -> nth_error rcvs k = Some b ->
    nth_error zs k = Some (al, rs, ot) -> nth_error (assemble xs ys rcvs zs) k = Some (mk_draws x y b al rs ot).
  Proof.
    induction xs as [|x0 xs IH]; intros [|y0 ys] [|b0 rcvs] [|[[al0 rs0] ot0] zs] [|k] x y b al rs ot H1 H2 H3 H4; try discriminate; cbn [nth_error assemble] in *.
    - congruence.
    - apply IH; assumption.
  Qed.
  Lemma forall2_nth : forall A B (R : A -> B -> Prop) l m k a, Forall2 R l m -> nth_error l k = Some a -> exists b, nth_error m k = Some b /\ R a b.
  Proof.
    intros A B R l m k a F. revert k. induction F as [|x y l m H F IH]; intros [|k] E; cbn [nth_error] in *; try discriminate E.
    - exists y. split; [reflexivity|congruence].
    - apply IH. exact E.
  Qed.

  Lemma assemble_length : forall xs ys rcvs zs, length ys = length xs -> length rcvs = length xs -> length zs = length xs ->
    length (assemble xs ys rcvs zs) = length xs.
  Proof.
    induction xs as [|x xs IH]; intros [|y ys] [|b rcvs] [|[[al rs] ot] zs] L1 L2 L3; try discriminate L1; try discriminate L2; try discriminate L3.
    - reflexivity.
    - cbn [assemble length]. rewrite IH; cbn [length] in *; congruence.
  Qed.

  Section V.
    Variable L : CurveLaws C.
    Context {V : Type}.
    Variable try_from : Z -> option V.
    #[local] Opaque build_actions.

    Lemma finish_draws : forall fuel pre meta f anchor r (bd : @unauthorized_bundle C V) m r',
      finish try_from fuel pre meta f anchor r = Ret (Ok (Some (bd, m)), r') ->
      build_actions fuel pre r = Ret (b_actions bd, up_circuits (ip_proof (b_auth bd)), r').
    Proof.
      intros fuel pre meta f anchor r bd m r' H. unfold finish in H.
      destruct (osum _ _) as [[vb|]|w|]; cbn [obind] in H; try discriminate H.
      destruct (i64_try_from vb) as [i|e]; [|discriminate H]. destruct (try_from i) as [v|]; [|discriminate H].
      destruct (into_bsk _) as [bsk|w|]; cbn [obind] in H; try discriminate H.
      destruct (build_actions fuel pre r) as [[[acts ws] r1]|w|]; cbn [obind] in H; try discriminate H.
      destruct (derive_cv vb 0) as [z|w|]; cbn [obind] in H; try discriminate H.
      destruct (into_bvk _) as [bvk|w|]; cbn [obind] in H; try discriminate H.
      destruct (assert_ _ _) as [u|w|]; cbn [obind] in H; try discriminate H.
      destruct acts as [|a acts]; [discriminate H|]. injection H as <- _ <-. reflexivity.
    Qed.

    Theorem build_draws : forall t anchor b fuel r bd meta r', gd_fallback_ok -> reachable t anchor b ->
      build try_from fuel b r = Ret (Ok (Some (bd, meta)), r') ->
      exists plan ds, built b plan bd meta /\ length ds = length plan /\ draws r (flat_map draws_of ds) r' /\
        forall k s o, nth_error plan k = Some (s, o) -> exists a w d,
          nth_error (b_actions bd) k = Some a /\ nth_error (up_circuits (ip_proof (b_auth bd))) k = Some w /\ nth_error ds k = Some d /\
          spend_from (bl_spends b) s (dr_spend d) /\ output_from (bl_outputs b) o (dr_output d) /\ drawn_for o a w d.
    Proof.
      intros t anchor b fuel r bd meta r' GD RB H. destruct (reachable_legal L _ _ _ RB) as (LB & _).
      unfold build, build_bundle in H.
      destruct (legal_num_actions try_from b LB) as (n & NA & N1 & N2 & G1 & G2). rewrite NA, G1, G2 in H.
      rewrite (anchors_ret _ _ _ (proj1 LB)) in H. cbn [obind negb] in H.
      destruct (pre_actions fuel n (bl_spends b) (bl_outputs b) r) as [[[pre meta'] r1]|w|] eqn:E; cbn [obind] in H; try discriminate H.
      destruct (pre_actions_draws _ _ _ _ _ _ _ _ N1 N2 E) as (xs & ys & rcvs & F1 & F2 & F3 & D1).
      apply (pre_actions_spec _ _ _ _ _ _ _ _ N1 N2) in E.
      pose proof (finish_draws _ _ _ _ _ _ _ _ _ H) as BA. destruct (build_actions_draws _ _ _ _ _ _ BA) as (zs & LZ & D2 & NZ).
      apply (finish_spec L _ _ _ _ _ _ _ _ _ (planned_good L _ _ _ _ _ GD LB E)) in H.
      destruct H as (_ & v & _ & _ & -> & _ & _ & _ & B4 & B5 & B6 & _).
      pose proof (forall2_length _ _ _ _ _ F1) as L1. pose proof (forall2_length _ _ _ _ _ F2) as L2. pose proof (forall2_length _ _ _ _ _ F3) as L3.
      rewrite map_length in L1, L2.
      exists (map (fun a => (ai_spend a, ai_output a)) pre), (assemble xs ys rcvs zs).
      split; [apply (plan_built L b n pre meta' fuel bd GD E B4 B5 B6)|].
      split; [rewrite map_length, assemble_length; congruence|].
      split.
      - apply (draws_perm _ _ _ _ (assemble_draws xs ys rcvs zs ltac:(congruence) ltac:(congruence) ltac:(congruence))).
        rewrite !app_assoc. apply (draws_app _ _ r1); [rewrite <- !app_assoc; exact D1|exact D2].
      - intros k s o K. apply map_nth_some in K as (a & K1 & K2). injection K2 as <- <-.
        destruct (NZ k a K1) as (act & w & [[al rs] ot] & Z1 & Z2 & Z3 & Z4).
        destruct (forall2_nth _ _ _ _ _ k (ai_spend a) F1) as (x & X1 & X2); [rewrite nth_error_map, K1; reflexivity|].
        destruct (forall2_nth _ _ _ _ _ k (ai_output a) F2) as (y & Y1 & Y2); [rewrite nth_error_map, K1; reflexivity|].
        destruct (forall2_nth _ _ _ _ _ k a F3 K1) as (bb & W1 & W2 & W3).
        exists act, w, (mk_draws x y bb al rs ot). split; [exact Z1|]. split; [exact Z2|].
        split; [apply assemble_nth; assumption|]. split; [exact X2|]. split; [exact Y2|].
        unfold late_for in Z4. destruct Z4 as (A1 & A2 & A3 & A4 & A5 & A6 & A7 & A8).
        constructor; cbn [dr_rcv dr_alpha dr_rseed dr_out].
        + split; [exact W2|]. split; assumption.
        + rewrite A3. exact W3.
        + split; assumption.
        + split; assumption.
        + exact A8.
    Qed.
  End V.
End Random.

(** * Signing *)
Section Sign.
  Context {C : Curve} {OR : @Oracles C} {V : Type}.

  Lemma sign_is_reddsa : forall t sk msg r s r', sign t sk msg r = (s, r') ->
    exists b, length b = 80%nat /\ draws r [Bytes b] r' /\ s = reddsa t sk msg b.
  Proof.
    intros t sk msg r s r' H. destruct (sign_draws _ _ _ _ _ _ H) as (b & LB & D & E). exists b. split; [exact LB|]. split; [exact D|].
    unfold sign in H. rewrite E in H. symmetry. exact (f_equal fst H).
  Qed.
  #[local] Opaque sign reddsa.

  Lemma map_ctx_draws : forall A B (f : rng -> A -> B * rng) (Q : A -> B -> option bytes -> Prop),
    (forall r a b r', f r a = (b, r') -> exists x, Q a b x /\ draws r (seed_draws x) r') ->
    forall l r l' r', map_ctx f r l = (l', r') ->
    exists xs, Forall3 (fun (a : action A) (a' : action B) x => action_effects a' = action_effects a /\ Q (a_auth a) (a_auth a') x) l l' xs /\ draws r (flat_map seed_draws xs) r'.
  Proof.
    intros A B f Q H. induction l as [|a l IH]; intros r l' r' E; cbn [map_ctx] in E.
    - injection E as <- <-. exists []. split; [constructor|apply draws_nil].
    - destruct (f r (a_auth a)) as [b r1] eqn:E1. destruct (map_ctx f r1 l) as [bs r2] eqn:E2. injection E as <- <-.
      destruct (H _ _ _ _ E1) as (x & Q1 & D1). destruct (IH _ _ _ E2) as (xs & F & D). exists (x :: xs).
      split; [constructor; [split; [reflexivity|exact Q1]|exact F]|]. cbn [flat_map]. apply (draws_app _ _ r1); assumption.
  Qed.
  Lemma forall3_mono : forall A B D (P Q : A -> B -> D -> Prop) l m n, (forall a b c, P a b c -> Q a b c) -> Forall3 P l m n -> Forall3 Q l m n.
  Proof. intros A B D P Q l m n H F. induction F; constructor; auto. Qed.

  Lemma prepare_draws : forall P (b : bundle (in_progress P unauthorized) signing_metadata V) r sighash b' r',
    prepare b r sighash = (b', r') ->
    exists xs rnd, draws r (flat_map seed_draws xs ++ [Bytes rnd]) r' /\ length rnd = 80%nat /\
      Forall3 (prepared_from sighash) (b_actions b) (b_actions b') xs /\
      pa_binding_sig (ip_sigs (b_auth b')) = reddsa Binding (ua_bsk (ip_sigs (b_auth b))) sighash rnd /\
      pa_sighash (ip_sigs (b_auth b')) = sighash.
  Proof.
    intros P b r sighash b' r' H. unfold prepare, map_authorization in H.
    destruct (map_ctx _ r (b_actions b)) as [acts r1] eqn:E.
    destruct (sign Binding _ sighash r1) as [sg r2] eqn:ES. injection H as <- <-.
    destruct (sign_is_reddsa _ _ _ _ _ _ ES) as (rnd & LR & DR & ->).
    apply (map_ctx_draws _ _ _ (fun m m' x => match sm_dummy_ask m, x with
      | None, None => m' = Unsigned (sm_parts m)
      | Some ask, Some rnd => length rnd = 80%nat /\ m' = Signed (reddsa SpendAuth ((ask + sp_alpha (sm_parts m)) mod qmod) sighash rnd)
      | _, _ => False end)) in E.
    - destruct E as (xs & F & D). exists xs, rnd. split; [apply (draws_app _ _ r1); assumption|]. split; [exact LR|].
      split; [|split; reflexivity]. cbn [b_actions]. refine (forall3_mono _ _ _ _ _ _ _ _ _ F). intros a a' x (_ & K). exact K.
    - intros q m m' q' EM. destruct (sm_dummy_ask m) as [ask|].
      + destruct (sign SpendAuth _ sighash q) as [s q1] eqn:E1. injection EM as <- <-. destruct (sign_is_reddsa _ _ _ _ _ _ E1) as (b0 & L0 & D0 & ->).
        exists (Some b0). split; [split; [exact L0|reflexivity]|exact D0].
      + injection EM as <- <-. exists None. split; [reflexivity|apply draws_nil].
  Qed.

  Lemma bundle_sign_draws : forall P (b : @partial_bundle C V P) r ask b' r', bundle_sign b r ask = (b', r') ->
    exists xs, draws r (flat_map seed_draws xs) r' /\ b_auth b' = b_auth b /\
      Forall3 (signed_from (pa_sighash (ip_sigs (b_auth b))) [ask]) (b_actions b) (b_actions b') xs.
  Proof.
    intros P b r ask b' r' H. unfold bundle_sign, map_authorization in H.
    destruct (map_ctx _ r (b_actions b)) as [acts r1] eqn:E. injection H as <- <-.
    apply (map_ctx_draws _ _ _ (fun m m' x => match x with
      | None => m' = m
      | Some rnd => length rnd = 80%nat /\ exists p ask', m = Unsigned p /\ In ask' [ask] /\ key_for ask' p /\
          m' = Signed (reddsa SpendAuth ((ask' + sp_alpha p) mod qmod) (pa_sighash (ip_sigs (b_auth b))) rnd)
      end)) in E.
    - destruct E as (xs & F & D). exists xs. split; [exact D|]. split; [reflexivity|]. cbn [b_actions].
      refine (forall3_mono _ _ _ _ _ _ _ _ _ F). intros a a' x (_ & K). exact K.
    - intros q m m' q' EM. destruct m as [p|s].
      + destruct (ak_eqb (sp_ak p) (ak_of_ask ask)) eqn:EK.
        * destruct (sign SpendAuth _ _ q) as [s q1] eqn:E1. injection EM as <- <-. destruct (sign_is_reddsa _ _ _ _ _ _ E1) as (b0 & L0 & D0 & ->).
          exists (Some b0). split; [|exact D0]. split; [exact L0|]. exists p, ask. split; [reflexivity|]. split; [left; reflexivity|].
          split; [|reflexivity]. symmetry. exact (proj1 (bytes_eqb_eq _ _) EK).
        * injection EM as <- <-. exists None. split; [reflexivity|apply draws_nil].
      + injection EM as <- <-. exists None. split; [reflexivity|apply draws_nil].
  Qed.

  (** Two steps after another: an action is signed at most once. *)
  Definition first_some {A} (x y : option A) : option A := match x with Some _ => x | None => y end.
  Lemma signed_from_compose : forall sighash k ks l l1 l2 xs ys,
    Forall3 (signed_from sighash [k]) l l1 xs -> Forall3 (signed_from sighash ks) l1 l2 ys ->
    exists zs, Forall3 (signed_from sighash (k :: ks)) l l2 zs /\
      Permutation (flat_map seed_draws xs ++ flat_map seed_draws ys) (flat_map seed_draws zs).
  Proof.
    intros sighash k ks l l1 l2 xs ys F. revert l2 ys. induction F as [|a a1 x l l1 xs H F IH]; intros l2 ys F'; inversion F' as [|b a2 y m l2' ys' H' F'']; subst.
    - exists []. split; [constructor|reflexivity].
    - destruct (IH _ _ F'') as (zs & F3 & P). exists (first_some x y :: zs).
      unfold signed_from in H, H'. destruct x as [x|].
      + destruct H as (LX & p & ask & E1 & E2 & EK & E3). destruct y as [y|].
        * destruct H' as (_ & p' & ? & X & _). congruence.
        * split.
          -- constructor; [|exact F3]. split; [exact LX|]. exists p, ask. split; [exact E1|].
             split; [destruct E2 as [E2|[]]; left; exact E2|split; [exact EK|congruence]].
          -- cbn [flat_map first_some seed_draws app]. apply perm_skip. exact P.
      + destruct y as [y|].
        * destruct H' as (LY & p & ask & E1 & E2 & EK & E3). split.
          -- constructor; [|exact F3]. split; [exact LY|]. exists p, ask. split; [congruence|]. split; [right; exact E2|split; [exact EK|exact E3]].
          -- cbn [flat_map first_some seed_draws app]. symmetry. apply Permutation_cons_app. symmetry. exact P.
        * split; [constructor; [cbn [first_some signed_from]; congruence|exact F3]|]. cbn [flat_map first_some seed_draws app]. exact P.
  Qed.
  Lemma forall3_none : forall sighash l, Forall3 (signed_from sighash []) l l (repeat None (length l)).
  Proof. intros sighash l. induction l; cbn [length repeat]; constructor; [reflexivity|assumption]. Qed.

  Lemma sign_all_draws : forall P asks (b : @partial_bundle C V P) r b' r', sign_all b r asks = (b', r') ->
    exists xs, draws r (flat_map seed_draws xs) r' /\ b_auth b' = b_auth b /\
      Forall3 (signed_from (pa_sighash (ip_sigs (b_auth b))) asks) (b_actions b) (b_actions b') xs.
  Proof.
    intro P. induction asks as [|k asks IH]; intros b r b' r' H; cbn [sign_all] in H.
    - injection H as <- <-. exists (repeat None (length (b_actions b))). split; [|split; [reflexivity|apply forall3_none]].
      assert (Z : forall n, flat_map seed_draws (repeat None n) = []) by (induction n as [|n IHn]; [reflexivity|exact IHn]).
      rewrite Z. apply draws_nil.
    - destruct (bundle_sign b r k) as [b1 r1] eqn:E. destruct (bundle_sign_draws _ _ _ _ _ _ E) as (xs & D & A & F).
      destruct (IH _ _ _ _ H) as (ys & D' & A' & F'). rewrite A in F'. destruct (signed_from_compose _ _ _ _ _ _ _ _ F F') as (zs & F3 & PM).
      exists zs. split; [|split; [congruence|exact F3]]. apply (draws_perm _ _ _ _ PM). apply (draws_app _ _ r1); assumption.
  Qed.

  Lemma prepared_signed : forall sighash asks l l1 l2 l3 xs ys,
    Forall3 (prepared_from sighash) l l1 xs -> Forall3 (signed_from sighash asks) l1 l2 ys ->
    map (fun a : action signature => Signed (a_auth a)) l3 = map a_auth l2 ->
    exists rnds, Forall3 (fun a a' rnd => length rnd = 80%nat /\ exists ask, signer asks a ask /\
        a_auth a' = reddsa SpendAuth ((ask + sp_alpha (sm_parts (a_auth a))) mod qmod) sighash rnd) l l3 rnds /\
      Permutation (flat_map seed_draws xs ++ flat_map seed_draws ys) (map Bytes rnds).
  Proof.
    intros sighash asks l l1 l2 l3 xs ys F. revert l2 l3 ys. induction F as [|a a1 x l l1 xs H F IH]; intros l2 l3 ys F' M; inversion F' as [|b a2 y m l2' ys' H' F'']; subst.
    - destruct l3; [|discriminate M]. exists []. split; [constructor|reflexivity].
    - destruct l3 as [|a3 l3]; [discriminate M|]. cbn [map] in M. injection M as M1 M2. destruct (IH _ _ _ F'' M2) as (rnds & F3 & P).
      unfold prepared_from in H. unfold signed_from in H'.
      destruct (sm_dummy_ask (a_auth a)) as [ask|] eqn:ED.
      + destruct x as [x|]; [|contradiction]. destruct H as (LX & EX). destruct y as [y|].
        * destruct H' as (_ & p & ? & X & _). congruence.
        * exists (x :: rnds). split.
          -- constructor; [|exact F3]. split; [exact LX|]. exists ask. unfold signer. rewrite ED. split; [reflexivity|congruence].
          -- cbn [flat_map seed_draws app map]. apply perm_skip. exact P.
      + destruct x as [x|]; [contradiction|]. destruct y as [y|]; [|congruence].
        destruct H' as (LY & p & ask & E1 & E2 & EK & E3). exists (y :: rnds). split.
        * constructor; [|exact F3]. split; [exact LY|]. exists ask. unfold signer. rewrite ED.
          assert (EP : p = sm_parts (a_auth a)) by congruence. rewrite <- EP. split; [split; [exact E2|exact EK]|]. congruence.
        * cbn [flat_map seed_draws app map]. symmetry. apply Permutation_cons_app. symmetry. exact P.
  Qed.

  Theorem apply_signatures_draws : forall (b : bundle (in_progress bytes unauthorized) signing_metadata V) r sighash asks bd,
    apply_signatures b r sighash asks = Ret (Ok bd) ->
    exists rnds rnd r', draws r (map Bytes (rnd :: rnds)) r' /\ length rnd = 80%nat /\
      au_binding_sig (b_auth bd) = reddsa Binding (ua_bsk (ip_sigs (b_auth b))) sighash rnd /\
      Forall3 (fun a a' x => length x = 80%nat /\ exists ask, signer asks a ask /\
        a_auth a' = reddsa SpendAuth ((ask + sp_alpha (sm_parts (a_auth a))) mod qmod) sighash x) (b_actions b) (b_actions bd) rnds.
  Proof.
    intros b r sighash asks bd H. unfold apply_signatures in H.
    destruct (prepare b r sighash) as [b1 r1] eqn:E1. destruct (sign_all b1 r1 asks) as [b2 r2] eqn:E2.
    destruct (prepare_draws _ _ _ _ _ _ E1) as (xs & rnd & D1 & LR & F1 & SB & SH). destruct (sign_all_draws _ _ _ _ _ _ E2) as (ys & D2 & A2 & F2).
    rewrite SH in F2. destruct (finalize_ok _ _ H) as (_ & M & _ & AB). destruct (prepared_signed _ _ _ _ _ _ _ _ F1 F2 M) as (rnds & F3 & P).
    exists rnds, rnd, r2. split; [|split; [exact LR|split; [rewrite AB, A2; exact SB|exact F3]]].
    pose proof (draws_app _ _ _ _ _ D1 D2) as D. refine (draws_perm _ _ _ _ _ D). cbn [map]. rewrite <- P.
    rewrite <- app_assoc. cbn [app]. symmetry. apply Permutation_cons_app. reflexivity.
  Qed.
End Sign.
