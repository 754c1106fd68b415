(** Proofs for C89: the balance a wallet computes follows the payments. *)
From Coq Require Import String ZArith List Bool Lia Permutation.
From Coq Require Import Init.Byte.
From Verif Require Import Prelude Fields Curve Oracles Spec Sinsemilla SinsSpec RedPallas Value Keys KeysSpec Note NoteSpec Tree TreeSpec
  Action NoteEnc NoteEncSpec Bundle Batch Builder Signing BundleSpec BuilderSpec SigningSpec Halo2 Circuit CircuitSpec PipelineSpec LedgerSpec
  WalletSpec BackedSpec LifeSpec BalanceSpec PreludeFacts NumTheory CurveFacts CodecFacts NoteFacts KeysFacts NoteEncFacts TreeFacts BuilderFacts
  BuildFacts SigningFacts PipelineFacts LedgerFacts WalletFacts BackedFacts OwnerFacts.
Import ListNotations.
Open Scope Z_scope.

(** * Sums *)

Lemma zsum_app : forall l l', zsum (l ++ l') = zsum l + zsum l'.
Proof. induction l as [|x l IH]; intro l'; cbn [app zsum]; [lia|rewrite IH; lia]. Qed.
Lemma zsum_map_add : forall A (f g : A -> Z) l, zsum (map (fun x => f x + g x) l) = zsum (map f l) + zsum (map g l).
Proof. intros A f g. induction l as [|x l IH]; cbn [map zsum]; [reflexivity|rewrite IH; lia]. Qed.
Lemma zsum_map_zero : forall A (f : A -> Z) l, (forall x, In x l -> f x = 0) -> zsum (map f l) = 0.
Proof.
  intros A f. induction l as [|x l IH]; intro H; cbn [map zsum]; [reflexivity|].
  rewrite (H x (or_introl eq_refl)), IH; [reflexivity|]. intros y Hy. apply H. right. exact Hy.
Qed.
Lemma zsum_swap : forall A B (f : A -> B -> Z) l m,
  zsum (map (fun a => zsum (map (f a) m)) l) = zsum (map (fun b => zsum (map (fun a => f a b) l)) m).
Proof.
  intros A B f l m. induction l as [|a l IH]; cbn [map zsum].
  - symmetry. apply zsum_map_zero. intros b _. reflexivity.
  - rewrite IH, <- zsum_map_add. reflexivity.
Qed.
Lemma zsum_filter : forall A (p : A -> bool) (v : A -> Z) l,
  zsum (map v (filter p l)) = zsum (map (fun x => if p x then v x else 0) l).
Proof.
  intros A p v. induction l as [|x l IH]; cbn [filter map zsum]; [reflexivity|].
  destruct (p x); cbn [map zsum]; rewrite IH; lia.
Qed.
Lemma zsum_index : forall A B (f : A -> Z) (g : B -> Z) l m, length l = length m ->
  (forall k x y, nth_error l k = Some x -> nth_error m k = Some y -> f x = g y) -> zsum (map f l) = zsum (map g m).
Proof.
  intros A B f g. induction l as [|x l IH]; intros [|y m] HL H; try discriminate HL; [reflexivity|].
  cbn [map zsum]. rewrite (H 0%nat x y eq_refl eq_refl), (IH m); [reflexivity|cbn [length] in HL; lia|].
  intros k u v HU HV. exact (H (S k) u v HU HV).
Qed.
Lemma zsum_one : forall A (f : A -> Z) l p a v, nth_error l p = Some a -> f a = v ->
  (forall q b, nth_error l q = Some b -> q <> p -> f b = 0) -> zsum (map f l) = v.
Proof.
  intros A f. induction l as [|x l IH]; intros p a v HP HV H; [destruct p; discriminate HP|].
  cbn [map zsum]. destruct p as [|p].
  - cbn [nth_error] in HP. assert (x = a) by congruence. subst x. rewrite HV, zsum_map_zero; [lia|].
    intros y Hy. apply In_nth_error in Hy as [q Hq]. apply (H (S q) y Hq). discriminate.
  - rewrite (H 0%nat x eq_refl) by discriminate. rewrite (IH p a v HP HV); [reflexivity|].
    intros q b Hq NE. apply (H (S q) b Hq). congruence.
Qed.
Lemma zsum_eqb : forall nf v l, NoDup l -> zsum (map (fun x => if nf =? x then v else 0) l) = if existsb (Z.eqb nf) l then v else 0.
Proof.
  intros nf v l ND. induction ND as [|x l NI ND IH]; cbn [map zsum existsb]; [reflexivity|].
  rewrite IH. destruct (Z.eqb_spec nf x) as [->|NE]; cbn [orb]; [|lia].
  destruct (existsb (Z.eqb x) l) eqn:E; [|lia]. apply existsb_exists in E as (y & Hy & EY). apply Z.eqb_eq in EY. subst y. contradiction.
Qed.

Lemma nodup_l : forall A (l m : list A), NoDup (l ++ m) -> NoDup l.
Proof.
  intros A. induction l as [|x l IH]; intros m H; [constructor|]. cbn [app] in H. inversion H as [|? ? NI H']; subst.
  constructor; [|exact (IH m H')]. intro X. apply NI. apply in_app_iff. left. exact X.
Qed.
Lemma nodup_r : forall A (l m : list A), NoDup (l ++ m) -> NoDup m.
Proof. intros A. induction l as [|x l IH]; intros m H; [exact H|]. cbn [app] in H. inversion H; subst. apply IH. assumption. Qed.
Lemma nodup_apart : forall A (l m : list A) x, NoDup (l ++ m) -> In x l -> In x m -> False.
Proof.
  intros A. induction l as [|y l IH]; intros m x H H1 H2; [exact H1|]. cbn [app] in H. inversion H as [|? ? NI H']; subst.
  destruct H1 as [->|H1]; [|exact (IH m x H' H1 H2)]. apply NI. apply in_app_iff. right. exact H2.
Qed.

Lemma or_all : forall A (l : list A) (P : A -> Prop) (Q : Prop), (forall x, In x l -> P x \/ Q) -> (forall x, In x l -> P x) \/ Q.
Proof.
  intros A l P Q H. destruct (forall_or A l P (fun _ => Q) H) as [K|(_ & _ & K)]; [left; exact K|right; exact K].
Qed.

#[local] Opaque sins_commit prf_expand to_scalar to_base le_bits bytes_bits msg_words sins_Q commit_R lin.
#[local] Opaque node tree_root auth_path root_loop root_inputs commitment build try_note_decryption diversify_hash note_nullifier.

Section Balance.
  Context {C : Curve} {OR : @Oracles C} {V : Type}.
  Variable L : CurveLaws C.
  Notation tx := (@tx C V).

  Lemma opens_sound : forall A f (a : action A) n, gd_fallback_ok -> fvk_ok f -> action_ok a -> opens f a = Some n ->
    note_ok n /\ n_rho n = a_nf a /\ (exists cm, commitment n = Ret cm /\ pt_x cm = a_cmx a) /\
    exists s k, fvk_to_ivk f s = Ret k /\ owned_by k (n_recipient n).
  Proof.
    intros A f a n GD KF KA H. unfold opens in H.
    destruct (fvk_ok_to_ivk L f External KF) as (e & HE & KE). destruct (fvk_ok_to_ivk L f Internal KF) as (i & HI & KI).
    rewrite HE, HI in H.
    assert (G : forall s k to memo, fvk_to_ivk f s = Ret k -> ivk_ok k -> try_note_decryption k a = Ret (Some (n, to, memo)) ->
      note_ok n /\ n_rho n = a_nf a /\ (exists cm, commitment n = Ret cm /\ pt_x cm = a_cmx a) /\
      exists s k, fvk_to_ivk f s = Ret k /\ owned_by k (n_recipient n)).
    { intros s k to memo HK KK TD. destruct (full_sound L _ k a GD KK (ao_ct _ KA) (ao_nf _ KA) (ao_cmx _ KA)) as (r & TR & F).
      assert (ER : r = Some (n, to, memo)) by congruence. destruct (F _ _ _ ER) as (KN & (M1 & M2 & _) & -> & OW & _).
      split; [exact KN|]. split; [exact M1|]. split; [exact M2|]. exists s, k. split; assumption. }
    destruct (try_note_decryption e a) as [[[[n' to] memo]|]|w|] eqn:TE.
    - assert (n' = n) by congruence. subst n'. exact (G External e to memo HE KE TE).
    - destruct (try_note_decryption i a) as [[[[n' to] memo]|]|w|] eqn:TI; try discriminate H.
      assert (n' = n) by congruence. subst n'. exact (G Internal i to memo HI KI TI).
    - destruct (try_note_decryption i a) as [[[[n' to] memo]|]|w'|] eqn:TI; try discriminate H.
      assert (n' = n) by congruence. subst n'. exact (G Internal i to memo HI KI TI).
    - destruct (try_note_decryption i a) as [[[[n' to] memo]|]|w'|] eqn:TI; try discriminate H.
      assert (n' = n) by congruence. subst n'. exact (G Internal i to memo HI KI TI).
  Qed.

  Lemma derives_owned : forall f s k ad, fvk_to_ivk f s = Ret k -> derives f s ad -> owned_by k ad.
  Proof.
    intros f s k ad HK (j & LJ & E). unfold fvk_address_at in E. rewrite HK in E. cbn [obind] in E. injection E as <-. reflexivity.
  Qed.

  Lemma opens_complete : forall A f (a : action A) ovk n memo r, gd_fallback_ok -> fvk_ok f -> note_ok n -> length memo = 512%nat ->
    encrypts ovk n memo r a -> addressed f (n_recipient n) -> exists n', opens f a = Some n'.
  Proof.
    intros A f a ovk n memo r GD KF KN ML EN (s & D).
    destruct (encrypts_roundtrip L _ _ _ _ _ _ GD KN ML EN) as (_ & TD & _).
    unfold opens.
    destruct (fvk_ok_to_ivk L f External KF) as (e & HE & KE). destruct (fvk_ok_to_ivk L f Internal KF) as (i & HI & KI).
    rewrite HE, HI. destruct s.
    - destruct (TD e KE (derives_owned f External e _ HE D)) as [-> _]. eexists. reflexivity.
    - destruct (TD i KI (derives_owned f Internal i _ HI D)) as [-> _].
      destruct (try_note_decryption e a) as [[[[n' to] m]|]|w|]; eexists; reflexivity.
  Qed.

  Lemma opens_effects : forall A B f (a : action A) (b : action B), action_effects a = action_effects b -> opens f a = opens f b.
  Proof.
    intros A B f a b H. change (opens f a) with (opens f (action_effects a)). change (opens f b) with (opens f (action_effects b)).
    rewrite H. reflexivity.
  Qed.

  (** An address with the base and key of an owned one is owned. *)
  Lemma same_place : forall f n n', note_ok n' -> (exists s k, fvk_to_ivk f s = Ret k /\ owned_by k (n_recipient n)) ->
    diversify_hash (ad_d (n_recipient n)) = diversify_hash (ad_d (n_recipient n')) -> ad_pk_d (n_recipient n) = ad_pk_d (n_recipient n') ->
    addressed f (n_recipient n').
  Proof.
    intros f n n' KN (s & k & HK & OW) E1 E2. exists s. apply (owned_derives L f s n' k KN HK).
    unfold owned_by in *. rewrite <- E1, <- E2. exact OW.
  Qed.

  (** What the wallet reads in an action is what the builder wrote there. *)
  Lemma reads_created : forall f s o n0 alpha rcv (a : action signing_metadata) w n,
    gd_fallback_ok -> fvk_ok f -> action_ok a -> action_of s o n0 alpha rcv a w -> opens f a = Some n ->
    (n_value n = o_value o /\ diversify_hash (ad_d (n_recipient n)) = diversify_hash (ad_d (n_recipient n0)) /\
     ad_pk_d (n_recipient n) = ad_pk_d (n_recipient n0)) \/
    two_openings (sins_Q "z.cash:Orchard-NoteCommit-M") (commit_R "z.cash:Orchard-NoteCommit") (own_opening n)
      (note_opening (mk_plain (w_g_d_new w) (w_pk_d_new w) (w_v_new w) (a_nf a) (w_psi_new w)) (w_rcm_new w)).
  Proof.
    intros f s o n0 alpha rcv a w n GD KF KA AO OP.
    destruct (opens_sound _ f a n GD KF KA OP) as (KN & _ & (cm & HC & EX) & _).
    destruct (ac_encrypts _ _ _ _ _ _ _ AO) as (r & e & cm0 & _ & HC0 & _ & EC & _).
    assert (EW : note_opening (mk_plain (w_g_d_new w) (w_pk_d_new w) (w_v_new w) (a_nf a) (w_psi_new w)) (w_rcm_new w) = own_opening n0).
    { destruct (ac_witness _ _ _ _ _ _ _ AO) as (c & rv & _ & _ & ->). cbn [w_g_d_new w_pk_d_new w_v_new w_psi_new w_rcm_new].
      unfold own_opening. rewrite (ac_rho _ _ _ _ _ _ _ AO). reflexivity. }
    rewrite EW. pose proof (ac_note _ _ _ _ _ _ _ AO) as KN0.
    destruct (openings_agree L (own_opening n) (own_opening n0) cm cm0) as [E|E].
    - cbn [own_opening note_opening fst]. rewrite !note_msg_length. reflexivity.
    - cbn [own_opening note_opening fst]. rewrite note_msg_length. lia.
    - apply rcm_range.
    - apply rcm_range.
    - apply note_opening_commits. exact HC.
    - apply note_opening_commits. exact HC0.
    - rewrite EX, EC. reflexivity.
    - left. apply (f_equal fst) in E. cbn [own_opening note_opening fst pn_g_d pn_pk_d pn_value pn_rho pn_psi] in E.
      apply (note_msg_inj L) in E; [|apply (no_value _ KN)|apply (no_value _ KN0)|apply (no_rho _ KN)|apply (no_rho _ KN0)|apply psi_range|apply psi_range].
      destruct E as (E1 & E2 & E3 & _). split; [rewrite E3; apply (ac_value _ _ _ _ _ _ _ AO)|]. split; assumption.
    - right. exact E.
  Qed.

  Lemma spent_secret_of : forall s n alpha rcv w, witness_of s n alpha rcv w -> spent_secret w = own_secret (s_fvk s) (s_note s).
  Proof. intros s n alpha rcv w (cm & rivk & _ & _ & ->). reflexivity. Qed.

  (** The value that appears in [nfs] when the nullifier [x] does. *)
  Definition hit {A} (f : fvk) (a : action A) (x : Z) : Z :=
    match opens f a with
    | Some n => match note_nullifier n f with
                | Ret nf => if nf =? x then n_value n else 0
                | _ => 0
                end
    | None => 0
    end.
  Lemma worth_drop : forall A f (a : action A) N M, NoDup (N ++ M) -> worth f N a = worth f (N ++ M) a + zsum (map (hit f a) M).
  Proof.
    intros A f a N M ND. unfold worth, hit, spent_in. destruct (opens f a) as [n|]; [|rewrite zsum_map_zero; [reflexivity|reflexivity]].
    destruct (note_nullifier n f) as [nf|w|]; try (rewrite zsum_map_zero; [lia|reflexivity]).
    rewrite zsum_eqb by (apply (nodup_r _ _ _ ND)). rewrite existsb_app.
    destruct (existsb (Z.eqb nf) N) eqn:E1, (existsb (Z.eqb nf) M) eqn:E2; cbn [orb]; try lia. exfalso.
    apply existsb_exists in E1 as (x & X1 & X2). apply existsb_exists in E2 as (y & Y1 & Y2).
    apply Z.eqb_eq in X2. apply Z.eqb_eq in Y2. subst x y.
    exact (nodup_apart _ _ _ _ ND X1 Y1).
  Qed.
  Lemma hit_zero : forall A f (a : action A) x, (forall n, opens f a = Some n -> note_nullifier n f = Ret x -> n_value n = 0) -> hit f a x = 0.
  Proof.
    intros A f a x H. unfold hit. destruct (opens f a) as [n|]; [|reflexivity].
    destruct (note_nullifier n f) as [nf|w|] eqn:E; try reflexivity. destruct (Z.eqb_spec nf x) as [->|NE]; [|reflexivity].
    exact (H n eq_refl E).
  Qed.

  Variables (halo2_prove : list witness -> list (list Z) -> rng -> option bytes * rng) (halo2_verify : bytes -> list (list Z) -> bool)
    (try_from : Z -> option V) (into : V -> Z).

  Theorem balance_step : forall f mine h lg anchor b t meta ws,
    gd_fallback_ok -> fvk_ok f -> decides mine f ->
    reached halo2_verify into h lg -> made halo2_prove try_from anchor b t meta ws -> accepts halo2_verify into lg t ->
    spends_found f h b ->
    balance f (h ++ [t]) = balance f h + receipts mine b - payments mine b \/ surprise f h b t ws \/ born_spent f h t.
  Proof.
    intros f mine h lg anchor b t meta ws GD KF MI RE (ty & fuel & r & b0 & r' & b1 & RB & E & H & F & ->) AC SF.
    destruct (reachable_legal L _ _ _ RB) as ((LS & LO) & _).
    destruct (build_plan L _ _ _ _ _ _ _ _ _ GD RB E) as [plan B].
    destruct (history_final_effects halo2_prove b0 (snd t) b1 (fst t) into H F) as (EF & _).
    set (ws := up_circuits (ip_proof (b_auth b0))) in *.
    destruct (chain_lists halo2_verify into h lg RE) as (_ & EN & AO & _ & _).
    pose proof (R_apply halo2_verify into h lg t RE AC) as RE'.
    destruct (chain_lists halo2_verify into (h ++ [t]) _ RE') as (_ & _ & AO' & _ & _).
    assert (ND : NoDup (map a_nf (chain_actions h) ++ map a_nf (b_actions (fst t)))).
    { pose proof (ac_nfs _ _ _ _ AC) as X. rewrite EN in X. exact X. }
    set (A := chain_actions h) in *. set (T := b_actions (fst t)) in *. set (N := map a_nf A) in *. set (M := map a_nf T) in *.
    assert (TA : chain_actions (h ++ [t]) = A ++ T) by (rewrite chain_app, chain_one; reflexivity).
    rewrite TA in AO'. apply Forall_app in AO' as [_ AT].
    set (Q := surprise f h b t ws \/ born_spent f h t).
    (* the k-th action *)
    assert (LT : length T = length plan).
    { rewrite <- (bu_actions _ _ _ _ B). apply (f_equal (fun x => length (b_actions x))) in EF. cbn [effects b_actions] in EF.
      rewrite !map_length in EF. exact EF. }
    assert (EACH : forall k s o, nth_error plan k = Some (s, o) -> exists a a0 w n0 alpha rcv,
      nth_error T k = Some a /\ nth_error ws k = Some w /\ action_effects a0 = action_effects a /\ action_of s o n0 alpha rcv a0 w).
    { intros k s o HK. destruct (bu_each _ _ _ _ B k s o HK) as (a0 & w & n0 & alpha & rcv & B1 & B2 & B3).
      destruct (effects_nth _ _ _ _ b0 (fst t) k a0 (eq_sym EF) B1) as (a & A1 & A2).
      exists a, a0, w, n0, alpha, rcv. split; [exact A1|]. split; [exact B2|]. split; [symmetry; exact A2|exact B3]. }
    assert (SOK : forall s, In s (map fst plan) -> note_ok (s_note s) /\ (n_value (s_note s) = 0 \/ In s (bl_spends b))).
    { intros s HI. destruct (bu_spends _ _ _ _ B) as (ds & P & DS). apply (Permutation_in _ P) in HI. apply in_app_iff in HI as [HI|HI].
      - split; [apply (sl_note _ _ _ (proj1 (Forall_forall _ _) LS s HI))|right; exact HI].
      - split; [apply (ds_note _ (proj1 (Forall_forall _ _) DS s HI))|left; apply (ds_zero _ (proj1 (Forall_forall _ _) DS s HI))]. }
    assert (OOK : forall o, In o (map snd plan) -> length (o_memo o) = 512%nat).
    { intros o HI. destruct (bu_outputs _ _ _ _ B) as (os & P & DO). apply (Permutation_in _ P) in HI. apply in_app_iff in HI as [HI|HI].
      - apply (ol_memo _ _ (proj1 (Forall_forall _ _) LO o HI)).
      - rewrite (do_memo _ (proj1 (Forall_forall _ _) DO o HI)). cbn [length]. rewrite repeat_length. reflexivity. }
    assert (AOK : forall a, In a (A ++ T) -> action_ok a).
    { intros a HI. apply in_app_iff in HI as [HI|HI]; [exact (proj1 (Forall_forall _ _) AO a HI)|exact (proj1 (Forall_forall _ _) AT a HI)]. }
    (* a nullifier of the wallet in the transaction belongs to the spend of that note *)
    assert (NFS : (forall k s o a x n, nth_error plan k = Some (s, o) -> nth_error M k = Some x -> In a (A ++ T) -> opens f a = Some n ->
      note_nullifier n f = Ret x -> note_contents n = note_contents (s_note s)) \/ Q).
    { assert (X : (forall k, In k (seq 0 (length plan)) -> forall s o, nth_error plan k = Some (s, o) -> forall x, nth_error M k = Some x ->
        forall a, In a (A ++ T) -> forall n, opens f a = Some n -> note_nullifier n f = Ret x -> note_contents n = note_contents (s_note s)) \/ Q).
      { apply or_all. intros k _. destruct (nth_error plan k) as [[s o]|] eqn:EP; [|left; intros s o X; discriminate X].
        destruct (EACH k s o EP) as (a1 & a0 & w & n0 & alpha & rcv & T1 & T2 & T3 & T4).
        assert (X : (forall a, In a (A ++ T) -> forall n, opens f a = Some n -> note_nullifier n f = Ret (a_nf a1) ->
          note_contents n = note_contents (s_note s)) \/ Q).
        { apply or_all. intros a HA. destruct (opens f a) as [n|] eqn:EO; [|left; intros n X; discriminate X].
          destruct (note_nullifier n f) as [nf|y|] eqn:ENF; [|left; intros n' E1 E2; injection E1 as <-; congruence|left; intros n' E1 E2; injection E1 as <-; congruence].
          destruct (Z.eq_dec nf (a_nf a1)) as [->|NE]; [|left; intros n' E1 E2; injection E1 as <-; congruence].
          destruct (opens_sound _ f a n GD KF (AOK a HA) EO) as (KN & _).
          assert (HS : In s (map fst plan)) by (apply in_map_iff; exists (s, o); split; [reflexivity|apply (nth_error_In _ _ EP)]).
          assert (NS : note_nullifier (s_note s) (s_fvk s) = Ret (a_nf a1)).
          { rewrite (ac_nf _ _ _ _ _ _ _ T4). apply (f_equal a_nf) in T3. cbn [action_effects a_nf] in T3. congruence. }
          destruct (same_nullifier L f (s_fvk s) n (s_note s) (a_nf a1) KN (proj1 (SOK s HS)) ENF NS) as [(X & _)|X].
          - left. intros n' E1 _. injection E1 as <-. exact X.
          - right. left. apply (S_nullifier f h b t ws a n w); [rewrite TA; exact HA|exact EO|apply (nth_error_In _ _ T2)|].
            rewrite (spent_secret_of _ _ _ _ _ (ac_witness _ _ _ _ _ _ _ T4)). exact X. }
        destruct X as [X|X]; [left|right; exact X]. intros s' o' EP'. injection EP' as <- <-. intros x HX.
        unfold M in HX. rewrite nth_error_map, T1 in HX. cbn [option_map] in HX. injection HX as <-. exact X. }
      destruct X as [X|X]; [left|right; exact X]. intros k s o a x n EP HX HA HO HN.
      apply (X k) with (o := o) (x := x) (a := a); try assumption. apply in_seq.
      assert (k < length plan)%nat by (apply nth_error_Some; congruence). lia. }
    (* what is read is what was written *)
    assert (RDS : (forall k s o a n, nth_error plan k = Some (s, o) -> nth_error T k = Some a -> opens f a = Some n ->
      n_value n = o_value o /\ addressed f (o_recipient o)) \/ Q).
    { assert (X : (forall k, In k (seq 0 (length plan)) -> forall s o, nth_error plan k = Some (s, o) -> forall a, nth_error T k = Some a ->
        forall n, opens f a = Some n -> n_value n = o_value o /\ addressed f (o_recipient o)) \/ Q).
      { apply or_all. intros k _. destruct (nth_error plan k) as [[s o]|] eqn:EP; [|left; intros s o X; discriminate X].
        destruct (EACH k s o EP) as (a1 & a0 & w & n0 & alpha & rcv & T1 & T2 & T3 & T4).
        assert (KA : action_ok a0).
        { pose proof (AOK a1) as K. assert (I : In a1 (A ++ T)) by (apply in_app_iff; right; apply (nth_error_In _ _ T1)). specialize (K I).
          assert (KX : action_ok (action_effects a0)) by (rewrite T3; destruct K; constructor; assumption). destruct KX. constructor; assumption. }
        destruct (opens f a1) as [n|] eqn:EO.
        2:{ left. intros s' o' _ a' Ha' n' Hn'. assert (a' = a1) by congruence. subst a'. congruence. }
        assert (EO0 : opens f a0 = Some n) by (rewrite (opens_effects _ _ f a0 a1 T3); exact EO).
        destruct (reads_created f s o n0 alpha rcv a0 w n GD KF KA T4 EO0) as [(X1 & X2 & X3)|X].
        - left. intros s' o' EP' a' Ha' n' Hn'. injection EP' as <- <-. assert (a' = a1) by congruence. subst a'. assert (n' = n) by congruence. subst n'.
          split; [exact X1|]. rewrite <- (ac_recipient _ _ _ _ _ _ _ T4).
          destruct (opens_sound _ f a0 n GD KF KA EO0) as (_ & _ & _ & OW).
          exact (same_place f n n0 (ac_note _ _ _ _ _ _ _ T4) OW X2 X3).
        - right. left. apply (S_opening f h b t ws k a1 w n T1 T2 EO).
          assert (EX : a_nf a1 = a_nf a0) by (apply (f_equal a_nf) in T3; cbn [action_effects a_nf] in T3; congruence). rewrite EX. exact X. }
      destruct X as [X|X]; [left|right; exact X]. intros k s o a n EP HA HO.
      apply (X k) with (s := s) (a := a); try assumption. apply in_seq.
      assert (k < length plan)%nat by (apply nth_error_Some; congruence). lia. }
    (* the keys of a spend of the wallet's notes are the wallet's *)
    assert (KEY : (forall s, In s (bl_spends b) -> addressed f (n_recipient (s_note s)) -> fvk_nk (s_fvk s) = fvk_nk f) \/ Q).
    { assert (X : (forall s, In s (bl_spends b) -> mine (n_recipient (s_note s)) = true -> fvk_nk (s_fvk s) = fvk_nk f) \/ Q).
      { apply or_all. intros s HS. destruct (mine (n_recipient (s_note s))) eqn:EM; [|left; discriminate].
        apply MI in EM as (sc & D). pose proof (proj1 (Forall_forall _ _) LS s HS) as LG.
        assert (D' : derives (s_fvk s) (s_scope s) (n_recipient (s_note s))).
        { pose proof (sl_owner _ _ _ LG) as O. destruct (s_scope s); [exact O|exact (proj1 O)]. }
        destruct (one_owner L f sc (s_fvk s) (s_scope s) _ GD KF (sl_fvk _ _ _ LG) D D') as (r1 & r2 & R1 & R2 & [(_ & X & _)|X]).
        - left. intros _. symmetry. exact X.
        - right. left. exact (S_key f h b t ws s sc (s_scope s) r1 r2 HS R1 R2 X). }
      destruct X as [X|X]; [left|right; exact X]. intros s HS AD. apply X; [exact HS|]. apply MI. exact AD. }
    (* no note of the transaction is spent already *)
    assert (BORN : (forall a n nf, In a T -> opens f a = Some n -> n_value n <> 0 -> note_nullifier n f = Ret nf -> ~ In nf N) \/ Q).
    { assert (X : (forall a, In a T -> forall n, opens f a = Some n -> n_value n <> 0 -> forall nf, note_nullifier n f = Ret nf -> ~ In nf N) \/ Q).
      { apply or_all. intros a HA. destruct (opens f a) as [n|] eqn:EO; [|left; intros n X; discriminate X].
        destruct (Z.eq_dec (n_value n) 0) as [EZ|NZ]; [left; intros n' E1; injection E1 as <-; contradiction|].
        destruct (note_nullifier n f) as [nf|y|] eqn:ENF; [|left; intros n' E1 _ nf E2; injection E1 as <-; congruence|left; intros n' E1 _ nf E2; injection E1 as <-; congruence].
        destruct (in_dec Z.eq_dec nf N) as [I|NI]; [right; right; exists a, n, nf; split; [exact HA|]; split; [exact EO|]; split; [exact NZ|]; split; [exact ENF|exact I]|].
        left. intros n' E1 _ nf' E2. injection E1 as <-. assert (nf' = nf) by congruence. subst nf'. exact NI. }
      destruct X as [X|X]; [left|right; exact X]. intros a n nf HA HO NZ HN. exact (X a HA n HO NZ nf HN). }
    destruct NFS as [NFS|X]; [|right; exact X]. destruct RDS as [RDS|X]; [|right; exact X].
    destruct KEY as [KEY|X]; [|right; exact X]. destruct BORN as [BORN|X]; [|right; exact X]. left.
    assert (UNIQ : forall p q a a', nth_error A p = Some a -> nth_error A q = Some a' -> a_nf a = a_nf a' -> p = q).
    { intros p q a a' HP HQ EQ. pose proof (nodup_l _ _ _ ND) as NDN. apply (proj1 (NoDup_nth_error _) NDN).
      - unfold N. rewrite map_length. apply nth_error_Some. congruence.
      - unfold N. rewrite !nth_error_map, HP, HQ. cbn [option_map]. congruence. }
    (* the outputs *)
    assert (OUT : zsum (map (worth f (N ++ M)) T) = receipts mine b).
    { transitivity (zsum (map (fun o => if mine (o_recipient o) then o_value o else 0) (map snd plan))).
      - rewrite map_map. apply zsum_index; [exact LT|]. intros k a [s o] HA HP. cbn [snd].
        destruct (EACH k s o HP) as (a1 & a0 & w & n0 & alpha & rcv & T1 & T2 & T3 & T4). assert (a1 = a) by congruence. subst a1.
        assert (HO : In o (map snd plan)) by (apply in_map_iff; exists (s, o); split; [reflexivity|apply (nth_error_In _ _ HP)]).
        unfold worth. destruct (opens f a) as [n|] eqn:EO.
        + destruct (RDS k s o a n HP HA EO) as [V1 V2]. rewrite (proj2 (MI _) V2). rewrite <- V1.
          unfold spent_in. destruct (note_nullifier n f) as [nf|y|] eqn:ENF; [|reflexivity|reflexivity].
          destruct (existsb (Z.eqb nf) (N ++ M)) eqn:EX; [|reflexivity].
          destruct (Z.eq_dec (n_value n) 0) as [EZ|NZ]; [symmetry; exact EZ|]. exfalso.
          apply existsb_exists in EX as (x & X1 & X2). apply Z.eqb_eq in X2. subst x. apply in_app_iff in X1 as [X1|X1].
          * exact (BORN a n nf (nth_error_In _ _ HA) EO NZ ENF X1).
          * apply In_nth_error in X1 as [j X1].
            assert (HJ : (j < length plan)%nat).
            { rewrite <- LT, <- (map_length a_nf T). apply nth_error_Some. unfold M in X1. congruence. }
            destruct (nth_error plan j) as [[sj oj]|] eqn:EJ; [|apply nth_error_None in EJ; lia].
            assert (IA : In a (A ++ T)) by (apply in_app_iff; right; apply (nth_error_In _ _ HA)).
            pose proof (NFS j sj oj a nf n EJ X1 IA EO ENF) as CN.
            assert (HS : In sj (map fst plan)) by (apply in_map_iff; exists (sj, oj); split; [reflexivity|apply (nth_error_In _ _ EJ)]).
            destruct (SOK sj HS) as [KS [ZS|IS]]; [apply NZ; unfold note_contents in CN; congruence|].
            assert (AD : addressed f (n_recipient (s_note sj))).
            { destruct (opens_sound _ f a n GD KF (AOK a IA) EO) as (_ & _ & _ & OW). unfold note_contents in CN.
              apply (same_place f n (s_note sj) KS OW); congruence. }
            destruct (SF sj IS AD) as (a' & IA' & OA'); [unfold note_contents in CN; congruence|].
            destruct (opens_sound _ f a' (s_note sj) GD KF (AOK a' ltac:(apply in_app_iff; left; exact IA')) OA') as (_ & R1 & _).
            destruct (opens_sound _ f a n GD KF (AOK a IA) EO) as (_ & R2 & _).
            assert (EQ : a_nf a' = a_nf a) by (unfold note_contents in CN; congruence).
            assert (I1 : In (a_nf a) N) by (rewrite <- EQ; apply in_map; exact IA').
            assert (I2 : In (a_nf a) M) by (apply in_map; apply (nth_error_In _ _ HA)).
            exact (nodup_apart _ _ _ _ ND I1 I2).
        + destruct (mine (o_recipient o)) eqn:EM; [|reflexivity]. exfalso. apply MI in EM.
          destruct (ac_encrypts _ _ _ _ _ _ _ T4) as (rr & EC). rewrite <- (ac_recipient _ _ _ _ _ _ _ T4) in EM.
          destruct (opens_complete _ f a0 _ n0 _ rr GD KF (ac_note _ _ _ _ _ _ _ T4) (OOK o HO) EC EM) as (n' & X).
          rewrite (opens_effects _ _ f a0 a T3) in X. congruence.
      - destruct (bu_outputs _ _ _ _ B) as (os & P & DO). unfold receipts. rewrite zsum_filter.
        rewrite (zsum_perm _ _ (Permutation_map _ P)), map_app, zsum_app.
        rewrite (zsum_map_zero _ _ os); [lia|]. intros o HI. rewrite (do_zero _ (proj1 (Forall_forall _ _) DO o HI)). destruct (mine _); reflexivity. }
    (* the spends *)
    assert (SPE : zsum (map (worth f N) A) = zsum (map (worth f (N ++ M)) A) + payments mine b).
    { rewrite (map_ext _ _ (fun a => worth_drop _ f a N M ND)), zsum_map_add. f_equal. rewrite zsum_swap.
      transitivity (zsum (map (fun s => if mine (n_recipient (s_note s)) then n_value (s_note s) else 0) (map fst plan))).
      - rewrite map_map. apply zsum_index; [unfold M; rewrite map_length; exact LT|]. intros k x [s o] HX HP. cbn [fst].
        assert (HS : In s (map fst plan)) by (apply in_map_iff; exists (s, o); split; [reflexivity|apply (nth_error_In _ _ HP)]).
        destruct (SOK s HS) as [KS ZS].
        assert (ANY : forall a n, In a A -> opens f a = Some n -> note_nullifier n f = Ret x ->
          n_value n = n_value (s_note s) /\ addressed f (n_recipient (s_note s)) /\ n_rho n = n_rho (s_note s)).
        { intros a n HA HO HN. assert (IA : In a (A ++ T)) by (apply in_app_iff; left; exact HA).
          pose proof (NFS k s o a x n HP HX IA HO HN) as CN. destruct (opens_sound _ f a n GD KF (AOK a IA) HO) as (_ & _ & _ & OW).
          unfold note_contents in CN. split; [congruence|]. split; [|congruence]. apply (same_place f n (s_note s) KS OW); congruence. }
        destruct (Z.eq_dec (n_value (s_note s)) 0) as [EZ|NZ].
        + rewrite zsum_map_zero; [destruct (mine _); congruence|]. intros a HA. apply hit_zero. intros n HO HN.
          destruct (ANY a n HA HO HN) as [X _]. congruence.
        + destruct (mine (n_recipient (s_note s))) eqn:EM.
          * apply MI in EM. destruct ZS as [ZS|IS]; [contradiction|]. destruct (SF s IS EM NZ) as (a & IA & OA).
            apply In_nth_error in IA as [p HPA].
            apply (zsum_one _ _ A p a); [exact HPA| |].
            -- unfold hit. rewrite OA.
               assert (NX : note_nullifier (s_note s) f = Ret x).
               { destruct (EACH k s o HP) as (a1 & a0 & w & n0 & alpha & rcv & T1 & T2 & T3 & T4).
                 unfold M in HX. rewrite nth_error_map, T1 in HX. cbn [option_map] in HX. injection HX as <-.
                 apply (f_equal a_nf) in T3. cbn [action_effects a_nf] in T3. rewrite <- T3, <- (ac_nf _ _ _ _ _ _ _ T4).
                 Transparent note_nullifier. unfold note_nullifier. Opaque note_nullifier. rewrite (KEY s IS EM). reflexivity. }
               rewrite NX, Z.eqb_refl. reflexivity.
            -- intros q a' HQ NE. apply hit_zero. intros n HO HN. exfalso. apply NE.
               destruct (ANY a' n (nth_error_In _ _ HQ) HO HN) as (_ & _ & RH).
               assert (I1 : In a (A ++ T)) by (apply in_app_iff; left; apply (nth_error_In _ _ HPA)).
               assert (I2 : In a' (A ++ T)) by (apply in_app_iff; left; apply (nth_error_In _ _ HQ)).
               destruct (opens_sound _ f a (s_note s) GD KF (AOK a I1) OA) as (_ & R1 & _).
               destruct (opens_sound _ f a' n GD KF (AOK a' I2) HO) as (_ & R2 & _).
               apply (UNIQ q p a' a HQ HPA). congruence.
          * apply zsum_map_zero. intros a HA. apply hit_zero. intros n HO HN. exfalso.
            destruct (ANY a n HA HO HN) as (_ & AD & _). apply MI in AD. congruence.
      - destruct (bu_spends _ _ _ _ B) as (ds & P & DS). unfold payments. rewrite zsum_filter.
        rewrite (zsum_perm _ _ (Permutation_map _ P)), map_app, zsum_app.
        rewrite (zsum_map_zero _ _ ds); [lia|]. intros s HI. rewrite (ds_zero _ (proj1 (Forall_forall _ _) DS s HI)). destruct (mine _); reflexivity. }
    unfold balance. rewrite TA, !map_app. fold A T N M. rewrite zsum_app, OUT, SPE. lia.
  Qed.

  (** Every nullifier of a transaction made with the crate is that of a requested note or of padding. *)
  Lemma made_reveals : forall anchor b (t : tx) meta ws x, gd_fallback_ok -> made halo2_prove try_from anchor b t meta ws ->
    In x (map a_nf (b_actions (fst t))) ->
    exists s w, In w ws /\ note_ok (s_note s) /\ note_nullifier (s_note s) (s_fvk s) = Ret x /\
      spent_secret w = own_secret (s_fvk s) (s_note s) /\ (n_value (s_note s) = 0 \/ In s (bl_spends b)).
  Proof.
    intros anchor b t meta ws x GD (ty & fuel & r & b0 & r' & b1 & RB & E & H & F & ->) HX.
    destruct (reachable_legal L _ _ _ RB) as ((LS & LO) & _).
    destruct (build_plan L _ _ _ _ _ _ _ _ _ GD RB E) as [plan B].
    destruct (history_final_effects halo2_prove b0 (snd t) b1 (fst t) into H F) as (EF & _).
    apply In_nth_error in HX as [k HX].
    assert (LT : length (b_actions (fst t)) = length plan).
    { rewrite <- (bu_actions _ _ _ _ B). apply (f_equal (fun x => length (b_actions x))) in EF. cbn [effects b_actions] in EF.
      rewrite !map_length in EF. exact EF. }
    assert (HK : (k < length plan)%nat).
    { rewrite <- LT, <- (map_length a_nf). apply nth_error_Some. congruence. }
    destruct (nth_error plan k) as [[s o]|] eqn:EP; [|apply nth_error_None in EP; lia].
    destruct (bu_each _ _ _ _ B k s o EP) as (a0 & w & n0 & alpha & rcv & B1 & B2 & B3).
    destruct (effects_nth _ _ _ _ b0 (fst t) k a0 (eq_sym EF) B1) as (a & A1 & A2).
    rewrite nth_error_map, A1 in HX. cbn [option_map] in HX. injection HX as <-.
    assert (HS : In s (map fst plan)) by (apply in_map_iff; exists (s, o); split; [reflexivity|apply (nth_error_In _ _ EP)]).
    exists s, w. split; [apply (nth_error_In _ _ B2)|].
    assert (SOK : note_ok (s_note s) /\ (n_value (s_note s) = 0 \/ In s (bl_spends b))).
    { destruct (bu_spends _ _ _ _ B) as (ds & P & DS). apply (Permutation_in _ P) in HS. apply in_app_iff in HS as [HI|HI].
      - split; [apply (sl_note _ _ _ (proj1 (Forall_forall _ _) LS s HI))|right; exact HI].
      - split; [apply (ds_note _ (proj1 (Forall_forall _ _) DS s HI))|left; apply (ds_zero _ (proj1 (Forall_forall _ _) DS s HI))]. }
    split; [apply SOK|]. split; [|split; [apply (spent_secret_of _ _ _ _ _ (ac_witness _ _ _ _ _ _ _ B3))|apply SOK]].
    rewrite (ac_nf _ _ _ _ _ _ _ B3). apply (f_equal a_nf) in A2. cbn [action_effects a_nf] in A2. congruence.
  Qed.

  Notation account := (account halo2_prove halo2_verify try_from into).

  Lemma account_reached : forall f es lg, account f es lg -> reached halo2_verify into (map en_tx es) lg.
  Proof.
    intros f es lg H. induction H as [|es lg e anchor H IH MD AC SF]; [constructor|].
    rewrite map_app. cbn [map]. constructor; assumption.
  Qed.

  Lemma account_reveals : forall f es lg x, gd_fallback_ok -> account f es lg -> In x (map a_nf (chain_actions (map en_tx es))) ->
    exists es1 e es2 s w, es = es1 ++ e :: es2 /\ In w (en_witnesses e) /\ note_ok (s_note s) /\
      note_nullifier (s_note s) (s_fvk s) = Ret x /\ spent_secret w = own_secret (s_fvk s) (s_note s) /\
      (n_value (s_note s) = 0 \/ (In s (bl_spends (en_builder e)) /\ spends_found f (map en_tx es1) (en_builder e))).
  Proof.
    intros f es lg x GD H. induction H as [|es lg e anchor H IH MD AC SF]; intro HX; [contradiction|].
    rewrite map_app in HX. cbn [map] in HX. rewrite chain_app, chain_one, map_app in HX. apply in_app_iff in HX as [HX|HX].
    - destruct (IH HX) as (es1 & e1 & es2 & s & w & -> & R). exists es1, e1, (es2 ++ [e]), s, w. split; [|exact R].
      rewrite <- app_assoc. reflexivity.
    - destruct (made_reveals _ _ _ _ _ _ GD MD HX) as (s & w & W1 & W2 & W3 & W4 & W5).
      exists es, e, [], s, w. split; [reflexivity|]. split; [exact W1|]. split; [exact W2|]. split; [exact W3|]. split; [exact W4|].
      destruct W5 as [W5|W5]; [left; exact W5|right; split; assumption].
  Qed.

  Lemma account_born : forall f es lg e anchor, gd_fallback_ok -> fvk_ok f -> account f es lg ->
    made halo2_prove try_from anchor (en_builder e) (en_tx e) (en_meta e) (en_witnesses e) ->
    accepts halo2_verify into lg (en_tx e) -> spends_found f (map en_tx es) (en_builder e) ->
    born_spent f (map en_tx es) (en_tx e) -> account_surprise f (es ++ [e]).
  Proof.
    intros f es lg e anchor GD KF AC MD ACC SF (a & n & nf & HA & HO & NZ & HN & HX).
    destruct (account_reveals f es lg nf GD AC HX) as (es1 & e1 & es2 & s & w & -> & W1 & W2 & W3 & W4 & W5).
    pose proof (account_reached _ _ _ AC) as RE.
    pose proof (R_apply halo2_verify into _ _ _ RE ACC) as RE'.
    destruct (chain_lists halo2_verify into _ _ RE') as (_ & EN & AO & _ & _).
    assert (IA : In a (chain_actions (map en_tx (es1 ++ e1 :: es2) ++ [en_tx e]))).
    { rewrite chain_app, chain_one. apply in_app_iff. right. exact HA. }
    destruct (opens_sound _ f a n GD KF (proj1 (Forall_forall _ _) AO a IA) HO) as (KN & R1 & _ & OW).
    destruct (same_nullifier L f (s_fvk s) n (s_note s) nf KN W2 HN W3) as [(CN & _)|X].
    - exfalso. unfold note_contents in CN. destruct W5 as [W5|(W5 & W6)]; [congruence|].
      assert (AD : addressed f (n_recipient (s_note s))) by (apply (same_place f n (s_note s) W2 OW); congruence).
      destruct (W6 s W5 AD) as (a' & IA' & OA'); [congruence|].
      assert (I' : In a' (chain_actions (map en_tx (es1 ++ e1 :: es2)))).
      { rewrite map_app, chain_app. apply in_app_iff. left. exact IA'. }
      assert (IT : In a' (chain_actions (map en_tx (es1 ++ e1 :: es2) ++ [en_tx e]))).
      { rewrite chain_app. apply in_app_iff. left. exact I'. }
      destruct (opens_sound _ f a' (s_note s) GD KF (proj1 (Forall_forall _ _) AO a' IT) OA') as (_ & R2 & _).
      pose proof (ac_nfs _ _ _ _ ACC) as ND. destruct (chain_lists halo2_verify into _ _ RE) as (_ & EN' & _). rewrite EN' in ND.
      apply (nodup_apart _ _ _ (a_nf a) ND); [|apply in_map; exact HA].
      replace (a_nf a) with (a_nf a') by congruence. apply in_map. exact I'.
    - apply (AS_nullifier f _ a n e1 w); [|exact HO| |exact W1|rewrite W4; exact X].
      + rewrite map_app. cbn [map]. exact IA.
      + apply in_app_iff. left. apply in_app_iff. right. left. reflexivity.
  Qed.

  Lemma surprise_later : forall f (es : list (entry C V)) e, account_surprise f es -> account_surprise f (es ++ [e]).
  Proof.
    intros f es e [es1 e1 es2 -> S|a n e1 w I1 I2 I3 I4 S].
    - apply (AS_step f _ es1 e1 (es2 ++ [e])); [rewrite <- app_assoc; reflexivity|exact S].
    - apply (AS_nullifier f _ a n e1 w); [rewrite map_app, chain_app; apply in_app_iff; left; exact I1|exact I2|apply in_app_iff; left; exact I3|exact I4|exact S].
  Qed.

  Theorem account_book : forall f mine es lg, gd_fallback_ok -> fvk_ok f -> decides mine f -> account f es lg ->
    balance f (map en_tx es) =
      zsum (map (fun e => receipts mine (en_builder e)) es) - zsum (map (fun e => payments mine (en_builder e)) es) \/
    account_surprise f es.
  Proof.
    intros f mine es lg GD KF MI H. induction H as [|es lg e anchor H IH MD AC SF]; [left; reflexivity|].
    destruct IH as [IH|X]; [|right; apply surprise_later; exact X].
    destruct (balance_step f mine _ lg anchor _ _ _ _ GD KF MI (account_reached _ _ _ H) MD AC SF) as [X|[X|X]].
    - left. rewrite !map_app, !zsum_app. cbn [map zsum]. rewrite X, IH. lia.
    - right. exact (AS_step f _ es e [] eq_refl X).
    - right. exact (account_born f es lg e anchor GD KF H MD AC SF X).
  Qed.
End Balance.

Section Born.
  Context {C : Curve} {OR : @Oracles C} {V : Type}.
  Variable L : CurveLaws C.
  Variables (halo2_verify : bytes -> list (list Z) -> bool) (into : V -> Z).
  Variables (extract : bytes -> list (list Z) -> list action_cells) (sx bx : point -> bytes -> signature -> Z).
  Hypotheses (XC : finds_cells halo2_verify extract) (XS : finds_keys SpendAuth sx) (XB : finds_keys Binding bx).

  Lemma acts_nfs : forall (h : list (@tx C V)) a, In a (acts extract h) -> In (i_nf_old (fst a)) (map a_nf (chain_actions h)).
  Proof.
    intros h [i w] H. unfold acts in H. apply in_flat_map in H as (t & HT & HA). unfold acts_of in HA.
    apply in_combine_l in HA. unfold to_instances in HA. apply in_map_iff in HA as (a & <- & HA).
    cbn [fst to_instance i_nf_old]. apply in_map. unfold chain_actions. apply in_flat_map. exists t. split; assumption.
  Qed.

  Theorem not_born_spent : forall f h lg t a n nf, gd_fallback_ok -> fvk_ok f ->
    reached halo2_verify into h lg -> accepts halo2_verify into lg t ->
    In a (b_actions (fst t)) -> opens f a = Some n -> n_value n <> 0 -> note_nullifier n f = Ret nf ->
    ~ In nf (map a_nf (chain_actions (h ++ [t]))) \/
    (exists x, In x (acts extract (h ++ [t])) /\
       (nullifier_relation (spent_secret (snd x)) (own_secret f n) \/ exists s, foreign_opening f s (snd x))) \/
    break into extract bx (h ++ [t]).
  Proof.
    intros f h lg t a n nf GD KF RE AC HA HO NZ HN.
    pose proof (R_apply halo2_verify into _ _ _ RE AC) as RE'.
    destruct (chain_lists halo2_verify into _ _ RE') as (_ & EN & AO & _ & _).
    destruct (chain_lists halo2_verify into _ _ RE) as (_ & EN0 & _).
    destruct (in_dec Z.eq_dec nf (map a_nf (chain_actions (h ++ [t])))) as [HI|NI]; [|left; exact NI]. right.
    destruct (reached_inv L halo2_verify into extract sx bx XC XS XB _ _ RE') as [I|B]; [|right; exact B]. left.
    rewrite <- EN, (iv_nfs _ _ _ I) in HI. apply in_map_iff in HI as (x & EX & HX).
    exists x. split; [exact HX|].
    assert (IA : In a (chain_actions (h ++ [t]))) by (rewrite chain_app, chain_one; apply in_app_iff; right; exact HA).
    destruct (opens_sound L _ f a n GD KF (proj1 (Forall_forall _ _) AO a IA) HO) as (KN & R1 & _ & (s & k & HK & OW)).
    assert (IW : in_wallet f s n) by (split; [exact KN|exists k; split; assumption]).
    pose proof (proj1 (Forall_forall _ _) (iv_st _ _ _ I) x HX) as ST. cbv beta in ST.
    destruct (nullifier_spends L f s n nf (fst x) (snd x) KF IW HN ST EX) as [S|[S|S]]; [|left; exact S|right; exists s; exact S].
    exfalso. destruct S as [S _].
    unfold acts in HX. apply in_flat_map in HX as (t1 & HT & HX). apply in_split in HT as (h1 & h2 & EH).
    assert (SV : spends_value x = true).
    { unfold spends_value. apply negb_true_iff, Z.eqb_neq. apply (f_equal se_value) in S. cbn [spent_secret own_secret se_value] in S. congruence. }
    destruct (iv_found _ _ _ I h1 t1 h2 x EH HX SV) as (x' & X1 & X2 & _).
    pose proof (acts_nfs h1 x' (nth_error_In _ _ X1)) as IN.
    assert (ER : i_nf_old (fst x') = a_nf a).
    { apply (f_equal pn_rho) in X2. cbn [spent_note created_note pn_rho] in X2. apply (f_equal se_rho) in S. cbn [spent_secret own_secret se_rho] in S. congruence. }
    rewrite ER in IN.
    assert (PRE : exists h3, h = h1 ++ h3).
    { destruct h2 as [|y h2] using rev_ind; [exists []; rewrite app_nil_r; apply app_inj_tail in EH as [-> _]; reflexivity|].
      clear IHh2. rewrite app_comm_cons, app_assoc in EH. apply app_inj_tail in EH as [-> _]. eexists. reflexivity. }
    destruct PRE as [h3 ->]. pose proof (ac_nfs _ _ _ _ AC) as ND. rewrite EN0 in ND.
    apply (nodup_apart _ _ _ (a_nf a) ND); [|apply in_map; exact HA]. rewrite chain_app, map_app. apply in_app_iff. left. exact IN.
  Qed.
End Born.
