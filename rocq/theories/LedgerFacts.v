(** Proofs for C63. *)
From Coq Require Import String ZArith List Bool Lia.
From Coq Require Import Init.Byte.
From Verif Require Import Prelude PreludeFacts Fields FieldFacts Curve CurveFacts Oracles Spec Sinsemilla SinsSpec SinsFacts RedPallas Value ValueFacts
  Keys Note NoteFacts Tree TreeSpec TreeFacts Action NoteEnc
  Bundle BundleFacts Batch Builder BundleSpec Halo2 Circuit CircuitSpec CircuitFacts CircuitBuildFacts PipelineSpec PipelineFacts LedgerSpec.
Import ListNotations.
Open Scope Z_scope.

Lemma root_base : forall {C : Curve} {OR : @Oracles C} (L : CurveLaws C) leaves, (forall p, is_base (leaves p)) -> is_base (tree_root leaves 32).
Proof. intros C OR L leaves H. unfold tree_root. apply (node_base L). exact H. Qed.

#[local] Opaque sins_hash_words sins_Q msg_words node tree_root auth_path root_loop root_inputs note_commit_msg commit_ivk_msg.

(** * Lists *)

Lemma all_or : forall A (P : A -> bool) (Q : A -> Prop) (X : Prop) l,
  (forall a, In a l -> P a = true -> Q a \/ X) -> (forall a, In a l -> P a = true -> Q a) \/ X.
Proof.
  intros A P Q X l. induction l as [|a l IH]; intro H; [left; intros a []|].
  destruct IH as [I|I]; [intros b Hb; apply H; right; exact Hb| |right; exact I].
  destruct (P a) eqn:E.
  - destruct (H a (or_introl eq_refl) E) as [Q1|Q1]; [left|right; exact Q1].
    intros b [->|Hb] Pb; [exact Q1|apply I; assumption].
  - left. intros b [->|Hb] Pb; [congruence|apply I; assumption].
Qed.
Lemma nodup_or : forall A B (g : A -> B) (f : A -> Z) (X : Prop) l, NoDup (map g l) ->
  (forall a b, In a l -> In b l -> g a <> g b -> f a = f b -> X) -> NoDup (map f l) \/ X.
Proof.
  intros A B g f X. induction l as [|a l IH]; intros N H; [left; constructor|].
  cbn [map] in *. apply NoDup_cons_iff in N as [N1 N2].
  destruct IH as [I|I]; [exact N2|intros b c Hb Hc; apply H; right; assumption| |right; exact I].
  destruct (in_dec Z.eq_dec (f a) (map f l)) as [Y|Y].
  - right. apply in_map_iff in Y as (b & E & Hb). apply (H a b); [left; reflexivity|right; exact Hb| |congruence].
    intro X'. apply N1. rewrite X'. apply in_map. exact Hb.
  - left. constructor; assumption.
Qed.
Lemma nodup_filter : forall A B (g : A -> B) p l, NoDup (map g l) -> NoDup (map g (filter p l)).
Proof.
  intros A B g p. induction l as [|a l IH]; intro N; [constructor|]. cbn [map filter] in *. apply NoDup_cons_iff in N as [N1 N2].
  destruct (p a); [|apply IH; exact N2]. cbn [map]. constructor; [|apply IH; exact N2].
  intro I. apply N1. apply in_map_iff in I as (b & E & Hb). apply filter_In in Hb as [Hb _]. apply in_map_iff. exists b. split; assumption.
Qed.
Lemma nodup_map_inj : forall A (f : A -> Z) (g : Z -> nat) l, (forall a, In a l -> 0 <= f a) -> g = Z.to_nat ->
  NoDup (map f l) -> NoDup (map (fun a => g (f a)) l).
Proof.
  intros A f g l H -> N. induction l as [|a l IH]; [constructor|]. cbn [map] in *. apply NoDup_cons_iff in N as [N1 N2].
  constructor; [|apply IH; [intros b Hb; apply H; right; exact Hb|exact N2]].
  intro I. apply in_map_iff in I as (b & E & Hb). apply N1. apply in_map_iff. exists b. split; [|exact Hb].
  pose proof (H a (or_introl eq_refl)). pose proof (H b (or_intror Hb)). lia.
Qed.
Lemma zsum_app : forall l l', zsum (l ++ l') = zsum l + zsum l'.
Proof. induction l as [|a l IH]; intro l'; cbn [app zsum]; [lia|rewrite IH; lia]. Qed.
Lemma zsum_nonneg : forall l, (forall x, In x l -> 0 <= x) -> 0 <= zsum l.
Proof.
  induction l as [|a l IH]; intro H; cbn [zsum]; [lia|]. pose proof (H a (or_introl eq_refl)).
  assert (0 <= zsum l) by (apply IH; intros x Hx; apply H; right; exact Hx). lia.
Qed.
Lemma zsum_incl : forall A (f : A -> Z) l m, (forall x, 0 <= f x) -> NoDup l -> incl l m -> zsum (map f l) <= zsum (map f m).
Proof.
  intros A f l. induction l as [|a l IH]; intros m P N I.
  - cbn [map zsum]. apply zsum_nonneg. intros x Hx. apply in_map_iff in Hx as (b & <- & _). apply P.
  - apply NoDup_cons_iff in N as [N1 N2]. assert (Ia : In a m) by (apply I; left; reflexivity).
    apply in_split in Ia as (m1 & m2 & ->).
    assert (I2 : incl l (m1 ++ m2)).
    { intros x Hx. assert (Hx' : In x (m1 ++ a :: m2)) by (apply I; right; exact Hx).
      apply in_app_iff in Hx'. apply in_app_iff. destruct Hx' as [H|[H|H]]; [left; exact H| |right; exact H].
      subst x. destruct (N1 Hx). }
    specialize (IH _ P N2 I2). rewrite map_app in *. rewrite zsum_app in *. cbn [map zsum] in *. lia.
Qed.
Lemma zsum_nth : forall A (f : A -> Z) l,
  zsum (map (fun n => match nth_error l n with Some a => f a | None => 0 end) (seq 0 (length l))) = zsum (map f l).
Proof.
  intros A f l. induction l as [|a l IH]; [reflexivity|]. cbn [length seq map zsum nth_error]. f_equal.
  rewrite <- IH. rewrite <- seq_shift, map_map. reflexivity.
Qed.
Lemma zsum_filter : forall A (f : A -> Z) p l, (forall a, In a l -> p a = false -> f a = 0) ->
  zsum (map f (filter p l)) = zsum (map f l).
Proof.
  intros A f p. induction l as [|a l IH]; intro H; [reflexivity|]. cbn [filter map zsum].
  assert (IH' : zsum (map f (filter p l)) = zsum (map f l)) by (apply IH; intros b Hb; apply H; right; exact Hb).
  destruct (p a) eqn:E; cbn [map zsum]; [lia|]. rewrite (H a (or_introl eq_refl) E). lia.
Qed.
(** Distinct spends of created values cannot exceed what was created. *)
Lemma matched_sums : forall A (pos old new : A -> Z) (p : A -> bool) l,
  (forall a, In a l -> 0 <= pos a) -> (forall a, In a l -> 0 <= new a) ->
  (forall a, In a l -> p a = false -> old a = 0) ->
  (forall a, In a l -> p a = true -> exists a', nth_error l (Z.to_nat (pos a)) = Some a' /\ old a = new a') ->
  NoDup (map pos (filter p l)) -> zsum (map old l) <= zsum (map new l).
Proof.
  intros A pos old new p l P0 N0 F0 FD ND. rewrite <- (zsum_filter _ old p l F0).
  set (f := fun n => match nth_error l n with Some a => new a | None => 0 end).
  replace (map old (filter p l)) with (map f (map (fun a => Z.to_nat (pos a)) (filter p l))).
  - rewrite <- (zsum_nth _ new l). fold f. apply zsum_incl.
    + intro n. unfold f. destruct (nth_error l n) as [a|] eqn:E; [|lia]. apply N0. apply nth_error_In in E. exact E.
    + apply nodup_map_inj; [|reflexivity|exact ND]. intros a Ha. apply filter_In in Ha as [Ha _]. apply P0. exact Ha.
    + intros n Hn. apply in_map_iff in Hn as (a & <- & Ha). apply filter_In in Ha as [Ha Pa].
      destruct (FD a Ha Pa) as (a' & E & _). apply in_seq. split; [lia|]. cbn [Nat.add]. apply nth_error_Some. congruence.
  - rewrite map_map. apply map_ext_in. intros a Ha. apply filter_In in Ha as [Ha Pa].
    destruct (FD a Ha Pa) as (a' & E & EV). unfold f. rewrite E. symmetry. exact EV.
Qed.
Lemma combine_forall2 : forall A B (R : A -> B -> Prop) l l', Forall2 R l l' ->
  Forall (fun a => R (fst a) (snd a)) (List.combine l l') /\ map fst (List.combine l l') = l /\ map snd (List.combine l l') = l'.
Proof.
  intros A B R l l' H. induction H as [|a b l l' H1 H2 (I1 & I2 & I3)]; [split; [constructor|split; reflexivity]|].
  cbn [List.combine map fst snd]. rewrite I2, I3. split; [constructor; assumption|split; reflexivity].
Qed.

Lemma rev_case : forall A (l : list A), l = [] \/ exists l' x, l = l' ++ [x].
Proof.
  intros A [|a l]; [left; reflexivity|right]. destruct (@exists_last A (a :: l)) as (l' & x & E); [discriminate|].
  exists l', x. exact E.
Qed.

Section Ledger.
  Context {C : Curve} {OR : @Oracles C} (L : CurveLaws C) {V : Type}.
  Variables (halo2_verify : bytes -> list (list Z) -> bool) (into : V -> Z).
  Variables (extract : bytes -> list (list Z) -> list action_cells) (sx bx : point -> bytes -> signature -> Z).
  Notation tx := (@tx C V).
  Notation acts := (acts extract). Notation acts_of := (acts_of extract). Notation cells_of := (cells_of extract).
  Notation break := (break into extract bx).
  Notation accepts := (accepts halo2_verify into). Notation reached := (reached halo2_verify into).

  Lemma acts_app : forall h h' : list tx, acts (h ++ h') = acts h ++ acts h'.
  Proof. intros. unfold LedgerSpec.acts. apply flat_map_app. Qed.
  Lemma acts_one : forall t : tx, acts [t] = acts_of t.
  Proof. intro t. unfold LedgerSpec.acts. cbn [flat_map]. apply app_nil_r. Qed.

  Lemma break_mono : forall (h : list tx) t, break h -> break (h ++ [t]).
  Proof.
    intros h t B. destruct B.
    - eapply B_hash; [apply in_or_app; left; eassumption|eassumption|assumption].
    - eapply B_value; [apply in_or_app; left; eassumption|eassumption|assumption|assumption].
    - eapply (B_note _ _ _ _ a o a' o'); try assumption; rewrite acts_app; apply in_or_app; left; assumption.
    - eapply (B_ivk _ _ _ _ a a'); try assumption; rewrite acts_app; apply in_or_app; left; assumption.
    - subst h. eapply (B_tree _ _ _ _ h1 t0 (h2 ++ [t]) n k l m x y); try eassumption. rewrite <- app_assoc. reflexivity.
    - eapply B_empty; [apply in_or_app; left; eassumption|eassumption|assumption].
  Qed.

  Lemma leaves_base : forall l, Forall is_base l -> forall p, is_base (leaves_of l p).
  Proof.
    intros l H p. assert (E : is_base empty_leaf) by (unfold empty_leaf, is_base; assert (100 < pmod) by (vm_compute; reflexivity); lia).
    unfold leaves_of. destruct ((0 <=? p) && (p <? Z.of_nat (length l))) eqn:B; [|exact E].
    apply andb_true_iff in B as [B1 B2]. apply Z.leb_le in B1. apply Z.ltb_lt in B2.
    apply (proj1 (Forall_forall _ _) H). apply nth_In. lia.
  Qed.

  Lemma openings_spent : forall a : instance * witness, In (note_opening (spent_note a) (w_rcm_old (snd a))) (openings a).
  Proof. intro a. left. reflexivity. Qed.
  Lemma openings_created : forall a : instance * witness, In (note_opening (created_note a) (w_rcm_new (snd a))) (openings a).
  Proof. intro a. right. left. reflexivity. Qed.

  (** The spent note is the created one, or the commitment has two openings. *)
  Lemma note_match : forall a a' : instance * witness, action_statement (fst a) (snd a) -> action_statement (fst a') (snd a') ->
    is_base (i_nf_old (fst a')) -> pt_x (w_cm_old (snd a)) = i_cmx (fst a') ->
    spent_note a = created_note a' \/
    two_openings (sins_Q "z.cash:Orchard-NoteCommit-M") (commit_R "z.cash:Orchard-NoteCommit")
      (note_opening (spent_note a) (w_rcm_old (snd a))) (note_opening (created_note a') (w_rcm_new (snd a'))).
  Proof.
    intros [i w] [i' w'] S1 S2 B HX. cbn [fst snd] in *.
    destruct (st_old_types _ _ S1) as (G1 & K1 & R1 & P1 & C1). destruct (st_new_types _ _ S2) as (G2 & K2 & P2 & C2).
    destruct (st_values _ _ S1) as (V1 & _). destruct (st_values _ _ S2) as (_ & V2).
    pose proof (st_cm_old _ _ S1) as CM1. destruct (st_cmx _ _ S2) as (c2 & CM2 & X2). unfold note_commitment_derive in CM1, CM2.
    set (m1 := note_commit_msg (pt_encode (w_g_d_old w)) (pt_encode (w_pk_d_old w)) (w_v_old w) (w_rho_old w) (w_psi_old w)) in *.
    set (m2 := note_commit_msg (pt_encode (w_g_d_new w')) (pt_encode (w_pk_d_new w')) (w_v_new w') (i_nf_old i') (w_psi_new w')) in *.
    destruct (list_eq_dec bool_dec m1 m2) as [EM|NM].
    - left. unfold m1, m2 in EM. apply (note_msg_inj L) in EM; try assumption. destruct EM as (E1 & E2 & E3 & E4 & E5).
      unfold spent_note, created_note. cbn [fst snd]. rewrite E1, E2, E3, E4, E5. reflexivity.
    - right. unfold two_openings, note_opening, spent_note, created_note. cbn [fst snd pn_g_d pn_pk_d pn_value pn_rho pn_psi]. fold m1 m2.
      unfold cmx_of, extract_p in X2.
      apply (commit_collision L "z.cash:Orchard-NoteCommit" _ _ _ _ (w_cm_old w) c2); try assumption.
      + unfold m1, m2. rewrite !note_msg_length. reflexivity.
      + unfold m1. rewrite note_msg_length. lia.
      + intro X. apply NM. congruence.
      + congruence.
  Qed.

  (** * One accepted transaction *)

  Definition proved_by (t : tx) (a : instance * witness) : Prop :=
    exists inst k, In k (cells_of t) /\ snd a = cells_witness k /\ to_halo2_instance (fst a) = Ret inst /\
      circuit_sat inst k /\ i_anchor (fst a) = b_anchor (fst t).

  Lemma zip_cells : forall (is : list instance) insts ks, Forall2 (fun i l => to_halo2_instance i = Ret l) is insts ->
    Forall2 circuit_sat insts ks ->
    Forall (fun a => exists inst k, In k ks /\ snd a = cells_witness k /\ to_halo2_instance (fst a) = Ret inst /\ circuit_sat inst k /\ In (fst a) is)
      (List.combine is (map cells_witness ks)).
  Proof.
    intros is insts ks H. revert ks. induction H as [|i l is insts E H IH]; intros ks K; inversion K as [|l' k insts' ks' S K']; subst; [constructor|].
    cbn [map List.combine]. constructor.
    - exists l, k. cbn [fst snd]. split; [left; reflexivity|]. split; [reflexivity|]. split; [exact E|]. split; [exact S|left; reflexivity].
    - specialize (IH _ K'). eapply Forall_impl; [|exact IH]. intros a (inst & k' & I1 & I2 & I3 & I4 & I5).
      exists inst, k'. split; [right; exact I1|]. split; [exact I2|]. split; [exact I3|]. split; [exact I4|right; exact I5].
  Qed.

  Hypotheses (XC : finds_cells halo2_verify extract) (XS : finds_keys SpendAuth sx) (XB : finds_keys Binding bx).

  Lemma valid_cells : forall (t : tx), bundle_valid halo2_verify into (fst t) (snd t) -> Forall (proved_by t) (acts_of t).
  Proof.
    intros t (_ & _ & V3). unfold verify_proof, proof_verify in V3. unfold LedgerSpec.acts_of, proved_by. unfold LedgerSpec.cells_of.
    destruct (omap to_halo2_instance (to_instances (fst t))) as [is|w|] eqn:EI; cbn [obind] in V3; try discriminate V3.
    assert (VP : halo2_verify (au_proof (b_auth (fst t))) is = true) by congruence. clear V3. apply omap_spec in EI.
    eapply Forall_impl; [|exact (zip_cells _ _ _ EI (XC _ _ VP))].
    intros a (inst & k & I1 & I2 & I3 & I4 & I5). exists inst, k. repeat (split; [assumption|]).
    unfold to_instances in I5. apply in_map_iff in I5 as (x & <- & _). reflexivity.
  Qed.

  Lemma tx_statements : forall h lg (t : tx), accepts lg t -> is_base (b_anchor (fst t)) ->
    (Forall2 action_statement (to_instances (fst t)) (map cells_witness (cells_of t)) /\
     surplus_of (map cells_witness (cells_of t)) (into (b_value_balance (fst t))) = 0) \/ break (h ++ [t]).
  Proof.
    intros h lg t A HA. pose proof (ac_valid _ _ _ _ A) as VL. pose proof (ac_types _ _ _ _ A) as TY. pose proof (ac_space _ _ _ _ A) as SP.
    assert (IT : In t (h ++ [t])) by (apply in_or_app; right; left; reflexivity).
    destruct (valid_means L halo2_verify extract sx bx into (fst t) (snd t) XC XS XB HA) as (is & bvk & EI & BK & M).
    - pose proof (bo_balance _ _ TY) as B. unfold is_i64 in B. unfold i64_ok. lia.
    - assert (2 ^ 32 < 2 ^ 180) by reflexivity. lia.
    - exact VL.
    - assert (EC : extract (au_proof (b_auth (fst t))) is = cells_of t) by (unfold LedgerSpec.cells_of; rewrite EI; reflexivity).
      rewrite EC in M. unfold accepted_means in M. cbv zeta in M.
      destruct M as [(M1 & M2 & _)|[(k & K1 & K2)|(M1 & M2)]].
      + left. split; assumption.
      + right. apply (B_hash _ _ _ _ t k IT K1 K2).
      + right. apply (B_value _ _ _ _ t bvk IT BK M1 M2).
  Qed.

  Lemma spend_found : forall h lg (t : tx) a, accepts lg t ->
    Forall (fun a => action_statement (fst a) (snd a)) (acts h) -> Forall is_base (map (fun a => i_nf_old (fst a)) (acts h)) ->
    lg_cmxs lg = map (fun a => i_cmx (fst a)) (acts h) -> Forall is_base (lg_cmxs lg) ->
    In a (acts_of t) -> action_statement (fst a) (snd a) -> spends_value a = true ->
    (exists a', nth_error (acts h) (Z.to_nat (position a)) = Some a' /\ spent_note a = created_note a' /\
       pt_x (w_cm_old (snd a)) = i_cmx (fst a')) \/ break (h ++ [t]).
  Proof.
    intros h lg t a A ST NB EC CB HI SA SV.
    pose proof (proj1 (Forall_forall _ _) (valid_cells t (ac_valid _ _ _ _ A)) a HI) as (inst & k & K1 & K2 & K3 & K4 & K5).
    destruct (ac_anchor _ _ _ _ A) as (n & LN & AN).
    assert (IT : In t (h ++ [t])) by (apply in_or_app; right; left; reflexivity).
    set (leaves := leaves_of (firstn n (lg_cmxs lg))) in *.
    assert (FB : Forall is_base (firstn n (lg_cmxs lg))).
    { apply Forall_forall. intros x Hx. apply (proj1 (Forall_forall _ _) CB). rewrite <- (firstn_skipn n (lg_cmxs lg)). apply in_or_app. left. exact Hx. }
    assert (LB : forall p, is_base (leaves p)) by (apply leaves_base; exact FB).
    assert (AB : is_base (i_anchor (fst a))) by (rewrite K5, AN; apply (root_base L); exact LB).
    assert (NV : k_v_old k <> 0).
    { unfold spends_value in SV. rewrite K2 in SV. cbn [cells_witness w_v_old] in SV. apply negb_true_iff in SV. apply Z.eqb_neq in SV. exact SV. }
    assert (RT : i_anchor (fst a) = tree_root leaves 32) by congruence.
    assert (EP : position a = bits_val (map ml_swap (k_layers k))) by (unfold position; rewrite K2; reflexivity).
    assert (EM : w_cm_old (snd a) = k_cm_old k) by (rewrite K2; reflexivity).
    destruct (membership L (fst a) inst k leaves AB K3 K4 NV LB RT) as (RP & [ML|[U|(l & m & x & y & N & I & R)]]).
    - rewrite <- EP, <- EM in ML. rewrite <- EP in RP. unfold leaves, leaves_of in ML.
      destruct ((0 <=? position a) && (position a <? Z.of_nat (length (firstn n (lg_cmxs lg))))) eqn:BD.
      2:{ right. apply (B_empty _ _ _ _ t k IT K1). rewrite <- EM. exact ML. }
      apply andb_true_iff in BD as [_ BD]. apply Z.ltb_lt in BD.
      assert (BN : (Z.to_nat (position a) < length (firstn n (lg_cmxs lg)))%nat) by lia.
      rewrite firstn_length_le in BN by exact LN.
      assert (NE : nth_error (lg_cmxs lg) (Z.to_nat (position a)) = Some (pt_x (w_cm_old (snd a)))).
      { rewrite ML. rewrite <- (firstn_skipn n (lg_cmxs lg)). rewrite nth_error_app1 by (rewrite firstn_length_le by exact LN; exact BN).
        rewrite firstn_skipn. apply nth_error_nth'. rewrite firstn_length_le by exact LN. exact BN. }
      rewrite EC, nth_error_map in NE. destruct (nth_error (acts h) (Z.to_nat (position a))) as [a'|] eqn:EA; [|discriminate NE].
      cbn [option_map] in NE. assert (EX : pt_x (w_cm_old (snd a)) = i_cmx (fst a')) by congruence.
      pose proof (nth_error_In _ _ EA) as IA.
      destruct (note_match a a' SA (proj1 (Forall_forall _ _) ST a' IA)) as [SN|TO].
      + apply (proj1 (Forall_forall _ _) NB). apply in_map_iff. exists a'. split; [reflexivity|exact IA].
      + exact EX.
      + left. exists a'. split; [reflexivity|]. split; [exact SN|exact EX].
      + right. apply (B_note _ _ _ _ a _ a' _) with (5 := TO).
        * rewrite acts_app, acts_one. apply in_or_app. right. exact HI.
        * rewrite acts_app. apply in_or_app. left. exact IA.
        * apply openings_spent.
        * apply openings_created.
    - right. apply (B_hash _ _ _ _ t k IT K1 U).
    - right. unfold leaves in I. rewrite EC in I. apply (B_tree _ _ _ _ h t [] n k l m x y eq_refl K1 N I R).
  Qed.

  (** * Histories *)

  Record inv (h : list tx) (lg : ledger) : Prop := {
    iv_st : Forall (fun a => action_statement (fst a) (snd a)) (acts h);
    iv_cmxs : lg_cmxs lg = map (fun a => i_cmx (fst a)) (acts h);
    iv_nfs : lg_nfs lg = map (fun a => i_nf_old (fst a)) (acts h);
    iv_cb : Forall is_base (lg_cmxs lg);
    iv_nb : Forall is_base (lg_nfs lg);
    iv_nd : NoDup (lg_nfs lg);
    iv_pool : lg_pool lg = zsum (map (fun a => pn_value (created_note a)) (acts h)) -
                           zsum (map (fun a => pn_value (spent_note a)) (acts h));
    iv_found : forall h1 t h2 a, h = h1 ++ t :: h2 -> In a (acts_of t) -> spends_value a = true ->
      exists a', nth_error (acts h1) (Z.to_nat (position a)) = Some a' /\ spent_note a = created_note a' /\
        pt_x (w_cm_old (snd a)) = i_cmx (fst a')
  }.

  Lemma tx_lists : forall t : tx, Forall2 action_statement (to_instances (fst t)) (map cells_witness (cells_of t)) ->
    map (fun a => i_cmx (fst a)) (acts_of t) = map a_cmx (b_actions (fst t)) /\
    map (fun a => i_nf_old (fst a)) (acts_of t) = map a_nf (b_actions (fst t)) /\
    map (fun a => pn_value (created_note a)) (acts_of t) = map w_v_new (map cells_witness (cells_of t)) /\
    map (fun a => pn_value (spent_note a)) (acts_of t) = map w_v_old (map cells_witness (cells_of t)).
  Proof.
    intros t H. destruct (combine_forall2 _ _ _ _ _ H) as (_ & E1 & E2). fold (acts_of t) in E1, E2.
    change (List.combine (to_instances (fst t)) (map cells_witness (cells_of t))) with (acts_of t) in E1, E2.
    assert (M1 : forall f : instance -> Z, map (fun a => f (fst a)) (acts_of t) = map f (to_instances (fst t))).
    { intro f. apply (f_equal (map f)) in E1. rewrite map_map in E1. exact E1. }
    assert (M2 : forall f : witness -> Z, map (fun a => f (snd a)) (acts_of t) = map f (map cells_witness (cells_of t))).
    { intro f. apply (f_equal (map f)) in E2. rewrite map_map in E2. exact E2. }
    split; [|split; [|split]].
    - rewrite (M1 i_cmx). unfold to_instances. rewrite map_map. reflexivity.
    - rewrite (M1 i_nf_old). unfold to_instances. rewrite map_map. reflexivity.
    - exact (M2 w_v_new).
    - exact (M2 w_v_old).
  Qed.

  Lemma reached_inv : forall h lg, reached h lg -> inv h lg \/ break h.
  Proof.
    intros h lg H. induction H as [|h lg t H [I|B] A].
    - left. constructor; cbn; try constructor. intros h1 t h2 a E. destruct h1; discriminate E.
    - destruct I as [I1 I2 I3 I4 I5 I6 I7 I8].
      assert (AB : is_base (b_anchor (fst t))) by apply (bo_anchor _ _ (ac_types _ _ _ _ A)).
      destruct (tx_statements h lg t A AB) as [(S1 & S2)|B]; [|right; exact B].
      destruct (combine_forall2 _ _ _ _ _ S1) as (F & _ & _).
      change (List.combine (to_instances (fst t)) (map cells_witness (cells_of t))) with (acts_of t) in F.
      rewrite I3 in I5.
      destruct (all_or _ spends_value _ (break (h ++ [t])) (acts_of t)
        (fun a HI SV => spend_found h lg t a A I1 I5 I2 I4 HI (proj1 (Forall_forall _ _) F a HI) SV)) as [FD|B]; [left|right; exact B].
      destruct (tx_lists t S1) as (T1 & T2 & T3 & T4).
      pose proof (bo_actions _ _ (ac_types _ _ _ _ A)) as AO.
      constructor.
      + rewrite acts_app, acts_one. apply Forall_app. split; assumption.
      + cbn [apply lg_cmxs]. rewrite acts_app, acts_one, map_app, T1, I2. reflexivity.
      + cbn [apply lg_nfs]. rewrite acts_app, acts_one, map_app, T2, I3. reflexivity.
      + cbn [apply lg_cmxs]. apply Forall_app. split; [exact I4|]. apply Forall_forall. intros x Hx. apply in_map_iff in Hx as (a & <- & Ha).
        apply (ao_cmx _ (proj1 (Forall_forall _ _) AO a Ha)).
      + cbn [apply lg_nfs]. apply Forall_app. split; [rewrite I3; exact I5|]. apply Forall_forall. intros x Hx. apply in_map_iff in Hx as (a & <- & Ha).
        apply (ao_nf _ (proj1 (Forall_forall _ _) AO a Ha)).
      + exact (ac_nfs _ _ _ _ A).
      + cbn [apply lg_pool]. rewrite acts_app, acts_one, !map_app, !zsum_app, T3, T4, I7. unfold surplus_of in S2. lia.
      + intros h1 u h2 a E HI SV. destruct (rev_case _ h2) as [-> |(h3 & v & ->)].
        * apply app_inj_tail in E as [-> ->]. apply FD; assumption.
        * change (h1 ++ u :: h3 ++ [v]) with (h1 ++ (u :: h3) ++ [v]) in E. rewrite app_assoc in E. apply app_inj_tail in E as [E _].
          apply (I8 h1 u h3 a E HI SV).
    - right. apply break_mono. exact B.
  Qed.

  Lemma found_anywhere : forall h lg, inv h lg -> forall a, In a (acts h) -> spends_value a = true ->
    exists a', nth_error (acts h) (Z.to_nat (position a)) = Some a' /\ spent_note a = created_note a' /\
      pt_x (w_cm_old (snd a)) = i_cmx (fst a').
  Proof.
    intros h lg I a HI SV. unfold LedgerSpec.acts in HI. apply in_flat_map in HI as (t & HT & HI).
    apply in_split in HT as (h1 & h2 & E). destruct (iv_found _ _ I h1 t h2 a E HI SV) as (a' & N & R).
    exists a'. split; [|exact R]. rewrite E, acts_app. rewrite nth_error_app1; [exact N|]. apply nth_error_Some. congruence.
  Qed.

  Theorem ledger_sound : forall h lg, reached h lg -> sound_ledger extract h lg \/ break h.
  Proof.
    intros h lg H. destruct (reached_inv h lg H) as [I|B]; [|right; exact B].
    pose proof (iv_st _ _ I) as ST. rewrite Forall_forall in ST.
    pose proof (iv_nd _ _ I) as ND. rewrite (iv_nfs _ _ I) in ND.
    pose proof (iv_nb _ _ I) as NB. rewrite (iv_nfs _ _ I) in NB. rewrite Forall_forall in NB.
    assert (NB' : forall a, In a (acts h) -> is_base (i_nf_old (fst a))).
    { intros a Ha. apply NB. apply in_map_iff. exists a. split; [reflexivity|exact Ha]. }
    destruct (nodup_or _ _ (fun a => i_nf_old (fst a)) position (break h) (filter spends_value (acts h))) as [ON|B]; [| | |right; exact B].
    { apply nodup_filter. exact ND. }
    { intros a b Ha Hb NE EP. apply filter_In in Ha as [Ha Sa]. apply filter_In in Hb as [Hb Sb].
      destruct (found_anywhere h lg I a Ha Sa) as (a' & N1 & _ & X1). destruct (found_anywhere h lg I b Hb Sb) as (b' & N2 & _ & X2).
      rewrite EP in N1. assert (a' = b') by congruence. subst b'.
      destruct (nullifier_unique L _ _ _ _ (ST a Ha) (ST b Hb)) as [EN|[R|R]]; [congruence|destruct (NE EN)| |].
      - apply (B_note _ _ _ _ a _ b _ Ha Hb (openings_spent a) (openings_spent b) R).
      - apply (B_ivk _ _ _ _ a b Ha Hb R). }
    destruct (nodup_or _ _ (fun a => i_nf_old (fst a)) (fun a => i_cmx (fst a)) (break h) (acts h) ND) as [DN|B].
    { intros a b Ha Hb NE EX.
      pose proof (new_notes_distinct L _ _ _ _ (ST a Ha) (ST b Hb) (NB' a Ha) (NB' b Hb) NE EX) as R.
      apply (B_note _ _ _ _ a _ b _ Ha Hb (openings_created a) (openings_created b) R). }
    2:{ right. exact B. }
    left.
    constructor.
    - apply Forall_forall. exact ST.
    - exact (iv_pool _ _ I).
    - rewrite (iv_pool _ _ I).
      pose proof (matched_sums _ position (fun a => pn_value (spent_note a)) (fun a => pn_value (created_note a)) spends_value (acts h)) as M.
      assert (X : zsum (map (fun a => pn_value (spent_note a)) (acts h)) <= zsum (map (fun a => pn_value (created_note a)) (acts h))); [|lia].
      apply M.
      + intros a Ha. destruct (st_path_types _ _ (ST a Ha)) as (_ & _ & P). exact (proj1 P).
      + intros a Ha. destruct (st_values _ _ (ST a Ha)) as (_ & U). exact (proj1 U).
      + intros a Ha SV. unfold spends_value in SV. apply negb_false_iff in SV. apply Z.eqb_eq in SV. exact SV.
      + intros a Ha SV. destruct (found_anywhere h lg I a Ha SV) as (a' & N & E & _). exists a'. split; [exact N|]. congruence.
      + exact ON.
    - intros h1 t h2 a E HI SV. destruct (iv_found _ _ I h1 t h2 a E HI SV) as (a' & N & R & _). exists a'. split; assumption.
    - exact ON.
    - rewrite (iv_cmxs _ _ I). exact DN.
  Qed.
End Ledger.
