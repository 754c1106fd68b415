(** Proofs for C102: in a closed group of wallets the balances add up to the pool. *)
From Coq Require Import String ZArith List Bool Lia.
From Coq Require Import Init.Byte.
From Verif Require Import Prelude Fields Curve Oracles Spec RedPallas Value Keys KeysSpec KeysFacts Note NoteSpec Tree TreeSpec Action NoteEnc
  Bundle BundleSpec Batch Builder Signing BuilderSpec SigningSpec Circuit PipelineSpec LedgerSpec WalletSpec LifeSpec BalanceSpec TotalSpec EconomySpec
  LightSpec BuildFacts SigningFacts BalanceFacts LightFacts PallasCurve PallasLaws RealOracles RealFacts.
Import ListNotations.
Open Scope Z_scope.

Section Economy.
  Context {C : Curve} {OR : @Oracles C}.
  Variable L : CurveLaws C.
  Definition recognises (f : fvk) (ad : address) : bool :=
    match fvk_scope_for_address f ad with Ret (Some _) => true | _ => false end.
  Lemma recognises_spec : forall f, fvk_ok f -> decides (recognises f) f.
  Proof using L.
    intros f K ad. destruct (scope_spec L f ad K) as (o & E & H). unfold recognises. rewrite E. destruct o as [[]|].
    - split; [intros _; exists External; exact H|reflexivity].
    - split; [intros _; exists Internal; exact (proj1 H)|reflexivity].
    - split; [discriminate|]. intros ([] & D); [destruct (proj1 H D)|destruct (proj2 H D)].
  Qed.

  Lemma one_owner_sum : forall fs ad v, Forall fvk_ok fs -> one_owner fs ad ->
    zsum (map (fun f => if recognises f ad then v else 0) fs) = v.
  Proof using L.
    intros fs ad v K (l & f & l' & -> & A & N). apply Forall_app in K as [K1 K2]. apply Forall_cons_iff in K2 as [KF K2].
    assert (Z1 : forall m, Forall fvk_ok m -> (forall g, In g m -> In g (l ++ l')) -> zsum (map (fun f => if recognises f ad then v else 0) m) = 0).
    { intros m KM I. apply zsum_map_zero. intros g G. destruct (recognises g ad) eqn:E; [|reflexivity].
      elim (N g (I g G)). apply (recognises_spec g (proj1 (Forall_forall _ _) KM g G)). exact E. }
    rewrite map_app, zsum_app. cbn [map zsum]. rewrite (proj2 (recognises_spec f KF ad) A).
    rewrite (Z1 l K1), (Z1 l' K2); [lia| |]; intros g G; apply in_app_iff; [right|left]; exact G.
  Qed.
  Lemma owners_sum : forall A (val : A -> Z) (ad : A -> address) fs (l : list A), Forall fvk_ok fs ->
    (forall x, In x l -> val x <> 0 -> one_owner fs (ad x)) ->
    zsum (map (fun f => zsum (map val (filter (fun x => recognises f (ad x)) l))) fs) = zsum (map val l).
  Proof using L.
    intros A val ad fs l K H.
    transitivity (zsum (map (fun f => zsum (map (fun x => if recognises f (ad x) then val x else 0) l)) fs)).
    - f_equal. apply map_ext. intro f. apply zsum_filter.
    - rewrite (zsum_swap _ _ (fun f x => if recognises f (ad x) then val x else 0)). f_equal. apply map_ext_in. intros x HX.
      destruct (Z.eq_dec (val x) 0) as [E|E]; [|apply (one_owner_sum _ _ _ K (H x HX E))].
      rewrite E. apply zsum_map_zero. intros f _. destruct (recognises f (ad x)); reflexivity.
  Qed.

  Context {V : Type}.
  Variables (halo2_prove : list witness -> list (list Z) -> rng -> option bytes * rng) (halo2_verify : bytes -> list (list Z) -> bool)
    (try_from : Z -> option V) (into : V -> Z).
  Notation account := (account halo2_prove halo2_verify try_from into).
  Notation economy := (economy halo2_prove halo2_verify try_from into).

  Lemma economy_account : forall fs f es lg, In f fs -> economy fs es lg -> account f es lg.
  Proof using.
    intros fs f es lg I H. induction H as [|es lg e anchor H IH MD AC IN SF]; [constructor|].
    apply (A_step _ _ _ _ f es lg e anchor IH MD AC). exact (SF f I).
  Qed.
  Lemma made_balance : forall anchor b (t : @tx C V) meta ws, gd_fallback_ok -> (forall i v, try_from i = Some v -> into v = i) ->
    made halo2_prove try_from anchor b t meta ws -> into (b_value_balance (fst t)) = spent b - sent b.
  Proof using L.
    intros anchor b t meta ws GD TI (ty & fuel & r & b0 & r' & b1 & RB & E & H & F & _).
    destruct (history_final_effects halo2_prove b0 (snd t) b1 (fst t) into H F) as (EF & _).
    apply (f_equal b_value_balance) in EF. cbn [effects b_value_balance] in EF. rewrite EF. apply TI.
    exact (proj1 (build_balance L try_from ty anchor b GD RB) fuel r b0 meta r' E).
  Qed.
  Lemma economy_pool : forall fs es lg, gd_fallback_ok -> (forall i v, try_from i = Some v -> into v = i) -> Forall fvk_ok fs ->
    economy fs es lg ->
    lg_pool lg = zsum (map (fun f => zsum (map (fun e => receipts (recognises f) (en_builder e)) es)) fs) -
                 zsum (map (fun f => zsum (map (fun e => payments (recognises f) (en_builder e)) es)) fs).
  Proof using L.
    intros fs es lg GD TI K H.
    rewrite (zsum_swap _ _ (fun f e => receipts (recognises f) (en_builder e))),
      (zsum_swap _ _ (fun f e => payments (recognises f) (en_builder e))).
    induction H as [|es lg e anchor H IH MD AC (I1 & I2) SF]; [reflexivity|].
    rewrite !map_app, !zsum_app. cbn [map zsum apply lg_pool]. rewrite IH, (made_balance _ _ _ _ _ GD TI MD).
    unfold receipts at 3, payments at 3.
    rewrite (owners_sum _ o_value o_recipient fs _ K I2).
    rewrite (owners_sum _ (fun s => n_value (s_note s)) (fun s => n_recipient (s_note s)) fs _ K I1).
    unfold spent, sent. lia.
  Qed.

  Theorem economy_total : forall fs es lg, gd_fallback_ok -> (forall i v, try_from i = Some v -> into v = i) -> Forall fvk_ok fs ->
    economy fs es lg ->
    all_balances fs (map en_tx es) = lg_pool lg \/ exists f, In f fs /\ account_surprise f es.
  Proof using L.
    intros fs es lg GD TI K H. rewrite (economy_pool fs es lg GD TI K H).
    destruct (or_all _ fs (fun f => balance f (map en_tx es) =
      zsum (map (fun e => receipts (recognises f) (en_builder e)) es) - zsum (map (fun e => payments (recognises f) (en_builder e)) es))
      (exists f, In f fs /\ account_surprise f es)) as [X|X]; [| |right; exact X].
    - intros f I. pose proof (proj1 (Forall_forall _ _) K f I) as KF.
      destruct (account_book L halo2_prove halo2_verify try_from into f (recognises f) es lg GD KF (recognises_spec f KF) (economy_account fs f es lg I H))
        as [Y|Y]; [left; exact Y|right; exists f; split; [exact I|exact Y]].
    - left. unfold all_balances. rewrite (map_ext_in _ _ fs X). clear. induction fs as [|f fs IH]; cbn [map zsum]; [reflexivity|]. lia.
  Qed.

  (** One step: what leaves the group is what the group had less. *)
  Theorem economy_step : forall fs es lg e, gd_fallback_ok -> (forall i v, try_from i = Some v -> into v = i) -> Forall fvk_ok fs ->
    economy fs es lg -> economy fs (es ++ [e]) (apply into lg (en_tx e)) ->
    all_balances fs (map en_tx (es ++ [e])) = all_balances fs (map en_tx es) - into (b_value_balance (fst (en_tx e))) \/
    exists f, In f fs /\ account_surprise f (es ++ [e]).
  Proof using L.
    intros fs es lg e GD TI K H H'.
    destruct (economy_total fs _ _ GD TI K H') as [E'|X]; [|right; exact X].
    destruct (economy_total fs _ _ GD TI K H) as [E|(f & I & X)].
    - left. rewrite E', E. reflexivity.
    - right. exists f. split; [exact I|]. apply surprise_later. exact X.
  Qed.
  (** The same for clients that download compact actions only. *)
  Theorem economy_light : forall fs es lg, gd_fallback_ok -> (forall i v, try_from i = Some v -> into v = i) -> Forall fvk_ok fs ->
    economy fs es lg ->
    zsum (map (fun f => light_balance f (compact_chain (map en_tx es))) fs) = lg_pool lg \/
    exists f, In f fs /\ (account_surprise f es \/ light_surprise f es).
  Proof using L.
    intros fs es lg GD TI K H. rewrite (economy_pool fs es lg GD TI K H).
    destruct (or_all _ fs (fun f => light_balance f (compact_chain (map en_tx es)) =
      zsum (map (fun e => receipts (recognises f) (en_builder e)) es) - zsum (map (fun e => payments (recognises f) (en_builder e)) es))
      (exists f, In f fs /\ (account_surprise f es \/ light_surprise f es))) as [X|X]; [| |right; exact X].
    - intros f I. pose proof (proj1 (Forall_forall _ _) K f I) as KF.
      destruct (light_account_book L halo2_prove halo2_verify try_from into f (recognises f) es lg GD KF (recognises_spec f KF)
                  (economy_account fs f es lg I H))
        as [Y|Y]; [left; exact Y|right; exists f; split; [exact I|exact Y]].
    - left. rewrite (map_ext_in _ _ fs X). clear. induction fs as [|f fs IH]; cbn [map zsum]; [reflexivity|]. lia.
  Qed.
End Economy.

Lemma real_economy :
  forall (R : Type) (rng_b : R -> nat -> bytes * R) (rng_i : R -> nat -> nat * R) (rng_p : R -> pallas_point * R),
  let OR := real_oracles R rng_b rng_i rng_p in
  forall (V : Type)
    (halo2_prove : list (@witness pallas) -> list (list Z) -> R -> option bytes * R) (halo2_verify : bytes -> list (list Z) -> bool)
    (try_from : Z -> option V) (into : V -> Z) (fs : list (@fvk pallas)) (es : list (entry pallas V)) (lg : ledger),
  (forall i v, try_from i = Some v -> into v = i) -> Forall (@fvk_ok pallas OR) fs ->
  @economy pallas OR V halo2_prove halo2_verify try_from into fs es lg ->
  @all_balances pallas OR V fs (map en_tx es) = lg_pool lg \/ exists f, In f fs /\ @account_surprise pallas OR V f es.
Proof.
  intros R rng_b rng_i rng_p OR V prove ver tf into fs es lg TI K H.
  destruct (real_not_id R rng_b rng_i rng_p) as (G1 & _).
  exact (@economy_total pallas OR pallas_laws V prove ver tf into fs es lg G1 TI K H).
Qed.
