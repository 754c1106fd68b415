(** The two wallets of ToyBalance: 1000 enter, 600 stay, 150 are paid to the second wallet, 250 leave. *)
From Coq Require Import String ZArith List Bool Lia.
From Coq Require Import Init.Byte.
From Verif Require Import Prelude Fields Curve Oracles Spec RedPallas Value Keys KeysSpec Note NoteSpec Tree TreeSpec Action NoteEnc
  Bundle BundleSpec Batch Builder Signing BuilderSpec SigningSpec Circuit PipelineSpec LedgerSpec WalletSpec LifeSpec BalanceSpec TotalSpec EconomySpec
  EconomyFacts Toy ToyFacts ToyKeys ToyBuilder ToyTwo ToySigning ToyPipeline ToyBalance.
Import ListNotations.
Open Scope Z_scope.

Lemma recognises_mine : forall (C : Curve) (OR : @Oracles C) (f : @fvk C), recognises f = mine_of f.
Proof. intros C OR f. unfold recognises, mine_of. reflexivity. Qed.
Section Generic.
  Context {C : Curve} {OR : @Oracles C} {V : Type}.
  Variables (halo2_prove : list witness -> list (list Z) -> rng -> option bytes * rng) (halo2_verify : bytes -> list (list Z) -> bool)
    (try_from : Z -> option V) (into : V -> Z).
  Lemma account_economy : forall f fs es lg, account halo2_prove halo2_verify try_from into f es lg ->
    Forall (fun e => inside fs (en_builder e) /\
      forall g s, In g fs -> In s (bl_spends (en_builder e)) -> addressed g (n_recipient (s_note s)) -> n_value (s_note s) <> 0 -> g = f) es ->
    economy halo2_prove halo2_verify try_from into fs es lg.
  Proof using.
    intros f fs es lg H. induction H as [|es lg e anchor H IH MD AC SF]; intro F; [constructor|].
    apply Forall_app in F as [F1 F2]. apply Forall_cons_iff in F2 as [[IN O] _].
    apply (E_step _ _ _ _ fs es lg e anchor (IH F1) MD AC IN).
    intros g G s HI A NZ. assert (g = f) by exact (O g s G HI A NZ). subst g. exact (SF s HI A NZ).
  Qed.
  Lemma two_pool : forall (L : CurveLaws C) f g es lg r1 r2 p1 p2, gd_fallback_ok -> (forall i v, try_from i = Some v -> into v = i) ->
    Forall fvk_ok [f; g] -> economy halo2_prove halo2_verify try_from into [f; g] es lg ->
    map (fun e => receipts (mine_of f) (en_builder e)) es = r1 -> map (fun e => receipts (mine_of g) (en_builder e)) es = r2 ->
    map (fun e => payments (mine_of f) (en_builder e)) es = p1 -> map (fun e => payments (mine_of g) (en_builder e)) es = p2 ->
    lg_pool lg = (zsum r1 + (zsum r2 + 0)) - (zsum p1 + (zsum p2 + 0)).
  Proof using.
    intros L f g es lg r1 r2 p1 p2 GD TI K E R1 R2 P1 P2. subst r1 r2 p1 p2.
    pose proof (economy_pool L halo2_prove halo2_verify try_from into [f; g] es lg GD TI K E) as P. cbn [map zsum] in P.
    rewrite (recognises_mine C OR f), (recognises_mine C OR g) in P. exact P.
  Qed.
End Generic.

Lemma owners_checked :
  mine_of toy_fvk my_addr && negb (mine_of toy_fvk my_addr2) && negb (mine_of toy_fvk2 my_addr) && mine_of toy_fvk2 my_addr2 = true.
Proof. vm_compute. reflexivity. Qed.
#[local] Opaque toy_fvk toy_fvk2 my_addr my_addr2 mine_of addressed.
Lemma owners_split : forall a b c d, a && negb b && negb c && d = true -> a = true /\ b = false /\ c = false /\ d = true.
Proof. intros [] [] [] []; cbn [andb negb]; intro H; try discriminate H. repeat split. Qed.
Lemma toy_owners : mine_of toy_fvk my_addr = true /\ mine_of toy_fvk my_addr2 = false /\ mine_of toy_fvk2 my_addr = false /\ mine_of toy_fvk2 my_addr2 = true.
Proof. exact (owners_split _ _ _ _ owners_checked). Qed.
Lemma not_mine : forall f ad, fvk_ok f -> mine_of f ad = false -> ~ addressed f ad.
Proof. intros f ad K E A. apply (mine_decides toy_laws f K) in A. congruence. Qed.
Lemma owner_1 : one_owner [toy_fvk; toy_fvk2] my_addr.
Proof.
  destruct toy_owners as (H1 & _ & H3 & _). exists [], toy_fvk, [toy_fvk2]. split; [reflexivity|].
  split; [apply (mine_decides toy_laws toy_fvk toy_fvk_ok); exact H1|]. intros g [G|[]]. subst g. exact (not_mine toy_fvk2 my_addr toy_fvk2_ok H3).
Qed.
Lemma owner_2 : one_owner [toy_fvk; toy_fvk2] my_addr2.
Proof.
  destruct toy_owners as (_ & H2 & _ & H4). exists [toy_fvk], toy_fvk2, []. split; [reflexivity|].
  split; [apply (mine_decides toy_laws toy_fvk2 toy_fvk2_ok); exact H4|]. intros g [G|[]]. subst g. exact (not_mine toy_fvk my_addr2 toy_fvk_ok H2).
Qed.
Lemma toy_economy : exists (es : list (entry toy_curve Z)) lg,
  economy toy_prover toy_verifier (fun i : Z => Some i) (fun i => i) [toy_fvk; toy_fvk2] es lg /\ length es = 2%nat /\
  map (fun e => receipts (mine_of toy_fvk2) (en_builder e)) es = [0; 150] /\
  balance toy_fvk (map en_tx es) = 600 /\ lg_pool lg = 750.
Proof.
  destruct toy_account_sent as (es & lg & A & LE & D & R1 & P1 & B & R2 & P2 & F). exists es, lg.
  assert (E : economy toy_prover toy_verifier (fun i : Z => Some i) (fun i => i) [toy_fvk; toy_fvk2] es lg).
  { apply (account_economy _ _ _ _ toy_fvk _ es lg A). apply Forall_forall. intros e HE.
    destruct (proj1 (Forall_forall _ _) F e HE) as [FS FO]. split.
    - split.
      + intros s HI NZ. destruct (FS s HI) as [X|X]; [contradiction|]. rewrite X. exact owner_1.
      + intros o HI _. destruct (FO o HI) as [X|X]; rewrite X; [exact owner_1|exact owner_2].
    - intros g s [G|[G|[]]] HI AD NZ; [symmetry; exact G|]. subst g. exfalso. destruct (FS s HI) as [X|X]; [contradiction|].
      rewrite X in AD. destruct toy_owners as (_ & _ & H3 & _). exact (not_mine toy_fvk2 my_addr toy_fvk2_ok H3 AD). }
  split; [exact E|]. split; [exact LE|]. split; [exact R2|]. split; [exact B|].
  assert (K : Forall fvk_ok [toy_fvk; toy_fvk2]) by (constructor; [exact toy_fvk_ok|constructor; [exact toy_fvk2_ok|constructor]]).
  assert (TI : forall i v : Z, Some i = Some v -> v = i) by (intros i v X; congruence).
  rewrite (two_pool _ _ _ _ toy_laws _ _ _ _ _ _ _ _ toy_gd TI K E R1 R2 P1 P2). reflexivity.
Qed.
