(** More proofs for C101: scanning, and the same coins as a full wallet. *)
From Coq Require Import String ZArith List Bool Lia.
From Coq Require Import Init.Byte.
From Verif Require Import Prelude PreludeFacts Fields Curve CurveFacts Oracles Spec Sinsemilla SinsSpec RedPallas Value Keys KeysSpec Note NoteSpec Tree TreeSpec Action
  NoteEnc NoteEncSpec Bundle BundleSpec Batch Builder Signing BuilderSpec SigningSpec Circuit CircuitSpec PipelineSpec LedgerSpec LedgerFacts
  WalletSpec WalletFacts BackedSpec LifeSpec BalanceSpec BalanceFacts PurseSpec PurseFacts LightSpec LightFacts SafeFacts ScanSpec ScanFacts LightPurseSpec LightPurseFacts.
Import ListNotations.
Open Scope Z_scope.

Lemma indexed_map : forall A B (g : A -> B) l k,
  List.combine (seq k (length (map g l))) (map g l) = map (fun x => (fst x, g (snd x))) (List.combine (seq k (length l)) l).
Proof.
  intros A B g l. induction l as [|x l IH]; intro k; [reflexivity|]. cbn [map length seq List.combine fst snd]. rewrite IH. reflexivity.
Qed.
Lemma flat_map_map : forall A B D (g : A -> B) (f : B -> list D) l, flat_map f (map g l) = flat_map (fun x => f (g x)) l.
Proof. intros A B D g f l. induction l as [|x l IH]; [reflexivity|]. cbn [map flat_map]. rewrite IH. reflexivity. Qed.
Lemma flat_map_ext_in : forall A B (f g : A -> list B) l, (forall x, In x l -> f x = g x) -> flat_map f l = flat_map g l.
Proof.
  intros A B f g l. induction l as [|x l IH]; intro H; [reflexivity|]. cbn [flat_map]. rewrite (H x (or_introl eq_refl)), IH; [reflexivity|].
  intros y Hy. apply H. right. exact Hy.
Qed.

#[local] Opaque opens opens_compact note_nullifier try_note_decryption try_compact_note_decryption tree_root leaves_of node commitment diversify_hash.
Section LightScan.
  Context {C : Curve} {OR : @Oracles C} {V : Type}.
  Notation tx := (@tx C V).

  Lemma light_later : forall f N N' (l : list (nat * compact_action)),
    flat_map (light_coin f (N ++ N')) l = filter (fun c => negb (spent_in f N' (snd c))) (flat_map (light_coin f N) l).
  Proof.
    intros f N N' l. induction l as [|[p a] l IH]; [reflexivity|]. cbn [flat_map]. rewrite filter_app, <- IH. f_equal.
    unfold light_coin. cbn [fst snd]. destruct (opens_compact f a) as [n|]; [|reflexivity]. rewrite spent_app.
    destruct (spent_in f N n); [reflexivity|]. cbn [orb filter snd]. destruct (spent_in f N' n); reflexivity.
  Qed.
  Lemma light_snoc : forall f l a,
    light_coins f (l ++ [a]) = filter (fun c => negb (spent_in f [c_nf a] (snd c))) (light_coins f l) ++ light_coin f (map c_nf l ++ [c_nf a]) (length l, a).
  Proof.
    intros f l a. unfold light_coins. rewrite indexed_app, flat_map_app, map_app. cbn [map]. rewrite light_later. f_equal.
    cbn [length seq List.combine flat_map Nat.add]. apply app_nil_r.
  Qed.
  Lemma light_next : forall f l w, wl_next (light_scan f w l) = (wl_next w + length l)%nat.
  Proof.
    intros f l. unfold light_scan. induction l as [|a l IH]; intro w; cbn [fold_left length]; [lia|]. rewrite IH. cbn [light_scan_action wl_next]. lia.
  Qed.
  Lemma light_scan_finds : forall f l, light_scan f wallet_new l = mk_wallet (length l) (light_coins f l) \/ light_too_late f l.
  Proof.
    intros f l. induction l as [|a l IH] using rev_ind; [left; reflexivity|]. destruct IH as [IH|(i & b & n & nf & NB & O & N & I)].
    - unfold light_scan in *. rewrite fold_left_app, IH. cbn [fold_left]. unfold light_scan_action. cbn [wl_next wl_notes].
      rewrite light_snoc, app_length, Nat.add_1_r. unfold light_coin. cbn [fst snd]. destruct (opens_compact f a) as [n|] eqn:E; [|left; reflexivity].
      destruct (spent_in f (map c_nf l ++ [c_nf a]) n) eqn:S; [right|left; reflexivity].
      destruct (spent_somewhere f n _ S) as (nf & EN & I). exists (length l), a, n, nf.
      split; [rewrite nth_error_app2, Nat.sub_diag by apply Nat.le_refl; reflexivity|]. split; [exact E|]. split; [exact EN|].
      rewrite firstn_all2 by (rewrite app_length; cbn [length]; lia). rewrite map_app. exact I.
    - right. assert (LI : (i < length l)%nat) by (apply nth_error_Some; congruence). exists i, b, n, nf.
      rewrite nth_error_app1 by exact LI. rewrite firstn_short by lia. split; [exact NB|]. split; [exact O|]. split; [exact N|exact I].
  Qed.
  Lemma light_resumes : forall f w l l', light_scan f (light_scan f w l) l' = light_scan f w (l ++ l').
  Proof. intros f w l l'. unfold light_scan. symmetry. apply fold_left_app. Qed.

  Variable L : CurveLaws C.
  Variables (halo2_prove : list witness -> list (list Z) -> rng -> option bytes * rng) (try_from : Z -> option V) (into : V -> Z).
  Lemma light_same_coins : forall f es, gd_fallback_ok -> fvk_ok f -> Forall (entry_made halo2_prove try_from) es ->
    light_coins f (compact_chain (map en_tx es)) = coins f (map en_tx es) \/ light_surprise f es.
  Proof.
    intros f es GD KF H. destruct (light_agrees L halo2_prove try_from into f es GD KF H) as [X|X]; [left|right; exact X].
    unfold light_coins. rewrite compact_nfs. unfold compact_chain, coins. rewrite indexed_map, flat_map_map. apply flat_map_ext_in.
    intros [p a] HI. apply in_indexed in HI as [_ HI]. unfold light_coin, coin. cbn [fst snd]. rewrite (X a (nth_error_In _ _ HI)). reflexivity.
  Qed.
End LightScan.
