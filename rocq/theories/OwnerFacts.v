(** Who an address belongs to (C87). *)
From Coq Require Import String ZArith List Bool Lia.
From Coq Require Import Init.Byte.
From Verif Require Import Prelude Fields Curve Oracles Sinsemilla SinsSpec Spec RedPallas Value Keys KeysSpec Note NoteSpec Tree Action NoteEnc NoteEncSpec
  Bundle Batch BundleSpec Builder BuilderSpec Circuit CircuitSpec PipelineSpec LedgerSpec WalletSpec
  PreludeFacts CurveFacts FieldFacts CodecFacts SinsFacts KeysFacts NoteFacts CircuitBuildFacts.
Import ListNotations.
Open Scope Z_scope.

Section Owner.
  Context {C : Curve} {OR : @Oracles C} (L : CurveLaws C).
  #[local] Opaque sins_hash_words sins_Q msg_words base_bits pmod qmod.

  Lemma even_y : forall P Q : point, P <> pt_id -> pt_y P mod 2 = 0 -> pt_y Q mod 2 = 0 -> pt_x P = pt_x Q -> P = Q.
  Proof.
    intros P Q NP EP EQ X. destruct (pt_x_inj C L _ _ X) as [E|E]; [exact E|exfalso].
    subst P. assert (NQ : Q <> pt_id) by (intro Z; subst Q; apply NP; apply (neg_id L)).
    pose proof (y_neg_parity L Q NQ) as NPAR. lia.
  Qed.

  Lemma one_opening : forall ak nk r ak' nk' r' k,
    is_base ak -> is_base nk -> is_scalar r -> is_base ak' -> is_base nk' -> is_scalar r' ->
    commit_ivk ak nk r = Some k -> commit_ivk ak' nk' r' = Some k ->
    (ak = ak' /\ nk = nk' /\ r = r') \/ ivk_relation ak nk r ak' nk' r'.
  Proof.
    intros ak nk r ak' nk' r' k A N R A' N' R' H H'. unfold commit_ivk, sins_short_commit in H, H'.
    destruct (sins_commit "z.cash:Orchard-CommitIvk" (commit_ivk_msg ak nk) r) as [Q1|] eqn:E1; [|discriminate H].
    destruct (sins_commit "z.cash:Orchard-CommitIvk" (commit_ivk_msg ak' nk') r') as [Q2|] eqn:E2; [|discriminate H'].
    cbn [option_map] in H, H'. unfold extract_p in H, H'.
    destruct (list_eq_dec bool_dec (commit_ivk_msg ak nk) (commit_ivk_msg ak' nk')) as [EM|NM];
      [destruct (Z.eq_dec r r') as [ER|NR]|].
    - left. unfold commit_ivk_msg in EM. apply app_inj_len in EM as [EA EK]; [|rewrite !base_bits_length; reflexivity].
      apply base_bits_inj in EA; [|exact A|exact A']. apply base_bits_inj in EK; [|exact N|exact N'].
      split; [exact EA|]. split; assumption.
    - right. apply (commit_collision L "z.cash:Orchard-CommitIvk" _ _ _ _ Q1 Q2); try assumption.
      + rewrite EM. reflexivity.
      + unfold commit_ivk_msg. rewrite !app_length, !base_bits_length. lia.
      + intro X. apply NR. assert (Y : r mod qmod = r' mod qmod) by congruence. unfold is_scalar in R, R'.
        rewrite (Z.mod_small r), (Z.mod_small r') in Y by assumption. exact Y.
      + congruence.
    - right. apply (commit_collision L "z.cash:Orchard-CommitIvk" _ _ _ _ Q1 Q2); try assumption.
      + unfold commit_ivk_msg. rewrite !app_length, !base_bits_length. reflexivity.
      + unfold commit_ivk_msg. rewrite !app_length, !base_bits_length. lia.
      + intro X'. apply NM. congruence.
      + congruence.
  Qed.

  Theorem one_owner : forall f s f' s' a, gd_fallback_ok -> fvk_ok f -> fvk_ok f' -> derives f s a -> derives f' s' a ->
    exists r r', fvk_rivk_scope f s = Ret r /\ fvk_rivk_scope f' s' = Ret r' /\
      ((fvk_ak f = fvk_ak f' /\ fvk_nk f = fvk_nk f' /\ r = r') \/
       ivk_relation (pt_x (fvk_ak f)) (fvk_nk f) r (pt_x (fvk_ak f')) (fvk_nk f') r').
  Proof.
    intros f s f' s' a GD F F' D D'.
    destruct (owner_ivk L f s a F D) as (r & k & HR & SR & HK & PK). destruct (owner_ivk L f' s' a F' D') as (r' & k' & HR' & SR' & HK' & PK').
    exists r, r'. split; [exact HR|]. split; [exact HR'|].
    assert (EK : k = k').
    { pose proof (commit_ivk_range L _ _ _ _ HK) as B1. pose proof (commit_ivk_range L _ _ _ _ HK') as B2.
      rewrite PK in PK'. apply (mul_inj L) in PK'; [|apply (diversify_hash_nonid L); exact GD].
      pose proof pmod_lt_qmod. unfold is_base in B1, B2. rewrite !Z.mod_small in PK' by lia. exact PK'. }
    subst k'.
    destruct (one_opening _ _ _ _ _ _ _ (x_range L _) (fo_nk _ F) SR (x_range L _) (fo_nk _ F') SR' HK HK') as [(E1 & E2 & E3)|X]; [left|right; exact X].
    split; [|split; assumption]. apply even_y; [apply (fo_ak _ F)|apply (fo_sign _ F)|apply (fo_sign _ F')|exact E1].
  Qed.

  Theorem one_external_owner : forall f f' a, gd_fallback_ok -> fvk_ok f -> fvk_ok f' ->
    derives f External a -> derives f' External a ->
    f = f' \/ ivk_relation (pt_x (fvk_ak f)) (fvk_nk f) (fvk_rivk f) (pt_x (fvk_ak f')) (fvk_nk f') (fvk_rivk f').
  Proof.
    intros f f' a GD F F' D D'. destruct (one_owner f External f' External a GD F F' D D') as (r & r' & R & R' & X).
    cbn [fvk_rivk_scope] in R, R'. assert (r = fvk_rivk f) by congruence. assert (r' = fvk_rivk f') by congruence. subst r r'.
    destruct X as [(E1 & E2 & E3)|X]; [left|right; exact X]. clear -E1 E2 E3. destruct f as [a1 n1 r1], f' as [a2 n2 r2]. cbn in E1, E2, E3. congruence.
  Qed.

  Theorem scopes_separate : forall f a, gd_fallback_ok -> fvk_ok f -> derives f External a -> derives f Internal a ->
    exists r, fvk_rivk_scope f Internal = Ret r /\
      (r = fvk_rivk f \/ ivk_relation (pt_x (fvk_ak f)) (fvk_nk f) (fvk_rivk f) (pt_x (fvk_ak f)) (fvk_nk f) r).
  Proof.
    intros f a GD F D D'. destruct (one_owner f External f Internal a GD F F D D') as (r & r' & R & R' & X).
    cbn [fvk_rivk_scope] in R. assert (r = fvk_rivk f) by congruence. subst r. exists r'. split; [exact R'|].
    destruct X as [(_ & _ & X)|X]; [left; symmetry; exact X|right; exact X].
  Qed.

  Theorem one_spender : forall sk sk' f f' s s' a, gd_fallback_ok -> basepoint SpendAuth <> pt_id ->
    fvk_from_sk sk = Ret f -> fvk_from_sk sk' = Ret f' -> fvk_ok f -> fvk_ok f' ->
    derives f s a -> derives f' s' a ->
    ask_from_sk sk = ask_from_sk sk' \/
    exists r r', fvk_rivk_scope f s = Ret r /\ fvk_rivk_scope f' s' = Ret r' /\
      ivk_relation (pt_x (fvk_ak f)) (fvk_nk f) r (pt_x (fvk_ak f')) (fvk_nk f') r'.
  Proof.
    intros sk sk' f f' s s' a GD G K K' F F' D D'.
    destruct (one_owner f s f' s' a GD F F' D D') as (r & r' & R & R' & X).
    destruct X as [(E1 & _)|X]; [left|right; exists r, r'; split; [exact R|split; [exact R'|exact X]]].
    destruct (fvk_from_sk_ak _ _ K) as (x & A & B). destruct (fvk_from_sk_ak _ _ K') as (x' & A' & B').
    destruct (ask_from_sk_inv L _ _ A) as (_ & S & _). destruct (ask_from_sk_inv L _ _ A') as (_ & S' & _).
    rewrite B, B' in E1. apply (mul_inj L) in E1; [|exact G]. unfold is_scalar in S, S'.
    rewrite (Z.mod_small x), (Z.mod_small x') in E1 by assumption. rewrite A, A', E1. reflexivity.
  Qed.
End Owner.
