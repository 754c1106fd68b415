(** Batched trial decryption is trial decryption of each output with each key (C85). *)
From Coq Require Import String ZArith List Bool Lia.
From Coq Require Import Init.Byte.
From Verif Require Import Prelude Fields Curve Oracles Keys Note Action NoteEnc Bundle BatchDec
  KeysSpec NoteSpec NoteEncSpec BundleSpec BatchDecSpec PreludeFacts CodecFacts NoteEncFacts.
Import ListNotations.
Open Scope nat_scope.

Section Facts.
  Context {C : Curve} {OR : @Oracles C}.
  #[local] Opaque epk_agree kdf_orchard epk_from_bytes.

  Lemma chunks_flat : forall A B (f : A -> list B) k l n, 0 < k -> (forall a, In a l -> length (f a) = k) ->
    length l <= n -> chunks n k (flat_map f l) = map f l.
  Proof.
    intros A B f k. induction l as [|a l IH]; intros n K F N; [destruct n; reflexivity|].
    cbn [flat_map map length] in *. destruct n as [|n]; [lia|].
    pose proof (F a (or_introl eq_refl)) as FA.
    destruct (f a ++ flat_map f l) as [|y r] eqn:E; [destruct (f a); [cbn in FA; lia|discriminate E]|].
    cbn [chunks]. rewrite <- E. f_equal.
    - rewrite <- FA at 1. rewrite firstn_app, Nat.sub_diag, firstn_all. cbn [firstn]. apply app_nil_r.
    - rewrite <- FA at 2. rewrite skipn_app, Nat.sub_diag, skipn_all. cbn [skipn app]. apply IH; [exact K|intros; apply F; right; assumption|lia].
  Qed.

  Lemma flat_map_length_ge : forall A B (f : A -> list B) k l, 0 < k -> (forall a, In a l -> length (f a) = k) -> length l <= length (flat_map f l).
  Proof.
    intros A B f k. induction l as [|a l IH]; intros K F; cbn [flat_map length]; [lia|]. rewrite app_length.
    pose proof (F a (or_introl eq_refl)). pose proof (IH K (fun x H => F x (or_intror H))). lia.
  Qed.

  Lemma map_flat_map : forall A B D (g : B -> D) (f : A -> list B) l, map g (flat_map f l) = flat_map (fun a => map g (f a)) l.
  Proof. intros. induction l as [|a l IH]; [reflexivity|]. cbn [flat_map]. rewrite map_app, IH. reflexivity. Qed.

  (** One output and one key, as the single-output functions do it. *)
  Definition single {R} (inner : Z -> Z -> bytes -> bytes -> bytes -> bytes -> outcome (option R)) (k : ivk) (o : batch_output)
    : outcome (option R) :=
    match epk_from_bytes (bo_epk o) with
    | None => Ret None
    | Some epk => inner (bo_rho o) (ivk_ivk k) (bo_epk o) (bo_cmx o) (bo_enc o) (dec_key (ivk_ivk k) epk (bo_epk o))
    end.

  Lemma next_hit_spec : forall R (decrypt : ivk -> bytes -> outcome (option R)) (keyf : ivk -> option bytes) (try : ivk -> outcome (option R)),
    (forall k, try k = match keyf k with Some key => decrypt k key | None => Ret None end) ->
    forall ivks i, (forall k, In k ivks -> exists r, try k = Ret r) ->
    exists e, next_hit decrypt (List.combine (map keyf ivks) (List.combine (seq i (length ivks)) ivks)) = Ret e /\
      match e with
      | Some (x, j) => i <= j /\ (exists k, nth_error ivks (j - i) = Some k /\ try k = Ret (Some x)) /\
                       (forall j' k, j' < j - i -> nth_error ivks j' = Some k -> try k = Ret None)
      | None => forall k, In k ivks -> try k = Ret None
      end.
  Proof.
    intros R decrypt keyf try T. induction ivks as [|k ivks IH]; intros i D.
    - exists None. split; [reflexivity|]. intros k [].
    - destruct (IH (S i) (fun x H => D x (or_intror H))) as (e & E & S0).
      destruct (D k (or_introl eq_refl)) as [r HR]. pose proof (T k) as TK.
      assert (LATER : try k = Ret None -> match e with
        | Some (x, j) => i <= j /\ (exists k0, nth_error (k :: ivks) (j - i) = Some k0 /\ try k0 = Ret (Some x)) /\
                       (forall j' k0, j' < j - i -> nth_error (k :: ivks) j' = Some k0 -> try k0 = Ret None)
        | None => forall k0, In k0 (k :: ivks) -> try k0 = Ret None
        end).
      { intro NK. destruct e as [[x j]|].
        - destruct S0 as (G1 & (k0 & G2 & G3) & G4). split; [lia|]. split.
          + exists k0. split; [|exact G3]. replace (j - i) with (S (j - S i)) by lia. exact G2.
          + intros [|j'] k1 LJ N1; cbn [nth_error] in N1; [injection N1 as <-; exact NK|]. apply (G4 j' k1); [lia|exact N1].
        - intros k0 [<-|H]; [exact NK|exact (S0 k0 H)]. }
      cbn [map length seq List.combine]. destruct (keyf k) as [key|] eqn:EK; cbn [next_hit].
      + rewrite TK in HR. rewrite HR. cbn [obind]. destruct r as [x|].
        * exists (Some (x, i)). split; [reflexivity|]. split; [lia|]. rewrite Nat.sub_diag. split.
          -- exists k. split; [reflexivity|]. rewrite TK. exact HR.
          -- intros j' k1 LJ. lia.
        * exists e. split; [exact E|]. apply LATER. rewrite TK. exact HR.
      + exists e. split; [exact E|]. apply LATER. exact TK.
  Qed.

  Lemma batch_is_single : forall R (inner : Z -> Z -> bytes -> bytes -> bytes -> bytes -> outcome (option R)) ivks outputs,
    (forall k o, In k ivks -> In o outputs -> exists r, single inner k o = Ret r) ->
    exists res, batch_note_decryption inner ivks outputs = Ret res /\ batch_finds (single inner) ivks outputs res.
  Proof.
    intros R inner ivks outputs D. unfold batch_note_decryption. destruct ivks as [|k0 ivks0] eqn:EI.
    - exists (map (fun _ => None) outputs). split; [reflexivity|]. clear. induction outputs; constructor; [intros k []|assumption].
    - rewrite <- EI in *. assert (K : 0 < length ivks) by (rewrite EI; cbn [length]; lia). clear EI.
      set (keyf := fun (o : batch_output) (k : ivk) => option_map (fun epk => dec_key (ivk_ivk k) epk (bo_epk o)) (epk_from_bytes (bo_epk o))).
      assert (KEYS : batch_kdf (flat_map (fun e => map (fun k => (option_map (fun epk => epk_agree epk (ivk_ivk k)) (fst e), snd e)) ivks)
                                 (batch_epk (map bo_epk outputs))) = flat_map (fun o => map (keyf o) ivks) outputs).
      { rewrite batch_kdf_pointwise, map_flat_map. unfold batch_epk. rewrite map_map.
        rewrite flat_map_concat_map, map_map, <- flat_map_concat_map. apply flat_map_ext. intro o. rewrite map_map. apply map_ext. intro k.
        cbn [fst snd]. unfold keyf, dec_key. destruct (epk_from_bytes (bo_epk o)); reflexivity. }
      cbv zeta. rewrite KEYS.
      rewrite (chunks_flat _ _ (fun o => map (keyf o) ivks) (length ivks) outputs);
        [|exact K|intros; apply map_length|apply (flat_map_length_ge _ _ _ (length ivks)); [exact K|intros; apply map_length]].
      clear KEYS. unfold batch_epk. rewrite map_map.
      induction outputs as [|o outputs IH]; [exists []; split; [reflexivity|constructor]|].
      destruct IH as (res & E & F); [intros; apply D; [assumption|right; assumption]|].
      destruct (next_hit_spec R (fun k key => inner (bo_rho o) (ivk_ivk k) (bo_epk o) (bo_cmx o) (bo_enc o) key) (keyf o) (fun k => single inner k o)) with (ivks := ivks) (i := 0)
        as (e & EE & S0).
      + intro k. unfold single, keyf. destruct (epk_from_bytes (bo_epk o)); reflexivity.
      + intros k IK. apply D; [exact IK|left; reflexivity].
      + exists (e :: res). cbn [map List.combine omap snd fst]. rewrite EE. cbn [obind]. rewrite E. cbn [obind]. split; [reflexivity|].
        constructor; [|exact F]. unfold entry_for. destruct e as [[x j]|]; [|exact S0].
        destruct S0 as (_ & S1 & S2). rewrite Nat.sub_0_r in S1, S2. split; [exact S1|exact S2].
  Qed.

  Lemma finds_map : forall K O O' R (try : K -> O -> outcome (option R)) (try' : K -> O' -> outcome (option R)) (g : O' -> O) keys outs res,
    (forall k o, try' k o = try k (g o)) -> batch_finds try keys (map g outs) res -> batch_finds try' keys outs res.
  Proof.
    intros K O O' R try try' g keys outs. induction outs as [|o outs IH]; intros res T H; inversion H; subst; constructor.
    - unfold entry_for in *. destruct y as [[x i]|].
      + destruct H2 as [(k & N & E) Z]. split; [exists k; split; [exact N|rewrite T; exact E]|]. intros j k' L N'. rewrite T. exact (Z j k' L N').
      + intros k I. rewrite T. exact (H2 k I).
    - apply IH; assumption.
  Qed.

  Variable L : CurveLaws C.
  Lemma batch_full : forall A ivks (acts : list (action A)), gd_fallback_ok -> Forall ivk_ok ivks -> Forall action_ok acts ->
    exists res, batch_try_note_decryption ivks (map output_of_action acts) = Ret res /\ batch_finds try_note_decryption ivks acts res.
  Proof.
    intros A ivks acts GD KO AO. unfold batch_try_note_decryption.
    destruct (batch_is_single _ try_note_decryption_inner ivks (map output_of_action acts)) as (res & E & F).
    - intros k o IK IO. apply in_map_iff in IO as (a & <- & IA). rewrite Forall_forall in KO, AO. destruct (AO a IA) as [HN HX HC].
      destruct (full_sound L A k a GD (KO k IK) HC HN HX) as (r & E & _). exists r. exact E.
    - exists res. split; [exact E|]. apply (finds_map _ _ _ _ (single try_note_decryption_inner) _ output_of_action); [reflexivity|exact F].
  Qed.
  Lemma batch_compact : forall ivks (acts : list compact_action), gd_fallback_ok -> Forall ivk_ok ivks ->
    Forall (fun c => is_base (c_nf c) /\ is_base (c_cmx c) /\ length (c_enc c) = 52) acts ->
    exists res, batch_try_compact_note_decryption ivks (map output_of_compact acts) = Ret res /\
      batch_finds try_compact_note_decryption ivks acts res.
  Proof.
    intros ivks acts GD KO AO. unfold batch_try_compact_note_decryption.
    destruct (batch_is_single _ try_compact_decryption_inner ivks (map output_of_compact acts)) as (res & E & F).
    - intros k o IK IO. apply in_map_iff in IO as (a & <- & IA). rewrite Forall_forall in KO, AO. destruct (AO a IA) as (HN & HX & HC).
      destruct (compact_sound L k a GD (KO k IK) HC HN HX) as (r & E & _). exists r. exact E.
    - exists res. split; [exact E|]. apply (finds_map _ _ _ _ (single try_compact_decryption_inner) _ output_of_compact); [reflexivity|exact F].
  Qed.
End Facts.
