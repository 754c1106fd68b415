(** Small specification for what an incoming viewing key shows of the chain (C103). *)
From Coq Require Import String ZArith List Bool.
From Coq Require Import Init.Byte.
From Verif Require Import Prelude Fields Curve Oracles Spec Sinsemilla SinsSpec RedPallas Value Keys KeysSpec Note NoteSpec Tree TreeSpec Action NoteEnc
  NoteEncSpec Bundle Builder Circuit LedgerSpec BackedSpec SentSpec.
Import ListNotations.
Open Scope Z_scope.

Section Spec.
  Context {C : Curve} {OR : @Oracles C}.

  (** The payments of value that [k] reads in these actions. *)
  Definition read_payment {A} (k : ivk) (a : action A) : list payment :=
    match try_note_decryption k a with
    | Ret (Some (n, to, memo)) => if n_value n =? 0 then [] else [(to, n_value n, memo)]
    | _ => []
    end.
  Definition received {A} (k : ivk) (as_ : list (action A)) : list payment := flat_map (read_payment k) as_.

  (** The same for a client that has only the compact actions, and so no memo. *)
  Definition read_light (k : ivk) (c : compact_action) : list (address * Z) :=
    match try_compact_note_decryption k c with
    | Ret (Some (n, to)) => if n_value n =? 0 then [] else [(to, n_value n)]
    | _ => []
    end.
  Definition light_received (k : ivk) (cs : list compact_action) : list (address * Z) := flat_map (read_light k) cs.

  (** The payments of value asked for to addresses of [k]: those that [k] itself derives for their diversifier. *)
  Definition for_key (k : ivk) (o : output_info) : bool :=
    address_eqb (ivk_address k (ad_d (o_recipient o))) (o_recipient o) && negb (o_value o =? 0).
  Definition owed (k : ivk) (b : builder) : list payment := map payment_of (filter (for_key k) (bl_outputs b)).

  (** The key reads another note than the one the builder put there: two openings of one note commitment. *)
  Definition two_readings {A} (k : ivk) (as_ : list (action A)) (ws : list witness) : Prop :=
    exists i a w n to memo, nth_error as_ i = Some a /\ nth_error ws i = Some w /\ try_note_decryption k a = Ret (Some (n, to, memo)) /\
      two_openings (sins_Q "z.cash:Orchard-NoteCommit-M") (commit_R "z.cash:Orchard-NoteCommit") (own_opening n)
        (note_opening (mk_plain (w_g_d_new w) (w_pk_d_new w) (w_v_new w) (a_nf a) (w_psi_new w)) (w_rcm_new w)).
  Definition two_light_readings {A} (k : ivk) (as_ : list (action A)) (ws : list witness) : Prop :=
    exists i a w n to, nth_error as_ i = Some a /\ nth_error ws i = Some w /\ try_compact_note_decryption k (compact_of_action a) = Ret (Some (n, to)) /\
      two_openings (sins_Q "z.cash:Orchard-NoteCommit-M") (commit_R "z.cash:Orchard-NoteCommit") (own_opening n)
        (note_opening (mk_plain (w_g_d_new w) (w_pk_d_new w) (w_v_new w) (a_nf a) (w_psi_new w)) (w_rcm_new w)).
End Spec.
