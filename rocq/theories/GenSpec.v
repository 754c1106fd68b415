(** The points the crate derives by hashing to the curve (C68). *)
From Coq Require Import String ZArith List Bool.
From Coq Require Import Init.Byte.
From Verif Require Import Prelude Fields Curve Oracles RedPallas Sinsemilla Value Keys Note.
Import ListNotations.
Open Scope Z_scope.

Inductive generator :=
| Sinsemilla_S (word : Z) | Q_NoteCommit | Q_CommitIvk | Q_MerkleCRH | R_NoteCommit | R_CommitIvk
| Nullifier_K | SpendAuth_G | Value_V | Value_R | Diversified (d : bytes).

Definition generator_ok (g : generator) : Prop :=
  match g with
  | Sinsemilla_S w => 0 <= w < 2 ^ 10
  | Diversified d => length d = 11%nat
  | _ => True
  end.

(** The domain and message the crate hashes for it. *)
Definition domain_of (g : generator) : string :=
  match g with
  | Sinsemilla_S _ => "z.cash:SinsemillaS"
  | Q_NoteCommit | Q_CommitIvk | Q_MerkleCRH => "z.cash:SinsemillaQ"
  | R_NoteCommit => "z.cash:Orchard-NoteCommit-r"
  | R_CommitIvk => "z.cash:Orchard-CommitIvk-r"
  | Nullifier_K | SpendAuth_G => "z.cash:Orchard"
  | Value_V | Value_R => "z.cash:Orchard-cv"
  | Diversified _ => "z.cash:Orchard-gd"
  end.
Definition message_of (g : generator) : bytes :=
  match g with
  | Sinsemilla_S w => le_bytes 4 w
  | Q_NoteCommit => bytes_of_string "z.cash:Orchard-NoteCommit-M"
  | Q_CommitIvk => bytes_of_string "z.cash:Orchard-CommitIvk-M"
  | Q_MerkleCRH => bytes_of_string "z.cash:Orchard-MerkleCRH"
  | R_NoteCommit | R_CommitIvk => []
  | Nullifier_K => bytes_of_string "K"
  | SpendAuth_G => bytes_of_string "G"
  | Value_V => bytes_of_string "v"
  | Value_R => bytes_of_string "r"
  | Diversified d => d
  end.

(** A diversifier whose hash is the identity is replaced by the empty message. *)
Definition inputs (g : generator) : list (string * bytes) :=
  (domain_of g, message_of g) :: match g with Diversified _ => [(domain_of g, [])] | _ => [] end.

Section Spec.
  Context {C : Curve} {OR : @Oracles C}.

  (** The point as the rest of the model computes it. *)
  Definition generator_point (g : generator) : point :=
    match g with
    | Sinsemilla_S w => sins_S w
    | Q_NoteCommit => sins_Q "z.cash:Orchard-NoteCommit-M"
    | Q_CommitIvk => sins_Q "z.cash:Orchard-CommitIvk-M"
    | Q_MerkleCRH => sins_Q "z.cash:Orchard-MerkleCRH"
    | R_NoteCommit => commit_R "z.cash:Orchard-NoteCommit"
    | R_CommitIvk => commit_R "z.cash:Orchard-CommitIvk"
    | Nullifier_K => nullifier_K
    | SpendAuth_G => basepoint SpendAuth
    | Value_V => value_base_V
    | Value_R => value_base_R
    | Diversified d => diversify_hash d
    end.

  (** Two different inputs, one of each generator, with the same hash. *)
  Definition hash_collision (g g' : generator) : Prop :=
    exists i i', In i (inputs g) /\ In i' (inputs g') /\ i <> i' /\
      hash_to_curve (fst i) (snd i) = hash_to_curve (fst i') (snd i').
End Spec.
