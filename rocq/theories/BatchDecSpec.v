(** What a batched trial decryption must return (C85). *)
From Coq Require Import List.
From Verif Require Import Prelude.
Import ListNotations.

(** One entry per output: the result of the first key that opens it, with the index of that key; nothing if no key does.
    [try] is the decryption of one output with one key. *)
Definition entry_for {K O R} (try : K -> O -> outcome (option R)) (keys : list K) (o : O) (e : option (R * nat)) : Prop :=
  match e with
  | Some (x, i) =>
      (exists k, nth_error keys i = Some k /\ try k o = Ret (Some x)) /\
      (forall j k, j < i -> nth_error keys j = Some k -> try k o = Ret None)
  | None => forall k, In k keys -> try k o = Ret None
  end.
Definition batch_finds {K O R} (try : K -> O -> outcome (option R)) (keys : list K) (outputs : list O)
  (res : list (option (R * nat))) : Prop := Forall2 (entry_for try keys) outputs res.
