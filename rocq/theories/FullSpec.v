(** C12: what a message does to the queue of a session. *)
From Coq Require Import List NArith.
From Verif Require Import Base PendingModel.
Import ListNotations.
Local Open Scope N_scope.
Local Open Scope list_scope.

Section Full.
  Context {P : Type}.

  (** The queue without the finished entries at its front. *)
  Inductive trimmed : list (pstatus P) -> list (pstatus P) -> Prop :=
  | trim_done r r' : trimmed r r' -> trimmed (PDone :: r) r'
  | trim_none : trimmed [] []
  | trim_new a l p x d r : trimmed (PNew a l p x d :: r) (PNew a l p x d :: r)
  | trim_rec l p r : trimmed (PRec l p :: r) (PRec l p :: r).

  (** A message that satisfies [fits] comes at [now] to a queue with room for [max] entries:
      it is put at the end, not yet sent, exactly if there is room, and nothing else changes. *)
  Definition joins (max now : N) (fits : P -> Prop) (before after : list (pstatus P)) : Prop :=
    exists kept, trimmed before kept /\
      (N.of_nat (length kept) < max -> exists p x, fits x /\ 1 <= p <= 65535 /\ after = kept ++ [PNew now 0 p x false]) /\
      (max <= N.of_nat (length kept) -> after = kept).
End Full.
