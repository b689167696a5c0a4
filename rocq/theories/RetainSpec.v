(** Specification of the retained store: a map from topic names to messages. *)
From Coq Require Import List Bool String NArith.
From Verif Require Import Base TopicModel MsgModel RetainModel.
Import ListNotations.

(** The message retained for [topic] after history [h] (oldest call first): the
    last one inserted and not removed since. *)
Definition retained (h : list retop) (topic : string) : option rcontent :=
  fold_left (fun cur o =>
    match o with
    | RIns x => if String.eqb (rc_topic x) topic then Some x else cur
    | RDel tp => if String.eqb tp topic then None else cur
    end) h None.

(** The node stored under the levels [p] (the store's memory). *)
Fixpoint tnode_at (p : list string) (n : tnode) : option tnode :=
  match p with
  | [] => Some n
  | i :: r => match aget i (t_kids n) with Some m => tnode_at r m | None => None end
  end.
