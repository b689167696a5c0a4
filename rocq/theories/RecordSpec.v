(** The subscriptions of a connection's session, read off the history of the broker. *)
From Coq Require Import List Bool NArith String.
From Verif Require Import Base MsgModel OutModel GlobModel Sess5Model Sess3Model ConnModel RegModel BrokerModel BrokerSpec InSpec LifeSpec SubsSpec.
Import ListNotations.
Local Open Scope N_scope.

(** [m] is what the session [a] of connection [k] is subscribed to according to the SUBACK and
    UNSUBACK packets it got, on this and earlier connections. *)
Definition on_record (c : config) (h : list past) (k : N) (a : sess) (m : string -> option qos) : Prop :=
  match a with
  | A5 _ => exists l, life5 k h l /\ forall f, m f = subscribed5 l f
  | A3 _ => exists l, life3 k h l /\ forall f, m f = subscribed3 c l f
  end.
(** The connection has not been told to forget its client. *)
Definition not_removed (b : broker) (k : N) : Prop := forall a, aget k (b_tasks b) <> Some (TOffDrain a true).
