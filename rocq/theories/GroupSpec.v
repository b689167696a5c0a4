(** Specification for C64: messages for shared subscriptions. *)
From Coq Require Import List NArith String.
From Verif Require Import Base TopicModel MsgModel OutModel RouteModel RouteSpec GlobModel Sess5Model DelivSpec RecvSpec.
Import ListNotations.

(** [c] is subscribed to [f] after the subscribe and unsubscribe calls [h]. *)
Definition member (h : list rop) (f : string) (c : client_id) : Prop := exists q, current h f c = Some q.

(** Between [b] and [b'] client [c] was handed a message because of its subscription to [f]. *)
Definition got (b b' : bcast) (f : string) (c : client_id) : Prop := exists l y, handed b b' c l /\ In y l /\ In f (nm_filters y).
