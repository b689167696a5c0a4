(** Which messages the server keeps as retained (C82): vocabulary. *)
From Coq Require Import List Bool NArith String.
From Verif Require Import Base MsgModel OutModel RetainModel RetainSpec GlobModel Sess5Model Sess3Model BrokerModel BrokerSpec LifeSpec DelivSpec InSpec ReplySpec WillWaySpec.
Import ListNotations.
Local Open Scope N_scope.
Local Open Scope list_scope.

(** The message of a will. *)
Definition will_message5 (w : will5) : pubmsg :=
  PubMsg (wl_topic w) (wl_payload w) (wl_qos w) (wl_retain w) (Some (set_alias None (set_subids [] (wl_props w)))).
Definition will_message3 (w : will3) : pubmsg := PubMsg (wl3_topic w) (wl3_payload w) (wl3_qos w) (wl3_retain w) None.

(** The server answered connection [k] with DISCONNECT. *)
Definition refused_at (k : N) (out : list bout) : Prop := exists code reason, In (OPkt5 k (KDisconnect code reason)) out.
(** A QoS 2 PUBLISH that the server takes for a repetition, after the events [l] of the session.
    (MQTT 3: a packet with an open identifier that is not marked as a repetition is refused.) *)
Definition repeated5 (l : list (sev5 * list pkt5)) (w : wpub5) : Prop := exists i, w5_qp w = Q2 i /\ (opener l i <> None \/ w5_dup w = true).
Definition repeated3 (w : wpub3) : Prop := w3_dup w = true /\ exists i, w3_qp w = Q2 i.
Definition no_will (out : list bout) : Prop := forall k, (forall w, ~ In (OWill5 k w) out) /\ (forall w, ~ In (OWill3 k w) out).
Definition publishes (e : bev) : Prop := match e with EPacket5 _ _ (IPub _) | EPacket3 _ _ (YPub _) => True | _ => False end.

(** What the step [p] after the history [h], leading to state [b], does to the retained messages
    ([retained_op], DelivSpec: nothing without RETAIN; with RETAIN and an empty payload the
    message of the topic is removed, otherwise it is replaced).  An accepted PUBLISH does it under the
    topic it is for, which may come from an alias; so does a will that is published. *)
Inductive updates (c : config) (h : list past) (p : past) (b : broker) : list retop -> Prop :=
| up_pub5 k len w s l T n : w_e p = EPacket5 k len (IPub w) -> sess_at (w_b p) k = Some (A5 s) -> life5 k h l ->
    ~ refused_at k (w_out p) -> ~ repeated5 l w -> topic_for (cf_alias_max c) l w = Some T -> enc_len5 w = Some n ->
    updates c h p b (retained_op (s_ident s) (message5 T w) n)
| up_not5 k len w : w_e p = EPacket5 k len (IPub w) -> refused_at k (w_out p) \/ (exists l, life5 k h l /\ repeated5 l w) -> updates c h p b []
| up_pub3 k len w s n : w_e p = EPacket3 k len (YPub w) -> sess_at (w_b p) k = Some (A3 s) -> over b k = false -> ~ repeated3 w -> enc_len3 w = Some n ->
    updates c h p b (retained_op (z_ident s) (message3 w) n)
| up_not3 k len w : w_e p = EPacket3 k len (YPub w) -> over b k = true \/ repeated3 w -> updates c h p b []
| up_will5 k w s n : In (OWill5 k w) (w_out p) -> sess_at (w_b p) k = Some (A5 s) -> enc_len5 (will_packet5 w) = Some n ->
    updates c h p b (retained_op (s_ident s) (will_message5 w) n)
| up_will3 k w s n : In (OWill3 k w) (w_out p) -> sess_at (w_b p) k = Some (A3 s) -> enc_len3 (will_packet3 w) = Some n ->
    updates c h p b (retained_op (z_ident s) (will_message3 w) n)
| up_none : ~ publishes (w_e p) -> no_will (w_out p) -> updates c h p b [].

(** The stores and removals of the history [h] (newest first), which leads to state [b], oldest first. *)
Inductive keeps (c : config) : list past -> broker -> list retop -> Prop :=
| kp_nil b : keeps c [] b []
| kp_step p h b hr ops : keeps c h (w_b p) hr -> updates c h p b ops -> keeps c (p :: h) b (hr ++ ops).
