(** C87: which messages are kept for a client that is away. *)
From Coq Require Import List NArith String.
From Verif Require Import Base MsgModel PendingModel GlobModel Sess5Model Sess3Model FullSpec.
Import ListNotations.
Local Open Scope N_scope.
Local Open Scope list_scope.

(** The session still has a subscription the message was sent for, the message is of QoS 1 or 2
    after the QoS of the subscription was applied, and it is not too long for the client.  (The
    length of a message of an MQTT 3 publisher is that of its packet and a byte for the missing
    properties.) *)
Definition wanted5 (s : sess5) (m : nmsg) : Prop :=
  match m with
  | NM3 m => aget (n3_filter m) (s_subs s) <> None /\ qos_min (n3_qos m) (n3_sqos m) <> L0 /\ n3_len m + 1 <= s_maxpkt s
  | NM5 m => (exists f, In f (n5_filters m) /\ aget f (s_subs s) <> None) /\ qos_min (n5_qos m) (n5_sqos m) <> L0 /\ n5_len m <= s_maxpkt s
  end.
(** MQTT 3 clients have no limit on the length; of several filters the first one counts. *)
Definition wanted3 (s : sess3) (m : nmsg) : Prop :=
  match m with
  | NM3 m => aget (n3_filter m) (z_subs s) <> None /\ qos_min (n3_qos m) (n3_sqos m) <> L0
  | NM5 m => (exists f r, n5_filters m = f :: r /\ aget f (z_subs s) <> None) /\ qos_min (n5_qos m) (n5_sqos m) <> L0
  end.

(** What a list of messages, each wanted or not, does to a queue: every wanted one joins it, one
    after the other. *)
Section Fill.
  Context {P : Type} (max now : N) (wanted : nmsg -> Prop) (fits : nmsg -> P -> Prop).
  Inductive filled : list nmsg -> list (pstatus P) -> list (pstatus P) -> Prop :=
  | fill_nil q : filled [] q q
  | fill_take m ms q q1 q2 : wanted m -> joins max now (fits m) q q1 -> filled ms q1 q2 -> filled (m :: ms) q q2
  | fill_skip m ms q q2 : ~ wanted m -> filled ms q q2 -> filled (m :: ms) q q2.
End Fill.
