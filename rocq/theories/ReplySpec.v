(** Which packet answers which (MQTT 5 and 3). *)
From Coq Require Import List Bool NArith String.
From Verif Require Import Base TopicModel MsgModel OutModel GlobModel Sess5Model Sess3Model InSpec BrokerModel BrokerSpec LifeSpec.
Import ListNotations.
Local Open Scope N_scope.
Local Open Scope list_scope.

(** [k] answers [x]: the right kind, with the identifier of [x]; a SUBACK and an UNSUBACK have
    one reason code for every filter. *)
Definition reply5 (x : in5) (k : pkt5) : Prop :=
  match x, k with
  | IPub w, KPuback p _ => w5_qp w = Q1 p
  | IPub w, KPubrec p _ => w5_qp w = Q2 p
  | IPubrec p, KPubrel p' _ | IPubrel p, KPubcomp p' _ => p' = p
  | ISub p _ fs, KSuback p' codes => p' = p /\ List.length codes = List.length fs
  | IUnsub p fs, KUnsuback p' codes => p' = p /\ List.length codes = List.length fs
  | IPing, KPingresp => True
  | _, _ => False
  end.
(** An answer is due to everything but QoS 0 messages, PUBACK, PUBCOMP and DISCONNECT. *)
Definition due5 (x : in5) : bool :=
  match x with
  | IPub w => match w5_qp w with Q0 => false | _ => true end
  | IPubrec _ | IPubrel _ | ISub _ _ _ | IUnsub _ _ | IPing => true
  | IPuback _ | IPubcomp _ | IDisconnect _ _ | IOther => false
  end.
(** Packets that may be refused with DISCONNECT. *)
Definition refusable5 (x : in5) : bool :=
  match x with IPub _ | ISub _ (Some 0) _ | IDisconnect _ (Some _) => true | _ => false end.
(** Only messages for the client: PUBLISH, and the PUBREL of its QoS 2 messages. *)
Definition messages5 (l : list pkt5) : Prop := Forall (fun k => match k with KPub _ | KPubrel _ _ => True | _ => False end) l.
(** The packets [out] written for packet [x] of size [len]: a single DISCONNECT if [x] was
    too large or refused, otherwise the answer, if one is due, among messages for the client. *)
Definition replied5 (limit len : N) (x : in5) (out : list pkt5) : Prop :=
  (exists code reason, out = [KDisconnect code reason] /\ (limit < len /\ code = RC_packet_too_large \/ len <= limit /\ refusable5 x = true)) \/
  (len <= limit /\ if due5 x
                   then exists before k after, out = before ++ k :: after /\ reply5 x k /\ messages5 before /\ messages5 after
                   else messages5 out).

(** MQTT 3.  SUBACK has one code for every filter. *)
Definition reply3 (x : in3) (k : pkt3) : Prop :=
  match x, k with
  | YPub w, JPuback p => w3_qp w = Q1 p
  | YPub w, JPubrec p => w3_qp w = Q2 p
  | YPubrec p, JPubrel p' | YPubrel p, JPubcomp p' => p' = p
  | YSub p fs, JSuback p' codes => p' = p /\ List.length codes = List.length fs
  | YUnsub p fs, JUnsuback p' => p' = p
  | YPing, JPingresp => True
  | _, _ => False
  end.
Definition due3 (x : in3) : bool :=
  match x with
  | YPub w => match w3_qp w with Q0 => false | _ => true end
  | YPubrec _ | YPubrel _ | YSub _ _ | YUnsub _ _ | YPing => true
  | YPuback _ | YPubcomp _ | YDisconnect | YOther => false
  end.
(** Packets that may be refused, by closing the connection. *)
Definition refusable3 (x : in3) : bool :=
  match x with YPub _ | YPubrel _ | YOther => true | YSub _ fs => existsb (fun e => is_shared (fst e)) fs | _ => false end.
Definition messages3 (l : list pkt3) : Prop := Forall (fun k => match k with JPub _ | JPubrel _ => True | _ => False end) l.
Definition replied3 (limit len : N) (x : in3) (closed : bool) (out : list pkt3) : Prop :=
  (closed = true /\ out = [] /\ (limit < len \/ refusable3 x = true)) \/
  (closed = false /\ len <= limit /\ if due3 x
                   then exists before k after, out = before ++ k :: after /\ reply3 x k /\ messages3 before /\ messages3 after
                   else messages3 out).
(** The task of connection [k] has left its event loop. *)
Definition over (b : broker) (k : N) : bool := match aget k (b_tasks b) with Some (TEnd _) => true | _ => false end.
