(** Where a delivered message comes from (C68): the messages that clients publish, the
    subscriptions they make, and what a client reads off its connection. *)
From Coq Require Import List Bool NArith String.
From Verif Require Import Base TopicModel TopicSpec MsgModel OutModel GlobModel Sess5Model Sess3Model ConnModel RegModel BrokerModel BrokerSpec LifeSpec AliasSpec.
Import ListNotations.
Local Open Scope N_scope.
Local Open Scope list_scope.

(** A message as publisher and subscriber see it.  [m_other]: the properties that are only
    passed on (user properties, response topic, ...); none in MQTT 3.  [m_life]: the Message
    Expiry Interval, if there is one. *)
Record msg := Msg { m_topic : string; m_payload : string; m_other : string; m_life : option N; m_qos : qos }.

(** The topic aliases that the client of connection [k] bound by its PUBLISH packets; [amax]
    is the server's Topic Alias Maximum. *)
Fixpoint bound_in (amax k : N) (h : list past) : list (N * string) :=
  match h with
  | [] => []
  | p :: h =>
      match w_e p with
      | EPacket5 j _ (IPub w) => if j =? k then snd (client_read amax (bound_in amax k h) w) else bound_in amax k h
      | _ => bound_in amax k h
      end
  end.
(** The topic aliases that the client of connection [k] learned from the PUBLISH packets
    written to it; [amax] is the client's Topic Alias Maximum. *)
Definition learn (amax : N) (known : list (N * string)) (x : pkt5) : list (N * string) :=
  match x with KPub w => snd (client_read amax known w) | _ => known end.
Fixpoint learned (amax k : N) (h : list past) : list (N * string) :=
  match h with
  | [] => []
  | p :: h => fold_left (learn amax) (pkts5 k (w_out p)) (learned amax k h)
  end.
(** The Topic Alias Maximum in the CONNECT of connection [k]. *)
Definition alias_limit (k : N) (h : list past) (amax : N) : Prop :=
  exists q t0 uuid pc data, made_by h q k /\ w_e q = EConnect5 t0 uuid pc data /\ amax = match co_alias pc with Some a => a | None => 0 end.

(** Packet [w] from connection [k] was accepted at step [p]: the server did not disconnect
    the client and acknowledged the packet with a success code. *)
Definition taken5 (k : N) (w : wpub5) (p : past) : Prop :=
  (forall code r, ~ In (OPkt5 k (KDisconnect code r)) (w_out p)) /\
  match w5_qp w with
  | Q0 => True
  | Q1 i => exists code, code < 0x80 /\ In (OPkt5 k (KPuback i code)) (w_out p)
  | Q2 i => exists code, code < 0x80 /\ In (OPkt5 k (KPubrec i code)) (w_out p)
  end.
Definition taken3 (k : N) (w : wpub3) (p : past) : Prop :=
  match w3_qp w with
  | Q0 => True
  | Q1 i => In (OPkt3 k (JPuback i)) (w_out p)
  | Q2 i => In (OPkt3 k (JPubrec i)) (w_out p)
  end.

(** [origin c h m]: in history [h] (latest step first) a client of the server with
    configuration [c] published [m], or [m] is the will of a client, published for it.  A
    QoS 2 packet with DUP repeats an earlier one and publishes nothing. *)
Inductive origin (c : config) (h : list past) : msg -> Prop :=
| by_publish5 h1 p h0 k len w t : h = h1 ++ p :: h0 -> w_e p = EPacket5 k len (IPub w) -> len <= cf_packet_server c -> taken5 k w p ->
    fst (client_read (cf_alias_max c) (bound_in (cf_alias_max c) k h0) w) = Some t ->
    starts_with_dollar (w5_topic w) = false -> w5_dup w = false \/ (exists i, w5_qp w = Q1 i) ->
    origin c h (Msg t (w5_payload w) (pp_other (w5_props w)) (pp_expiry (w5_props w)) (qp_qos (w5_qp w)))
| by_publish3 p k len w : In p h -> w_e p = EPacket3 k len (YPub w) -> len <= cf_packet_server c -> taken3 k w p ->
    starts_with_dollar (w3_topic w) = false -> w3_dup w = false \/ (exists i, w3_qp w = Q1 i) ->
    origin c h (Msg (w3_topic w) (w3_payload w) "" None (qp_qos (w3_qp w)))
| by_will5 k w : In (W5 w) (asked_will k h) -> In (W5 w) (wills_in k h) ->
    origin c h (Msg (wl_topic w) (wl_payload w) (pp_other (wl_props w)) (pp_expiry (wl_props w)) (wl_qos w))
| by_will3 k w : In (W3 w) (asked_will k h) -> In (W3 w) (wills_in k h) ->
    origin c h (Msg (wl3_topic w) (wl3_payload w) "" None (wl3_qos w)).

(** Filter [f], possibly "$share/<group>/<filter>", selects topic [t]. *)
Definition selects (f t : string) : Prop :=
  match shared_info f with Some (_, inner) => topic_matches inner t | None => topic_matches f t end.
(** The client with identifier [i] subscribed to [f]: by a SUBSCRIBE on some connection with
    that identifier, which in MQTT 5 was answered by a SUBACK granting the filter. *)
Definition granted (k : N) (f : string) (p : past) : Prop :=
  (exists len pid id fs codes n o code, w_e p = EPacket5 k len (ISub pid id fs) /\ nth_error fs n = Some (f, o) /\
     In (OPkt5 k (KSuback pid codes)) (w_out p) /\ nth_error codes n = Some code /\ code <= 2) \/
  (exists len pid fs q, w_e p = EPacket3 k len (YSub pid fs) /\ In (f, q) fs).
Definition subscribed (i f : string) (h : list past) : Prop :=
  exists p k a, In p h /\ sess_at (w_b p) k = Some a /\ a_ident a = i /\ granted k f p.

(** What is announced as the lifetime of a message is not more than its publisher gave it. *)
Definition within (v v0 : option N) : Prop :=
  match v, v0 with Some x, Some x0 => x <= x0 | None, None => True | _, _ => False end.
(** The client with identifier [i] may be sent a message with this topic, payload, properties
    and lifetime at QoS [q]: somebody published it at this QoS or a higher one and with this
    lifetime or a longer one, the client subscribed to a filter that selects it, and the
    server's maximum is kept. *)
Definition due_to (c : config) (h : list past) (i t payload other : string) (v : option N) (q : qos) : Prop :=
  (exists v0 q0, origin c h (Msg t payload other v0 q0) /\ within v v0 /\ qos_num q <= qos_num q0) /\ qos_num q <= cf_max_qos c /\
  exists f, subscribed i f h /\ selects f t.

(** The wills that clients ask for have a proper topic: mqtt-proto refuses wildcards, the
    server refuses a CONNECT with an empty will topic (ConnProps). *)
Definition will_topic (w : awill) : string := match w with W5 w => wl_topic w | W3 w => wl3_topic w end.
Definition wills_fine (h : list past) : Prop := forall k w, In w (asked_will k h) -> valid_topic_name (will_topic w) /\ will_topic w <> EmptyString.
