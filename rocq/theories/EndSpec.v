(** The way of one PUBLISH to the session of a subscriber (C73). *)
From Coq Require Import List Bool NArith String.
From Verif Require Import Base MsgModel OutModel GlobModel Sess5Model Sess3Model BrokerModel BrokerSpec LifeSpec DelivSpec InSpec AccSpec SubsSpec RecvSpec.
Import ListNotations.
Local Open Scope N_scope.
Local Open Scope list_scope.

(** The messages passed on to client [d], each with the connection it came from, in order. *)
Definition arrived (d : client_id) (h : list past) : list (N * nmsg) := map (fun x => (fst x, snd (snd x))) (passed_in d h).
(** Those that came from connection [j]. *)
Definition sent_by (j : N) (from : list (N * nmsg)) : list nmsg := flat_map (fun x => if fst x =? j then [snd x] else []) from.

(** Client [d]'s session, whose events are [l], was handed message [y] of connection [j]:
    after the events [l1], at time [now], and it wrote [o] ([live]: there was a connection to
    write to).  Until then it had been handed [before] from connection [j]. *)
Inductive reached5 (d : client_id) (h : list past) (j : N) (before : list nmsg) (y : nmsg) (l l1 : list (sev5 * list pkt5)) (now : N) (live : bool) (o : list pkt5) : Prop :=
| reach5 from1 from2 l2 : arrived d h = from1 ++ (j, y) :: from2 -> sent_by j from1 = before ->
    l = l1 ++ (if live then VMsg now y else VLost now y, o) :: l2 -> heard5 l1 = map snd from1 -> heard5 l2 = map snd from2 ->
    reached5 d h j before y l l1 now live o.
Inductive reached3 (d : client_id) (h : list past) (j : N) (before : list nmsg) (y : nmsg) (l l1 : list (sev3 * list pkt3)) (now : N) (live : bool) (o : list pkt3) : Prop :=
| reach3 from1 from2 l2 : arrived d h = from1 ++ (j, y) :: from2 -> sent_by j from1 = before ->
    l = l1 ++ (if live then UMsg now y else ULost now y, o) :: l2 -> heard3 l1 = map snd from1 -> heard3 l2 = map snd from2 ->
    reached3 d h j before y l l1 now live o.

(** Message [y] has topic [T], payload [P] and QoS [Q], is taken for [n] bytes long, and comes for
    filter [f], among others, with at least QoS [q]. *)
Definition nm_size (y : nmsg) : N := match y with NM3 m => n3_len m + 1 | NM5 m => n5_len m end.
Definition made_of (y : nmsg) (T P : string) (Q : qos) (n : N) (f : string) (q : qos) : Prop :=
  nm_topic y = T /\ nm_payload y = P /\ nm_qos y = Q /\ nm_size y = n /\ In f (nm_filters y) /\ qos_leb q (nm_sqos y) = true.

(** What the session, after the events [l1], does with a message published with topic [T],
    payload [P] and QoS [Q] in a packet of [n] bytes, which it is sent for filter [f] granted
    with QoS [q].  It passes it on to its client: the packet is written at once if it goes out
    with QoS 0, and is queued otherwise ([passes5]).  It drops it only if the client is no
    longer subscribed, the message is too large for the client, or the message is a QoS 0
    message and the client is away. *)
Definition fate5 (hash : wpub5 -> N) (c : config) (l1 : list (sev5 * list pkt5)) (now : N) (y : nmsg) (live : bool) (o : list pkt5)
    (T P : string) (Q : qos) (n : N) (f : string) (q : qos) : Prop :=
  made_of y T P Q n f q /\ exists r1 r2 res, srun5 hash c r1 l1 /\ passes5 now c y r1 r2 res /\
    (res = None -> subscribed5 l1 f = None \/ s_maxpkt r1 < n \/ qos_min Q q = L0 /\ ~ up5 r1) /\
    (forall p, res = Some p -> p5_topic p = T /\ p5_payload p = P /\ (exists q', qos_leb q q' = true /\ p5_qos p = qos_min Q q') /\
       (p5_qos p = L0 -> live = true -> exists w, o = [KPub w] /\ w5_payload w = P /\ w5_qp w = Q0 /\ (w5_topic w = T \/ w5_topic w = EmptyString /\ pp_alias (w5_props w) <> None))).
(** A v3 session looks at one of the filters a message of a v5 client comes with. *)
Definition fate3 (hash : wpub3 -> N) (c : config) (l1 : list (sev3 * list pkt3)) (now : N) (y : nmsg) (live : bool) (o : list pkt3)
    (T P : string) (Q : qos) (f : string) (q : qos) : Prop :=
  made_of y T P Q (nm_size y) f q /\ exists r1 r2 res, srun3 hash c r1 l1 /\ passes3 now y r1 r2 res /\
    (res = None -> (exists f', In f' (nm_filters y) /\ subscribed3 c l1 f' = None) \/ qos_min Q q = L0 /\ z_disc r1 = true) /\
    (forall p, res = Some p -> p3_topic p = T /\ p3_payload p = P /\ (exists q', qos_leb q q' = true /\ p3_qos p = qos_min Q q') /\
       (p3_qos p = L0 -> live = true -> exists w, o = [JPub w] /\ w3_payload w = P /\ w3_qp w = Q0 /\ w3_topic w = T)).

(** In state [b1], reached by the steps [h1], step [e] of connection [j] led to [b2]; the server
    went on to [b], its whole history being [h].  In between the queue of connection [j] for
    client [d] was found empty, and now nothing waits for [d]. *)
Definition gone_through (hash5 : wpub5 -> N) (hash3 : wpub3 -> N) (pick : draw -> broker -> string -> string -> N) (c : config) (h1 : list past) (b1 : broker) (e : bev) (b2 : broker) (out : list bout)
    (h : list past) (b : broker) (j : N) (d : client_id) : Prop :=
  brun hash5 hash3 pick c h1 b1 /\ bstep hash5 hash3 pick e b1 = BOk b2 out /\ (forall p, In p h -> proper p) /\ waiting b d = [] /\
  exists h2 b3 h3 a, bgo hash5 hash3 pick b2 h2 b3 /\ bgo hash5 hash3 pick b3 h3 b /\ h = h3 ++ h2 ++ Past b1 e out :: h1 /\ sess_at b3 j = Some a /\ queue_of (a_bcast a) d = [].
