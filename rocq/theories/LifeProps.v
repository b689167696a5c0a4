(** C08-C14, C49, C52 and C53 for runs of the whole broker.

    [brun hash5 hash3 pick c h b]: [b] is a state the server can be in after the steps [h]
    (BrokerProps).  [life5 k h l] says that [l] is what the session that connection [k] holds
    after [h] has seen since it was created, on whichever connections (LifeSpec); the
    theorems of LinkProps, InProps and SubProps about session runs then apply to it.
    [proper]: packets are as mqtt-proto decodes them.  [after_1970]: the clock is.
    [few_enough c log] excludes that packet identifiers come round while in use (C10). *)
From Coq Require Import List Bool NArith String Lia.
From Verif Require Import Base BaseLemmas TopicModel TopicSpec MsgModel PendingModel OutModel RouteModel RouteSpec RetainModel GlobModel Sess5Model Sess3Model ConnModel RegModel BrokerModel
  OutSpec DelivSpec InSpec LinkSpec BrokerSpec LifeSpec SubsSpec ReplySpec RecvSpec RecordSpec RunProofs LifeProofs LifeFacts ReplyProofs RecordProofs BrokerProps.
Import ListNotations.
Local Open Scope N_scope.
Local Open Scope list_scope.

Section Props.
  Variables (hash5 : wpub5 -> N) (hash3 : wpub3 -> N) (pick : draw -> broker -> string -> string -> N).
  Local Notation bstep := (bstep hash5 hash3 pick).
  Local Notation brun := (brun hash5 hash3 pick).
  (** The run was made of proper packets, after 1970. *)
  Local Notation usual h := ((forall p, In p h -> proper p) /\ (forall p, In p h -> after_1970 p)).

  (** ** Every session is a session run *)

  (** What a session of a broker run has seen is a run of the session on its own. *)
  Theorem session_is_a_run5 : forall c h b k s, brun c h b -> usual h -> sess_at b k = Some (A5 s) ->
    exists l, life5 k h l /\ srun5 hash5 c s l /\ Forall clocked5 l.
  Proof. intros c h b k s R (P & T). exact (is_run5 hash5 hash3 pick c h b k s R P T). Qed.
  Theorem session_is_a_run3 : forall c h b k s, brun c h b -> usual h -> sess_at b k = Some (A3 s) ->
    exists l, life3 k h l /\ srun3 hash3 c s l /\ Forall clocked3 l.
  Proof. intros c h b k s R (P & T). exact (is_run3 hash5 hash3 pick c h b k s R P T). Qed.

  (** ** C08: the window *)

  (** The number of identifiers in flight on a connection, read off its packets, is at most the
      Receive Maximum of its own CONNECT. *)
  Theorem C08_broker_window_partial : forall c h b k s q t0 uuid p data, brun c h b -> usual h -> sess_at b k = Some (A5 s) -> made_by h q k -> w_e q = EConnect5 t0 uuid p data ->
    exists l log, life5 k h l /\ logs5 c l log /\ (few_enough c log -> N.of_nat (List.length (unacked5 c k h)) <= rmax5 c p).
  Proof. intros c h b k s q t0 uuid p data R (P & T). exact (window5 hash5 hash3 pick c h b k s q t0 uuid p data R P T). Qed.
  Theorem C08_v3_broker_window_partial : forall c h b k s, brun c h b -> usual h -> sess_at b k = Some (A3 s) ->
    exists l log, life3 k h l /\ logs3 c l log /\ (few_enough c log -> N.of_nat (List.length (unacked3 c k h)) <= cf_inflight_client c).
  Proof. intros c h b k s R (P & T). exact (window3 hash5 hash3 pick c h b k s R P T). Qed.

  (** ** C09 - C14: order, identifiers, retransmission, overflow, expiry *)

  (** First transmissions in the order of arrival, also across reconnections. *)
  Theorem C09_broker_order_partial : forall c h b k s, brun c h b -> usual h -> sess_at b k = Some (A5 s) ->
    exists l log, life5 k h l /\ logs5 c l log /\ (few_enough c log -> in_order carries5 (first_sent wpid5 w5_dup log) (queued log) /\
      (no_expiry_event log -> no_early_ack wpid5 w5_dup carries5 lifetime5 (cf_inflight_timeout c) log ->
       exists sent_ones waiting, queued log = sent_ones ++ waiting /\ Forall2 (transmits carries5) (first_sent wpid5 w5_dup log) sent_ones)).
  Proof. intros c h b k s R (P & T). exact (order5 hash5 hash3 pick c h b k s R P T). Qed.
  Theorem C09_v3_broker_order_partial : forall c h b k s, brun c h b -> usual h -> sess_at b k = Some (A3 s) ->
    exists l log, life3 k h l /\ logs3 c l log /\ (few_enough c log -> in_order carries3 (first_sent wpid3 w3_dup log) (queued log) /\
      (no_expiry_event log -> no_early_ack wpid3 w3_dup carries3 lifetime3 (cf_inflight_timeout c) log ->
       exists sent_ones waiting, queued log = sent_ones ++ waiting /\ Forall2 (transmits carries3) (first_sent wpid3 w3_dup log) sent_ones)).
  Proof. intros c h b k s R (P & T). exact (order3 hash5 hash3 pick c h b k s R P T). Qed.
  (** Identifiers are not 0 and not used twice at a time. *)
  Theorem C10_broker_pid_partial : forall c h b k s, brun c h b -> usual h -> sess_at b k = Some (A5 s) ->
    exists l log, life5 k h l /\ logs5 c l log /\ (forall p, In p (arrivals log) -> 1 <= p <= 65535) /\ (few_enough c log -> no_reuse log).
  Proof. intros c h b k s R (P & T). exact (pids5 hash5 hash3 pick c h b k s R P T). Qed.
  Theorem C10_v3_broker_pid_partial : forall c h b k s, brun c h b -> usual h -> sess_at b k = Some (A3 s) ->
    exists l log, life3 k h l /\ logs3 c l log /\ (forall p, In p (arrivals log) -> 1 <= p <= 65535) /\ (few_enough c log -> no_reuse log).
  Proof. intros c h b k s R (P & T). exact (pids3 hash5 hash3 pick c h b k s R P T). Qed.
  (** Every identifier goes through its life cycle. *)
  Theorem C11_broker_retransmission_partial : forall c h b k s, brun c h b -> usual h -> sess_at b k = Some (A5 s) ->
    exists l log, life5 k h l /\ logs5 c l log /\ (few_enough c log -> forall p, exists st, OutSpec.life wpid5 w5_dup carries5 lifetime5 (cf_inflight_timeout c) p log st).
  Proof. intros c h b k s R (P & T). exact (again5 hash5 hash3 pick c h b k s R P T). Qed.
  Theorem C11_v3_broker_retransmission_partial : forall c h b k s, brun c h b -> usual h -> sess_at b k = Some (A3 s) ->
    exists l log, life3 k h l /\ logs3 c l log /\ (few_enough c log -> forall p, exists st, OutSpec.life wpid3 w3_dup carries3 lifetime3 (cf_inflight_timeout c) p log st).
  Proof. intros c h b k s R (P & T). exact (again3 hash5 hash3 pick c h b k s R P T). Qed.
  (** A message is dropped only when the queue is full. *)
  Theorem C12_broker_drop_history_partial : forall c h b k s, brun c h b -> usual h -> sess_at b k = Some (A5 s) -> 0 < cf_max_pending c ->
    exists l log, life5 k h l /\ logs5 c l log /\ (few_enough c log -> forall l1 t p m l2, log = l1 ++ EFull t p m :: l2 ->
     exists a t0 p0 m0 b, l1 = a ++ EQueued t0 p0 m0 :: b /\ active p0 l1 = true /\ cf_max_pending c <= 1 + N.of_nat (List.length (queued b))).
  Proof. intros c h b k s R (P & T). exact (drops5 hash5 hash3 pick c h b k s R P T). Qed.
  Theorem C12_v3_broker_drop_history_partial : forall c h b k s, brun c h b -> usual h -> sess_at b k = Some (A3 s) -> 0 < cf_max_pending c ->
    exists l log, life3 k h l /\ logs3 c l log /\ (few_enough c log -> forall l1 t p m l2, log = l1 ++ EFull t p m :: l2 ->
     exists a t0 p0 m0 b, l1 = a ++ EQueued t0 p0 m0 :: b /\ active p0 l1 = true /\ cf_max_pending c <= 1 + N.of_nat (List.length (queued b))).
  Proof. intros c h b k s R (P & T). exact (drops3 hash5 hash3 pick c h b k s R P T). Qed.
  (** No message is sent after it expired. *)
  Theorem C14_broker_expiry_partial : forall c h b k s, brun c h b -> usual h -> sess_at b k = Some (A5 s) ->
    exists l log, life5 k h l /\ logs5 c l log /\ (few_enough c log -> forall l1 t w p l2, log = l1 ++ ESent t (SPub w) :: l2 -> wpid5 w = Some p -> w5_dup w = false ->
     exists t0 m, OutSpec.life wpid5 w5_dup carries5 lifetime5 (cf_inflight_timeout c) p l1 (Waiting t0 m) /\ In (EQueued t0 p m) l1 /\ carries5 t0 t m w /\
       (forall v, lifetime5 m = Some v -> v < 2 ^ 32 -> t - t0 < v /\ pp_expiry (w5_props w) = Some (v - (t - t0))) /\
       (lifetime5 m = None -> pp_expiry (w5_props w) = None)).
  Proof. intros c h b k s R (P & T). exact (expiry5 hash5 hash3 pick c h b k s R P T). Qed.

  (** ** C52: requests and responses *)

  (** A packet is answered once, by a packet of the right kind with its identifier, or refused
      with DISCONNECT; [IOther] (CONNECT, AUTH) ends the connection. *)
  Theorem C52_reply5 : forall c h b k len x b' out, brun c h b -> bstep (EPacket5 k len x) b = BOk b' out ->
    (x = IOther /\ len <= cf_packet_server c /\ over b' k = true /\ out = []) \/ (over b' k = false /\ replied5 (cf_packet_server c) len x (pkts5 k out)).
  Proof. exact (reply5_lemma hash5 hash3 pick). Qed.
  Theorem C52_reply3 : forall c h b k len x b' out, brun c h b -> bstep (EPacket3 k len x) b = BOk b' out -> replied3 (cf_packet_server c) len x (over b' k) (pkts3 k out).
  Proof. exact (reply3_lemma hash5 hash3 pick). Qed.
  (** Nothing but messages for the client is written at any other time, except DISCONNECT after
      bytes that are not a packet. *)
  Theorem C52_unasked : forall e b b' out k, bstep e b = BOk b' out -> (forall len x, e <> EPacket5 k len x) -> (forall len x, e <> EPacket3 k len x) ->
    match e with
    | EMalformed j r => j <> k /\ pkts5 k out = [] \/ j = k /\ exists reason, pkts5 k out = [KDisconnect RC_malformed reason]
    | _ => messages5 (pkts5 k out)
    end /\ messages3 (pkts3 k out).
  Proof. exact (unasked_lemma hash5 hash3 pick). Qed.

  (** ** C53: the routing table follows the subscriptions granted *)

  (** Whatever a session was granted and not rid of since, on this or earlier connections, is
      routed to it with the QoS granted. *)
  Theorem C53_recorded_is_routed : forall c h b k a, cf_max_qos c <= 2 -> brun c h b -> (forall p, In p h -> proper p) -> sess_at b k = Some a -> not_removed b k ->
    exists m, on_record c h k a m /\ forall T f q, valid_topic_name T -> plain f -> topic_matches f T -> m f = Some q -> routes_to (b_route b) T f (a_id a) q.
  Proof. exact (record_routed hash5 hash3 pick). Qed.
  (** Nothing else is, as long as no session is lost or started afresh.  Missing: those cases
      ([clean_start_routing_refuted], [session_routes_refuted] in BrokerProps). *)
  Theorem C53_routed_exact_partial : forall c h b k a, cf_max_qos c <= 2 -> brun c h b -> (forall p, In p h -> proper p) -> (forall p, In p h -> lossless p) -> sess_at b k = Some a -> not_removed b k ->
    exists m, on_record c h k a m /\ forall T f q, valid_topic_name T -> (routes_to (b_route b) T f (a_id a) q <-> plain f /\ topic_matches f T /\ m f = Some q).
  Proof. exact (routed_exact hash5 hash3 pick). Qed.
  (** Then messages are routed only to clients whose session some connection holds. *)
  Theorem C53_routed_clients_partial : forall c h b T f d q, brun c h b -> (forall p, In p h -> lossless p) -> valid_topic_name T -> routes_to (b_route b) T f d q ->
    plain f /\ topic_matches f T /\ exists k m, held b k = Some (d, m) /\ aget f m = Some q.
  Proof. exact (routed_only hash5 hash3 pick). Qed.

  (** ** C49: what is published is handed to every subscriber on record *)

  (** [wanted]: no-local subscriptions of the publisher itself are left out. *)
  Theorem C49_broker_published : forall c h b j s len w b' out, cf_max_qos c <= 2 -> brun c h b -> (forall p, In p h -> proper p) -> sess_at b j = Some (A5 s) ->
    wf_in5 (IPub w) -> len <= cf_packet_server c ->
    bstep (EPacket5 j len (IPub w)) b = BOk b' out -> (forall code reason, ~ In (OPkt5 j (KDisconnect code reason)) out) ->
    exists l s', life5 j h l /\ sess_at b' j = Some (A5 s') /\ forall k a, sess_at b k = Some a -> not_removed b k -> exists m, on_record c h k a m /\
      forall T f q, topic_for (cf_alias_max c) l w = Some T -> (forall p, w5_qp w = Q2 p -> opener l p = None /\ w5_dup w = false) ->
        m f = Some q -> plain f -> topic_matches f T -> wanted s (a_id a) f ->
        exists y, handed (s_bcast s) (s_bcast s') (a_id a) [y] /\ nm_topic y = T /\ nm_payload y = w5_payload w /\ nm_qos y = qp_qos (w5_qp w) /\ In f (nm_filters y).
  Proof. exact (published5 hash5 hash3 pick). Qed.
  Theorem C49_v3_broker_published : forall c h b j s len w b' out, cf_max_qos c <= 2 -> brun c h b -> (forall p, In p h -> proper p) -> sess_at b j = Some (A3 s) ->
    wf_in3 (YPub w) -> len <= cf_packet_server c ->
    bstep (EPacket3 j len (YPub w)) b = BOk b' out -> over b' j = false -> (forall p, w3_qp w = Q2 p -> w3_dup w = false) ->
    exists s', sess_at b' j = Some (A3 s') /\ forall k a, sess_at b k = Some a -> not_removed b k -> exists m, on_record c h k a m /\
      forall f q, m f = Some q -> plain f -> topic_matches f (w3_topic w) ->
        exists xs y, handed (z_bcast s) (z_bcast s') (a_id a) xs /\ In y xs /\ nm_topic y = w3_topic w /\ nm_payload y = w3_payload w /\
          nm_qos y = qp_qos (w3_qp w) /\ nm_filters y = [f] /\ nm_sqos y = q.
  Proof. exact (published3 hash5 hash3 pick). Qed.
End Props.

(** ** Cases that meet the hypotheses *)
(** Client "a" subscribes, leaves and comes back; "c" (MQTT 3) subscribes; "p" comes.  Then
    "p" publishes and both get the message. *)
Definition x_some : list bev :=
  [ETick 100000; x_a true] ++ x_up 0 ++ [x_sub 0 "t/+"; x_c3 false "c" true 60 None] ++ x_up 1 ++ [x_s3 1 "t/#"] ++ x_down 0 ++ [x_a false] ++ x_over 0 2 ++ x_up 2 ++
  [x_c5 "p" true 60 None None] ++ x_up 3.
Definition x_sent : list bev := x_some ++ [x_pub 3 "t/x"; EFlush 3 0; EFlush 3 1; ENormal 2; ENormal 1].
Ltac proper_of := apply Forall_forall; repeat (apply Forall_cons; [cbn; first [exact Logic.I | split; [split; reflexivity|discriminate] | repeat constructor]|]); apply Forall_nil.
Ltac after_of := apply Forall_forall; repeat (apply Forall_cons; [vm_compute; first [exact Logic.I | discriminate]|]); apply Forall_nil.
Ltac lossless_of := apply Forall_forall; repeat (apply Forall_cons; [split; [cbn; intuition discriminate|
  unfold afresh; cbn [w_out]; cbn; intros k x r [(ack & I & E)|(code & I)] A; intuition (try discriminate);
  repeat match goal with H : OConnack5 _ _ = OConnack5 _ _ |- _ => injection H as <- <- | H : OConnack3 _ _ = OConnack3 _ _ |- _ => injection H as <- <- end; try discriminate E; injection A as <- <-; eauto]|]); apply Forall_nil.
(** Connection 2 holds the session that was made on connection 0; both sessions have a
    message in flight. *)
Example broker_window_case : exists h b, x_run h b /\ (forall p, In p h -> proper p) /\ (forall p, In p h -> after_1970 p) /\
  (exists s q t0 uuid p data, sess_at b 2 = Some (A5 s) /\ made_by h q 2 /\ w_e q = EConnect5 t0 uuid p data /\ rmax5 config_default p = 10 /\ unacked5 config_default 2 h = [1]) /\
  (exists s, sess_at b 1 = Some (A3 s) /\ unacked3 config_default 1 h = [1]).
Proof.
  run_of x_sent. split; [proper_of|]. split; [after_of|]. split.
  - do 6 eexists. split; [reflexivity|]. split; [split; [do 14 right; left; reflexivity|reflexivity]|]. split; [reflexivity|]. split; reflexivity.
  - eexists. split; reflexivity.
Qed.
(** A SUBSCRIBE gets its SUBACK, PINGREQ its PINGRESP; bytes that are not a packet get
    DISCONNECT; a message arrives unasked. *)
Example reply_case : exists h b, x_run h b /\
  (exists b', x_step (x_sub 2 "u") b = BOk b' [OPkt5 2 (KSuback 1 [1])]) /\
  (exists b', x_step (EPacket3 1 2 YPing) b = BOk b' [OPkt3 1 JPingresp]) /\
  (exists b' r, x_step (EMalformed 2 "x") b = BOk b' [OPkt5 2 (KDisconnect RC_malformed r)]) /\
  (exists b', x_step (EPacket5 2 2 IOther) b = BOk b' [] /\ over b' 2 = true).
Proof. run_of x_sent. split; [|split; [|split]]; repeat eexists; vm_compute; reflexivity. Qed.
(** Both subscribers are on record after a resumption, and no session was lost. *)
Example record_case : exists h b, x_run h b /\ (forall p, In p h -> proper p) /\ (forall p, In p h -> lossless p) /\
  (exists a, sess_at b 2 = Some a /\ not_removed b 2 /\ a_id a = 0 /\ routes_to (b_route b) "t/x" "t/+" 0 L1 /\ topic_matches "t/+" "t/x" /\ plain "t/+") /\
  (exists a, sess_at b 1 = Some a /\ not_removed b 1 /\ a_id a = 1 /\ routes_to (b_route b) "t/x" "t/#" 1 L1 /\ topic_matches "t/#" "t/x" /\ plain "t/#").
Proof.
  run_of x_some. split; [proper_of|]. split; [lossless_of|].
  assert (M1 : topic_matches "t/+" "t/x") by (split; [apply fm_literal; [discriminate|discriminate|]; apply fm_plus; apply fm_end|intros (r & E); discriminate]). assert (M2 : topic_matches "t/#" "t/x") by (split; [apply fm_literal; [discriminate|discriminate|]; apply fm_hash|intros (r & E); discriminate]).
  split; eexists; (split; [reflexivity|]; split; [intros a; vm_compute; discriminate|]; split; [reflexivity|]; split; [|split; [assumption|reflexivity]]).
  - eexists. split; [right; left; reflexivity|]. split; [reflexivity|left; reflexivity].
  - eexists. split; [left; reflexivity|]. split; [reflexivity|left; reflexivity].
Qed.
(** The last client publishes to both. *)
Example published_case : exists h b, x_run h b /\ exists s b' s' y z, sess_at b 3 = Some (A5 s) /\ x_step (x_pub 3 "t/x") b = BOk b' [OPkt5 3 (KPuback 7 0)] /\
  sess_at b' 3 = Some (A5 s') /\ handed (s_bcast s) (s_bcast s') 0 [y] /\ handed (s_bcast s) (s_bcast s') 1 [z] /\ nm_payload y = "m"%string.
Proof. run_of x_some. do 5 eexists. split; [reflexivity|]. split; [vm_compute; reflexivity|]. split; [reflexivity|]. split; [|split]; vm_compute; reflexivity. Qed.
Example published_case3 : exists h b, x_run h b /\ exists s b' s' y z, sess_at b 1 = Some (A3 s) /\
  x_step (EPacket3 1 9 (YPub (WPub3 false (Q2 4) false "t/x" "m"))) b = BOk b' [OPkt3 1 (JPubrec 4)] /\
  sess_at b' 1 = Some (A3 s') /\ over b' 1 = false /\ handed (z_bcast s) (z_bcast s') 0 [y] /\ handed (z_bcast s) (z_bcast s') 1 [z] /\ nm_payload y = "m"%string.
Proof. run_of x_some. do 5 eexists. split; [reflexivity|]. split; [vm_compute; reflexivity|]. split; [reflexivity|]. split; [reflexivity|]. split; [|split]; vm_compute; reflexivity. Qed.

Print Assumptions session_is_a_run5.
Print Assumptions session_is_a_run3.
Print Assumptions C08_broker_window_partial.
Print Assumptions C08_v3_broker_window_partial.
Print Assumptions C09_broker_order_partial.
Print Assumptions C09_v3_broker_order_partial.
Print Assumptions C10_broker_pid_partial.
Print Assumptions C10_v3_broker_pid_partial.
Print Assumptions C11_broker_retransmission_partial.
Print Assumptions C11_v3_broker_retransmission_partial.
Print Assumptions C12_broker_drop_history_partial.
Print Assumptions C12_v3_broker_drop_history_partial.
Print Assumptions C14_broker_expiry_partial.
Print Assumptions C52_reply5.
Print Assumptions C52_reply3.
Print Assumptions C52_unasked.
Print Assumptions C53_recorded_is_routed.
Print Assumptions C53_routed_exact_partial.
Print Assumptions C53_routed_clients_partial.
Print Assumptions C49_broker_published.
Print Assumptions C49_v3_broker_published.
