(** C80: from an accepted PUBLISH to the application of a subscriber.

    The setting is that of C73 (EndProps): connection [j] had a PUBLISH accepted in state [b1], [a] is
    the session of a client then subscribed to it, and later, in state [b], that client has session
    [r] on connection [k] and the messages between the two have gone through.  C73 says that session
    [r] was handed the message, after the events [l1].  Here its way is followed on to the client's
    application: unless the session drops the message for one of the reasons of C73, turns it down
    because its queue is full, or is discarded by a clean start, the application of a correct
    client (CliSpec) gets this message, and nothing else under its identifier, with QoS 2 at most
    once, and, once the server has taken the last acknowledgement, with QoS 2 exactly once and with
    QoS 1 at least once ([gets]).  To a client of protocol 3 that is connected the server has
    taken it as soon as nothing is under way any more.  Definitions in GetSpec. *)
From Coq Require Import List Bool NArith String.
From Verif Require Import Base TopicModel TopicSpec MsgModel OutModel OutSpec RouteModel RouteSpec GlobModel Sess5Model Sess3Model ConnModel BrokerModel DelivSpec InSpec BrokerSpec LifeSpec SubsSpec LinkSpec RecvSpec ReplySpec RecordSpec RunProofs BrokerFacts
  AccSpec EndSpec EndProofs CliSpec StallSpec GetSpec GetProofs BrokerProps LifeProps AccProps EndProps StallProps DoneProps.
Import ListNotations.
Local Open Scope N_scope.
Local Open Scope list_scope.

Section Props.
  Variables (hash5 : wpub5 -> N) (hash3 : wpub3 -> N) (pick : draw -> broker -> string -> string -> N).
  Local Notation gone_through := (gone_through hash5 hash3 pick).

  (** Missing in all four: logs in which a client holds 65535 identifiers ([few_enough]); for
      protocol 5, logs in which a message expired after being sent ([expired_unsent]). *)
  Theorem C80_to_application_5_5_partial : forall c h1 b1 j s len w b2 out h b k0 a k r, cf_max_qos c <= 2 -> (forall p, In p h -> after_1970 p) ->
    gone_through c h1 b1 (EPacket5 j len (IPub w)) b2 out h b j (a_id a) ->
    sess_at b1 j = Some (A5 s) -> wf_in5 (IPub w) -> len <= cf_packet_server c -> (forall code reason, ~ In (OPkt5 j (KDisconnect code reason)) out) ->
    sess_at b1 k0 = Some a -> not_removed b1 k0 -> sess_at b k = Some (A5 r) -> s_id r = a_id a ->
    exists l m, life5 j h1 l /\ on_record c h1 k0 a m /\ forall T f q,
      topic_for (cf_alias_max c) l w = Some T -> (forall p, w5_qp w = Q2 p -> opener l p = None /\ w5_dup w = false) ->
      m f = Some q -> plain f -> topic_matches f T -> wanted s (a_id a) f ->
      exists y lr l1 now live o n l2, life5 k h lr /\ srun5 hash5 c r lr /\ reached5 (a_id a) h j (queued_in j (a_id a) h1 b1) y lr l1 now live o /\ enc_len5 w = Some n /\
        lr = l1 ++ (if live then VMsg now y else VLost now y, o) :: l2 /\ finds5 hash5 c lr l1 l2 now y T (w5_payload w) (qp_qos (w5_qp w)) n f q.
  Proof.
    intros c h1 b1 j s len w b2 out h b k0 a k r MQ AF GT A WF LE ND AK NR AR ID.
    destruct (C73_end_to_end_5_5 hash5 hash3 pick c h1 b1 j s len w b2 out h b k0 a k r MQ GT A WF LE ND AK NR AR ID) as (l & m & L & RC & H). exists l, m. split; auto. split; auto.
    intros T f q HT HQ MF PL MT WT. destruct (H T f q HT HQ MF PL MT WT) as (y & lr & l1 & now & live & o & n & LR & SR & RE & EN & FT).
    destruct (get5 _ _ _ _ _ _ _ _ _ _ _ _ _ _ _ _ _ _ _ _ AF LR SR RE FT) as (l2 & E & F). exists y, lr, l1, now, live, o, n, l2. repeat (split; [assumption|]). exact F.
  Qed.
  Theorem C80_to_application_5_3_partial : forall c h1 b1 j s len w b2 out h b k0 a k r, cf_max_qos c <= 2 -> (forall p, In p h -> after_1970 p) ->
    gone_through c h1 b1 (EPacket5 j len (IPub w)) b2 out h b j (a_id a) ->
    sess_at b1 j = Some (A5 s) -> wf_in5 (IPub w) -> len <= cf_packet_server c -> (forall code reason, ~ In (OPkt5 j (KDisconnect code reason)) out) ->
    sess_at b1 k0 = Some a -> not_removed b1 k0 -> sess_at b k = Some (A3 r) -> z_id r = a_id a ->
    exists l m, life5 j h1 l /\ on_record c h1 k0 a m /\ forall T f q,
      topic_for (cf_alias_max c) l w = Some T -> (forall p, w5_qp w = Q2 p -> opener l p = None /\ w5_dup w = false) ->
      m f = Some q -> plain f -> topic_matches f T -> wanted s (a_id a) f ->
      exists y lr l1 now live o l2, life3 k h lr /\ srun3 hash3 c r lr /\ reached3 (a_id a) h j (queued_in j (a_id a) h1 b1) y lr l1 now live o /\
        lr = l1 ++ (if live then UMsg now y else ULost now y, o) :: l2 /\ finds3 hash3 c (ready3 c h b k r) lr l1 l2 now y T (w5_payload w) (qp_qos (w5_qp w)) f q.
  Proof.
    intros c h1 b1 j s len w b2 out h b k0 a k r MQ AF GT A WF LE ND AK NR AR ID.
    destruct (C73_end_to_end_5_3 hash5 hash3 pick c h1 b1 j s len w b2 out h b k0 a k r MQ GT A WF LE ND AK NR AR ID) as (l & m & L & RC & H). exists l, m. split; auto. split; auto.
    intros T f q HT HQ MF PL MT WT. destruct (H T f q HT HQ MF PL MT WT) as (y & lr & l1 & now & live & o & LR & SR & RE & FT).
    destruct (get3 _ _ pick _ _ b _ _ _ _ _ _ _ _ _ _ _ _ _ _ _ _ MQ (gone_run _ _ _ _ _ _ _ _ _ _ _ _ _ GT) (proj1 (proj2 (proj2 GT))) AF LR SR RE FT) as (l2 & E & F).
    exists y, lr, l1, now, live, o, l2. repeat (split; [assumption|]). exact F.
  Qed.
  Theorem C80_to_application_3_5_partial : forall c h1 b1 j s len w b2 out h b k0 a k r, cf_max_qos c <= 2 -> (forall p, In p h -> after_1970 p) ->
    gone_through c h1 b1 (EPacket3 j len (YPub w)) b2 out h b j (a_id a) ->
    sess_at b1 j = Some (A3 s) -> wf_in3 (YPub w) -> len <= cf_packet_server c -> over b2 j = false -> (forall p, w3_qp w = Q2 p -> w3_dup w = false) ->
    sess_at b1 k0 = Some a -> not_removed b1 k0 -> sess_at b k = Some (A5 r) -> s_id r = a_id a ->
    exists m, on_record c h1 k0 a m /\ forall f q, m f = Some q -> plain f -> topic_matches f (w3_topic w) ->
      exists x1 y lr l1 now live o n l2, life5 k h lr /\ srun5 hash5 c r lr /\ reached5 (a_id a) h j (queued_in j (a_id a) h1 b1 ++ x1) y lr l1 now live o /\
        nm_filters y = [f] /\ Forall (fun x => nm_topic x = w3_topic w /\ nm_payload x = w3_payload w /\ nm_filters x <> [f]) x1 /\ (forall n', enc_len3 w = Some n' -> n = n' + 1) /\
        lr = l1 ++ (if live then VMsg now y else VLost now y, o) :: l2 /\ finds5 hash5 c lr l1 l2 now y (w3_topic w) (w3_payload w) (qp_qos (w3_qp w)) n f q.
  Proof.
    intros c h1 b1 j s len w b2 out h b k0 a k r MQ AF GT A WF LE OV DU AK NR AR ID.
    destruct (C73_end_to_end_3_5 hash5 hash3 pick c h1 b1 j s len w b2 out h b k0 a k r MQ GT A WF LE OV DU AK NR AR ID) as (m & RC & H). exists m. split; auto.
    intros f q MF PL MT. destruct (H f q MF PL MT) as (x1 & y & lr & l1 & now & live & o & n & LR & SR & RE & NF & FO & EN & FT).
    destruct (get5 _ _ _ _ _ _ _ _ _ _ _ _ _ _ _ _ _ _ _ _ AF LR SR RE FT) as (l2 & E & F). exists x1, y, lr, l1, now, live, o, n, l2. repeat (split; [assumption|]). exact F.
  Qed.
  Theorem C80_to_application_3_3_partial : forall c h1 b1 j s len w b2 out h b k0 a k r, cf_max_qos c <= 2 -> (forall p, In p h -> after_1970 p) ->
    gone_through c h1 b1 (EPacket3 j len (YPub w)) b2 out h b j (a_id a) ->
    sess_at b1 j = Some (A3 s) -> wf_in3 (YPub w) -> len <= cf_packet_server c -> over b2 j = false -> (forall p, w3_qp w = Q2 p -> w3_dup w = false) ->
    sess_at b1 k0 = Some a -> not_removed b1 k0 -> sess_at b k = Some (A3 r) -> z_id r = a_id a ->
    exists m, on_record c h1 k0 a m /\ forall f q, m f = Some q -> plain f -> topic_matches f (w3_topic w) ->
      exists x1 y lr l1 now live o l2, life3 k h lr /\ srun3 hash3 c r lr /\ reached3 (a_id a) h j (queued_in j (a_id a) h1 b1 ++ x1) y lr l1 now live o /\
        nm_filters y = [f] /\ Forall (fun x => nm_topic x = w3_topic w /\ nm_payload x = w3_payload w /\ nm_filters x <> [f]) x1 /\
        lr = l1 ++ (if live then UMsg now y else ULost now y, o) :: l2 /\ finds3 hash3 c (ready3 c h b k r) lr l1 l2 now y (w3_topic w) (w3_payload w) (qp_qos (w3_qp w)) f q.
  Proof.
    intros c h1 b1 j s len w b2 out h b k0 a k r MQ AF GT A WF LE OV DU AK NR AR ID.
    destruct (C73_end_to_end_3_3 hash5 hash3 pick c h1 b1 j s len w b2 out h b k0 a k r MQ GT A WF LE OV DU AK NR AR ID) as (m & RC & H). exists m. split; auto.
    intros f q MF PL MT. destruct (H f q MF PL MT) as (x1 & y & lr & l1 & now & live & o & LR & SR & RE & NF & FO & FT).
    destruct (get3 _ _ pick _ _ b _ _ _ _ _ _ _ _ _ _ _ _ _ _ _ _ MQ (gone_run _ _ _ _ _ _ _ _ _ _ _ _ _ GT) (proj1 (proj2 (proj2 GT))) AF LR SR RE FT) as (l2 & E & F).
    exists x1, y, lr, l1, now, live, o, l2. repeat (split; [assumption|]). exact F.
  Qed.
End Props.
Print Assumptions C80_to_application_5_5_partial.
Print Assumptions C80_to_application_5_3_partial.
Print Assumptions C80_to_application_3_5_partial.
Print Assumptions C80_to_application_3_3_partial.

(** ** A case that meets the hypotheses
    "p" (protocol 5) publishes with QoS 1; "c" (protocol 3) gets the message and acknowledges it.
    [DoneProps.done_case] shows the log of "c" in this run, with the message queued, sent and
    acknowledged, and that its application got it. *)
Definition g_evs : list bev := [ETick 100000; x_c3 false "c" true 60 None] ++ x_up 0 ++ [x_s3 0 "t"; x_c5 "p" true 60 None None] ++ x_up 1.
Example to_application_case : exists h1 b1, x_run h1 b1 /\ exists b2 out h b, gone_through x_h5 x_h3 x_pick config_default h1 b1 (x_pub 1 "t") b2 out h b 1 0 /\
  (forall p, In p h -> after_1970 p) /\ out = [OPkt5 1 (KPuback 7 0)] /\ (exists s, sess_at b1 1 = Some (A5 s) /\ wanted s 0 "t") /\
  (exists a r, sess_at b1 0 = Some a /\ not_removed b1 0 /\ a_id a = 0 /\ sess_at b 0 = Some (A3 r) /\ z_id r = 0 /\ ready3 config_default h b 0 r /\
     exists m, on_record config_default h1 0 a m /\ m "t"%string = Some L1).
Proof.
  run_of g_evs. match goal with |- exists b2 out h b, gone_through _ _ _ _ ?h1 ?b1 _ _ _ _ _ _ _ /\ _ => assert (R : BrokerSpec.brun x_h5 x_h3 x_pick config_default h1 b1) by (apply (trace_new x_h5 x_h3 x_pick config_default g_evs); vm_compute; reflexivity);
    assert (P1 : forall p, In p h1 -> proper p) by proper_of end.
  gone_of [EFlush 1 0; ENormal 0; EPacket3 0 4 (YPuback 1)].
  split; [eapply G1; reflexivity|]. split; [after_of|]. split; [reflexivity|]. split; [eexists; split; [reflexivity|intros X; discriminate X]|].
  do 2 eexists. split; [reflexivity|]. split; [intros ? X; vm_compute in X; discriminate X|]. split; [reflexivity|]. split; [reflexivity|]. split; [reflexivity|].
  split; [split; [reflexivity|split; [late_of|reflexivity]]|]. match goal with |- exists m, on_record _ ?h ?k ?a m /\ _ => on_record_of R P1 k a end.
Qed.
