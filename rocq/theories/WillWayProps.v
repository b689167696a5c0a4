(** C81: the will of a client that is gone gets to every subscriber.

    In state [b1] a step of the server published will [w] of connection [j] (C31 says when that
    happens), [a] is the session of a client then subscribed to the will's topic, and later, in state
    [b], that client has session [r] on connection [k] and the messages between the two have gone
    through ([gone_through], EndSpec).  Then the session of the subscriber was handed the will, once,
    after what connection [j] had published before it ([reached5], [reached3]), and does with it what
    C73 says of a PUBLISH ([fate5], [fate3]).  From there it goes on to the application of the
    client as in C80 ([finds5], [finds3]; GetSpec).

    That the topic of a will is a valid topic name is checked when CONNECT is decoded, outside the
    model: [valid_topic_name]. *)
From Coq Require Import List Bool NArith String.
From Verif Require Import Base TopicModel TopicSpec MsgModel OutModel OutSpec RouteModel RouteSpec GlobModel Sess5Model Sess3Model ConnModel BrokerModel DelivSpec InSpec BrokerSpec LifeSpec SubsSpec LinkSpec RecvSpec ReplySpec RecordSpec RunProofs BrokerFacts
  AccSpec EndSpec EndProofs CliSpec StallSpec GetSpec GetProofs WillWaySpec WillWayProofs BrokerProps LifeProps AccProps EndProps StallProps DoneProps.
Import ListNotations.
Local Open Scope N_scope.
Local Open Scope list_scope.

Section Props.
  Variables (hash5 : wpub5 -> N) (hash3 : wpub3 -> N) (pick : draw -> broker -> string -> string -> N).
  Local Notation gone_through := (gone_through hash5 hash3 pick).

  (** ** To the session of the subscriber *)

  Theorem C81_will_5_5 : forall c h1 b1 e b2 out h b j w k0 a k r, cf_max_qos c <= 2 ->
    gone_through c h1 b1 e b2 out h b j (a_id a) -> In (OWill5 j w) out -> valid_topic_name (wl_topic w) ->
    sess_at b1 k0 = Some a -> not_removed b1 k0 -> sess_at b k = Some (A5 r) -> s_id r = a_id a ->
    exists s n m, sess_at b1 j = Some (A5 s) /\ s_will s = Some w /\ enc_len5 (will_packet5 w) = Some n /\ on_record c h1 k0 a m /\
      forall f q, m f = Some q -> plain f -> topic_matches f (wl_topic w) -> wanted s (a_id a) f ->
        exists y lr l1 now live o, life5 k h lr /\ srun5 hash5 c r lr /\ reached5 (a_id a) h j (queued_in j (a_id a) h1 b1) y lr l1 now live o /\
          fate5 hash5 c l1 now y live o (wl_topic w) (wl_payload w) (wl_qos w) n f q.
  Proof. exact (will55 hash5 hash3 pick). Qed.
  Theorem C81_will_5_3 : forall c h1 b1 e b2 out h b j w k0 a k r, cf_max_qos c <= 2 ->
    gone_through c h1 b1 e b2 out h b j (a_id a) -> In (OWill5 j w) out -> valid_topic_name (wl_topic w) ->
    sess_at b1 k0 = Some a -> not_removed b1 k0 -> sess_at b k = Some (A3 r) -> z_id r = a_id a ->
    exists s m, sess_at b1 j = Some (A5 s) /\ s_will s = Some w /\ on_record c h1 k0 a m /\
      forall f q, m f = Some q -> plain f -> topic_matches f (wl_topic w) -> wanted s (a_id a) f ->
        exists y lr l1 now live o, life3 k h lr /\ srun3 hash3 c r lr /\ reached3 (a_id a) h j (queued_in j (a_id a) h1 b1) y lr l1 now live o /\
          fate3 hash3 c l1 now y live o (wl_topic w) (wl_payload w) (wl_qos w) f q.
  Proof. exact (will53 hash5 hash3 pick). Qed.
  Theorem C81_will_3_5 : forall c h1 b1 e b2 out h b j w k0 a k r, cf_max_qos c <= 2 ->
    gone_through c h1 b1 e b2 out h b j (a_id a) -> In (OWill3 j w) out -> valid_topic_name (wl3_topic w) ->
    sess_at b1 k0 = Some a -> not_removed b1 k0 -> sess_at b k = Some (A5 r) -> s_id r = a_id a ->
    exists s n m, sess_at b1 j = Some (A3 s) /\ z_will s = Some w /\ enc_len3 (will_packet3 w) = Some n /\ on_record c h1 k0 a m /\
      forall f q, m f = Some q -> plain f -> topic_matches f (wl3_topic w) ->
        exists x1 y lr l1 now live o, life5 k h lr /\ srun5 hash5 c r lr /\ reached5 (a_id a) h j (queued_in j (a_id a) h1 b1 ++ x1) y lr l1 now live o /\
          nm_filters y = [f] /\ Forall (fun x => nm_topic x = wl3_topic w /\ nm_payload x = wl3_payload w /\ nm_filters x <> [f]) x1 /\
          fate5 hash5 c l1 now y live o (wl3_topic w) (wl3_payload w) (wl3_qos w) (n + 1) f q.
  Proof. exact (will35 hash5 hash3 pick). Qed.
  Theorem C81_will_3_3 : forall c h1 b1 e b2 out h b j w k0 a k r, cf_max_qos c <= 2 ->
    gone_through c h1 b1 e b2 out h b j (a_id a) -> In (OWill3 j w) out -> valid_topic_name (wl3_topic w) ->
    sess_at b1 k0 = Some a -> not_removed b1 k0 -> sess_at b k = Some (A3 r) -> z_id r = a_id a ->
    exists s m, sess_at b1 j = Some (A3 s) /\ z_will s = Some w /\ on_record c h1 k0 a m /\
      forall f q, m f = Some q -> plain f -> topic_matches f (wl3_topic w) ->
        exists x1 y lr l1 now live o, life3 k h lr /\ srun3 hash3 c r lr /\ reached3 (a_id a) h j (queued_in j (a_id a) h1 b1 ++ x1) y lr l1 now live o /\
          nm_filters y = [f] /\ Forall (fun x => nm_topic x = wl3_topic w /\ nm_payload x = wl3_payload w /\ nm_filters x <> [f]) x1 /\
          fate3 hash3 c l1 now y live o (wl3_topic w) (wl3_payload w) (wl3_qos w) f q.
  Proof. exact (will33 hash5 hash3 pick). Qed.

  (** ** To its application

      Missing in all four, as in C80: logs in which a client holds 65535 identifiers
      ([few_enough]); for protocol 5, logs in which a message expired after being sent
      ([expired_unsent]). *)

  Theorem C81_will_5_5_application_partial : forall c h1 b1 e b2 out h b j w k0 a k r, cf_max_qos c <= 2 -> (forall p, In p h -> after_1970 p) ->
    gone_through c h1 b1 e b2 out h b j (a_id a) -> In (OWill5 j w) out -> valid_topic_name (wl_topic w) ->
    sess_at b1 k0 = Some a -> not_removed b1 k0 -> sess_at b k = Some (A5 r) -> s_id r = a_id a ->
    exists s n m, sess_at b1 j = Some (A5 s) /\ s_will s = Some w /\ enc_len5 (will_packet5 w) = Some n /\ on_record c h1 k0 a m /\
      forall f q, m f = Some q -> plain f -> topic_matches f (wl_topic w) -> wanted s (a_id a) f ->
        exists y lr l1 now live o l2, life5 k h lr /\ srun5 hash5 c r lr /\ reached5 (a_id a) h j (queued_in j (a_id a) h1 b1) y lr l1 now live o /\
          lr = l1 ++ (if live then VMsg now y else VLost now y, o) :: l2 /\ finds5 hash5 c lr l1 l2 now y (wl_topic w) (wl_payload w) (wl_qos w) n f q.
  Proof.
    intros c h1 b1 e b2 out h b j w k0 a k r MQ AF GT IW V AK NR AR ID. destruct (C81_will_5_5 c h1 b1 e b2 out h b j w k0 a k r MQ GT IW V AK NR AR ID) as (s & n & m & SJ & SW & EN & RC & H).
    exists s, n, m. repeat (split; [assumption|]). intros f q MF PL MT WT. destruct (H f q MF PL MT WT) as (y & lr & l1 & now & live & o & LR & SR & RE & FT).
    destruct (get5 _ _ _ _ _ _ _ _ _ _ _ _ _ _ _ _ _ _ _ _ AF LR SR RE FT) as (l2 & E & F). exists y, lr, l1, now, live, o, l2. repeat (split; [assumption|]). exact F.
  Qed.
  Theorem C81_will_5_3_application_partial : forall c h1 b1 e b2 out h b j w k0 a k r, cf_max_qos c <= 2 -> (forall p, In p h -> after_1970 p) ->
    gone_through c h1 b1 e b2 out h b j (a_id a) -> In (OWill5 j w) out -> valid_topic_name (wl_topic w) ->
    sess_at b1 k0 = Some a -> not_removed b1 k0 -> sess_at b k = Some (A3 r) -> z_id r = a_id a ->
    exists s m, sess_at b1 j = Some (A5 s) /\ s_will s = Some w /\ on_record c h1 k0 a m /\
      forall f q, m f = Some q -> plain f -> topic_matches f (wl_topic w) -> wanted s (a_id a) f ->
        exists y lr l1 now live o l2, life3 k h lr /\ srun3 hash3 c r lr /\ reached3 (a_id a) h j (queued_in j (a_id a) h1 b1) y lr l1 now live o /\
          lr = l1 ++ (if live then UMsg now y else ULost now y, o) :: l2 /\ finds3 hash3 c (ready3 c h b k r) lr l1 l2 now y (wl_topic w) (wl_payload w) (wl_qos w) f q.
  Proof.
    intros c h1 b1 e b2 out h b j w k0 a k r MQ AF GT IW V AK NR AR ID. destruct (C81_will_5_3 c h1 b1 e b2 out h b j w k0 a k r MQ GT IW V AK NR AR ID) as (s & m & SJ & SW & RC & H).
    exists s, m. repeat (split; [assumption|]). intros f q MF PL MT WT. destruct (H f q MF PL MT WT) as (y & lr & l1 & now & live & o & LR & SR & RE & FT).
    destruct (get3 _ _ pick _ _ b _ _ _ _ _ _ _ _ _ _ _ _ _ _ _ _ MQ (gone_run _ _ _ _ _ _ _ _ _ _ _ _ _ GT) (proj1 (proj2 (proj2 GT))) AF LR SR RE FT) as (l2 & E & F). exists y, lr, l1, now, live, o, l2. repeat (split; [assumption|]). exact F.
  Qed.
  Theorem C81_will_3_5_application_partial : forall c h1 b1 e b2 out h b j w k0 a k r, cf_max_qos c <= 2 -> (forall p, In p h -> after_1970 p) ->
    gone_through c h1 b1 e b2 out h b j (a_id a) -> In (OWill3 j w) out -> valid_topic_name (wl3_topic w) ->
    sess_at b1 k0 = Some a -> not_removed b1 k0 -> sess_at b k = Some (A5 r) -> s_id r = a_id a ->
    exists s n m, sess_at b1 j = Some (A3 s) /\ z_will s = Some w /\ enc_len3 (will_packet3 w) = Some n /\ on_record c h1 k0 a m /\
      forall f q, m f = Some q -> plain f -> topic_matches f (wl3_topic w) ->
        exists x1 y lr l1 now live o l2, life5 k h lr /\ srun5 hash5 c r lr /\ reached5 (a_id a) h j (queued_in j (a_id a) h1 b1 ++ x1) y lr l1 now live o /\
          nm_filters y = [f] /\ Forall (fun x => nm_topic x = wl3_topic w /\ nm_payload x = wl3_payload w /\ nm_filters x <> [f]) x1 /\
          lr = l1 ++ (if live then VMsg now y else VLost now y, o) :: l2 /\ finds5 hash5 c lr l1 l2 now y (wl3_topic w) (wl3_payload w) (wl3_qos w) (n + 1) f q.
  Proof.
    intros c h1 b1 e b2 out h b j w k0 a k r MQ AF GT IW V AK NR AR ID. destruct (C81_will_3_5 c h1 b1 e b2 out h b j w k0 a k r MQ GT IW V AK NR AR ID) as (s & n & m & SJ & SW & EN & RC & H).
    exists s, n, m. repeat (split; [assumption|]). intros f q MF PL MT. destruct (H f q MF PL MT) as (x1 & y & lr & l1 & now & live & o & LR & SR & RE & NF & FO & FT).
    destruct (get5 _ _ _ _ _ _ _ _ _ _ _ _ _ _ _ _ _ _ _ _ AF LR SR RE FT) as (l2 & E & F). exists x1, y, lr, l1, now, live, o, l2. repeat (split; [assumption|]). exact F.
  Qed.
  Theorem C81_will_3_3_application_partial : forall c h1 b1 e b2 out h b j w k0 a k r, cf_max_qos c <= 2 -> (forall p, In p h -> after_1970 p) ->
    gone_through c h1 b1 e b2 out h b j (a_id a) -> In (OWill3 j w) out -> valid_topic_name (wl3_topic w) ->
    sess_at b1 k0 = Some a -> not_removed b1 k0 -> sess_at b k = Some (A3 r) -> z_id r = a_id a ->
    exists s m, sess_at b1 j = Some (A3 s) /\ z_will s = Some w /\ on_record c h1 k0 a m /\
      forall f q, m f = Some q -> plain f -> topic_matches f (wl3_topic w) ->
        exists x1 y lr l1 now live o l2, life3 k h lr /\ srun3 hash3 c r lr /\ reached3 (a_id a) h j (queued_in j (a_id a) h1 b1 ++ x1) y lr l1 now live o /\
          nm_filters y = [f] /\ Forall (fun x => nm_topic x = wl3_topic w /\ nm_payload x = wl3_payload w /\ nm_filters x <> [f]) x1 /\
          lr = l1 ++ (if live then UMsg now y else ULost now y, o) :: l2 /\ finds3 hash3 c (ready3 c h b k r) lr l1 l2 now y (wl3_topic w) (wl3_payload w) (wl3_qos w) f q.
  Proof.
    intros c h1 b1 e b2 out h b j w k0 a k r MQ AF GT IW V AK NR AR ID. destruct (C81_will_3_3 c h1 b1 e b2 out h b j w k0 a k r MQ GT IW V AK NR AR ID) as (s & m & SJ & SW & RC & H).
    exists s, m. repeat (split; [assumption|]). intros f q MF PL MT. destruct (H f q MF PL MT) as (x1 & y & lr & l1 & now & live & o & LR & SR & RE & NF & FO & FT).
    destruct (get3 _ _ pick _ _ b _ _ _ _ _ _ _ _ _ _ _ _ _ _ _ _ MQ (gone_run _ _ _ _ _ _ _ _ _ _ _ _ _ GT) (proj1 (proj2 (proj2 GT))) AF LR SR RE FT) as (l2 & E & F). exists x1, y, lr, l1, now, live, o, l2. repeat (split; [assumption|]). exact F.
  Qed.
End Props.
Print Assumptions C81_will_5_5.
Print Assumptions C81_will_5_3.
Print Assumptions C81_will_3_5.
Print Assumptions C81_will_3_3.
Print Assumptions C81_will_5_5_application_partial.
Print Assumptions C81_will_5_3_application_partial.
Print Assumptions C81_will_3_5_application_partial.
Print Assumptions C81_will_3_3_application_partial.

(** ** A case that meets the hypotheses
    "p" (protocol 5) has a will of QoS 1 and loses its connection; "c" (protocol 3) gets the will and
    acknowledges it. *)
Definition v_will : will5 := Will5 L1 false "w" "bye" None (PProps None None [] "").
Definition v_evs : list bev := [ETick 100000; x_c3 false "c" true 60 None] ++ x_up 0 ++ [x_s3 0 "w"; x_c5 "p" true 60 None (Some v_will)] ++ x_up 1 ++ [EClose 1].
Example will_case : exists h1 b1, x_run h1 b1 /\ exists b2 out h b, gone_through x_h5 x_h3 x_pick config_default h1 b1 (EEnd 1 true) b2 out h b 1 0 /\
  (forall p, In p h -> after_1970 p) /\ In (OWill5 1 v_will) out /\ valid_topic_name (wl_topic v_will) /\ (exists s, sess_at b1 1 = Some (A5 s) /\ wanted s 0 "w") /\
  (exists a r, sess_at b1 0 = Some a /\ not_removed b1 0 /\ a_id a = 0 /\ sess_at b 0 = Some (A3 r) /\ z_id r = 0 /\ ready3 config_default h b 0 r /\
     exists m, on_record config_default h1 0 a m /\ m "w"%string = Some L1).
Proof.
  run_of v_evs. match goal with |- exists b2 out h b, gone_through _ _ _ _ ?h1 ?b1 _ _ _ _ _ _ _ /\ _ => assert (R : BrokerSpec.brun x_h5 x_h3 x_pick config_default h1 b1) by (apply (trace_new x_h5 x_h3 x_pick config_default v_evs); vm_compute; reflexivity);
    assert (P1 : forall p, In p h1 -> proper p) by proper_of end.
  gone_of [EFlush 1 0; ENormal 0; EPacket3 0 4 (YPuback 1)].
  split; [eapply G1; reflexivity|]. split; [after_of|]. split; [left; reflexivity|]. split; [split; reflexivity|]. split; [eexists; split; [reflexivity|intros X; discriminate X]|].
  do 2 eexists. split; [reflexivity|]. split; [intros ? X; vm_compute in X; discriminate X|]. split; [reflexivity|]. split; [reflexivity|]. split; [reflexivity|].
  split; [split; [reflexivity|split; [late_of|reflexivity]]|]. match goal with |- exists m, on_record _ ?h ?k ?a m /\ _ => on_record_of R P1 k a end.
Qed.
