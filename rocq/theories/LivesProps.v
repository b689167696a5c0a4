(** What the history of the broker says about a session is unambiguous (C49, C73, C80-C82, C84).

    Theorems elsewhere speak of the events a session has seen ([life5], [life3], LifeSpec) and of
    what it is subscribed to according to them ([on_record], RecordSpec), and say that there are such
    events.  Here it is proved that whichever are taken, they agree on what matters: the topic an
    alias stands for, the open QoS 2 identifiers and the subscriptions.  So these theorems
    hold of all of them, and the stores and removals of retained messages that C82 speaks of ([keeps],
    RetRunSpec) are determined by the history. *)
From Coq Require Import List Bool NArith String.
From Verif Require Import Base TopicModel TopicSpec MsgModel OutModel OutSpec RouteModel RouteSpec RetainModel RetainSpec GlobModel Sess5Model Sess3Model ConnModel BrokerModel DelivSpec InSpec BrokerSpec LifeSpec SubsSpec LinkSpec RecvSpec ReplySpec RecordSpec RunProofs BrokerFacts
  AccSpec EndSpec EndProofs CliSpec StallSpec GetSpec ShareSpec LeaveSpec WillWaySpec RetRunSpec LivesProofs LivesRet BrokerProps LifeProps AccProps EndProps GetProps ShareProps LeaveProps WillWayProps RetRunProps.
Import ListNotations.
Local Open Scope N_scope.
Local Open Scope list_scope.

Section Props.
  Variables (hash5 : wpub5 -> N) (hash3 : wpub3 -> N) (pick : draw -> broker -> string -> string -> N).
  Local Notation brun := (BrokerSpec.brun hash5 hash3 pick).
  Local Notation bstep := (BrokerModel.bstep hash5 hash3 pick).
  Local Notation gone_through := (gone_through hash5 hash3 pick).

  (** ** All lives agree *)
  Theorem C49_lives_agree : forall c h b k s l1 l2, brun c h b -> sess_at b k = Some (A5 s) -> life5 k h l1 -> life5 k h l2 ->
    (forall amax w, topic_for amax l1 w = topic_for amax l2 w) /\ (forall i, opener l1 i = opener l2 i) /\ (forall f, subscribed5 l1 f = subscribed5 l2 f).
  Proof. exact (agree5_lemma hash5 hash3 pick). Qed.
  Theorem C49_v3_lives_agree : forall c h b k l1 l2, brun c h b -> life3 k h l1 -> life3 k h l2 ->
    (forall i, opener3 l1 i = opener3 l2 i) /\ (forall cf f, subscribed3 cf l1 f = subscribed3 cf l2 f).
  Proof. exact (agree3_lemma hash5 hash3 pick). Qed.
  Theorem C49_one_record : forall c h b k a m1 m2, brun c h b -> sess_at b k = Some a -> on_record c h k a m1 -> on_record c h k a m2 -> forall f, m1 f = m2 f.
  Proof. exact (record_once_lemma hash5 hash3 pick). Qed.

  (** ** Retained messages (C82) *)
  Theorem C82_determined : forall c h b, brun c h b -> (forall p, In p h -> proper p) -> (exists hr, keeps c h b hr) /\ forall hr, keeps c h b hr ->
    forall f, valid_filter f -> exists l, ret_get_matches (b_retain b) f = Some l /\ NoDup (map rc_topic l) /\
      forall m, In m l <-> retained hr (rc_topic m) = Some m /\ topic_matches f (rc_topic m).
  Proof. exact (kept_all_lemma hash5 hash3 pick). Qed.

  (** ** Publishing, with any events and any record *)
  Theorem C49_published_any : forall c h b j s len w b' out, cf_max_qos c <= 2 -> brun c h b -> (forall p, In p h -> proper p) -> sess_at b j = Some (A5 s) ->
    wf_in5 (IPub w) -> len <= cf_packet_server c ->
    bstep (EPacket5 j len (IPub w)) b = BOk b' out -> (forall code reason, ~ In (OPkt5 j (KDisconnect code reason)) out) ->
    exists s', sess_at b' j = Some (A5 s') /\ forall l k a m, life5 j h l -> sess_at b k = Some a -> not_removed b k -> on_record c h k a m ->
      forall T f q, topic_for (cf_alias_max c) l w = Some T -> (forall p, w5_qp w = Q2 p -> opener l p = None /\ w5_dup w = false) ->
        m f = Some q -> plain f -> topic_matches f T -> wanted s (a_id a) f ->
        exists y, handed (s_bcast s) (s_bcast s') (a_id a) [y] /\ nm_topic y = T /\ nm_payload y = w5_payload w /\ nm_qos y = qp_qos (w5_qp w) /\ In f (nm_filters y).
  Proof.
    intros c h b j s len w b' out MQ R P A WF LE S ND. destruct (C49_broker_published hash5 hash3 pick c h b j s len w b' out MQ R P A WF LE S ND) as (l0 & s' & L0 & A' & H). exists s'. split; auto.
    intros l k a m L AK NR RC T f q HT HQ MF. destruct (H k a AK NR) as (m0 & RC0 & H0). destruct (agree5_lemma _ _ _ _ _ _ _ _ _ _ R A L L0) as (AT & AO & _). apply (H0 T f q).
    - rewrite <- AT. exact HT.
    - intros p Q. rewrite <- AO. exact (HQ p Q).
    - rewrite <- (record_once_lemma _ _ _ _ _ _ _ _ _ _ R AK RC RC0). exact MF.
  Qed.
  Theorem C49_v3_published_any : forall c h b j s len w b' out, cf_max_qos c <= 2 -> brun c h b -> (forall p, In p h -> proper p) -> sess_at b j = Some (A3 s) ->
    wf_in3 (YPub w) -> len <= cf_packet_server c ->
    bstep (EPacket3 j len (YPub w)) b = BOk b' out -> over b' j = false -> (forall p, w3_qp w = Q2 p -> w3_dup w = false) ->
    exists s', sess_at b' j = Some (A3 s') /\ forall k a m, sess_at b k = Some a -> not_removed b k -> on_record c h k a m ->
      forall f q, m f = Some q -> plain f -> topic_matches f (w3_topic w) ->
        exists xs y, handed (z_bcast s) (z_bcast s') (a_id a) xs /\ In y xs /\ nm_topic y = w3_topic w /\ nm_payload y = w3_payload w /\
          nm_qos y = qp_qos (w3_qp w) /\ nm_filters y = [f] /\ nm_sqos y = q.
  Proof.
    intros c h b j s len w b' out MQ R P A WF LE S OV DU. destruct (C49_v3_broker_published hash5 hash3 pick c h b j s len w b' out MQ R P A WF LE S OV DU) as (s' & A' & H). exists s'. split; auto.
    intros k a m AK NR RC f q MF. destruct (H k a AK NR) as (m0 & RC0 & H0). apply (H0 f q). rewrite <- (record_once_lemma _ _ _ _ _ _ _ _ _ _ R AK RC RC0). exact MF.
  Qed.

  (** ** To the session of a subscriber (C73) *)
  Theorem C73_any_5_5 : forall c h1 b1 j s len w b2 out h b k0 a k r, cf_max_qos c <= 2 ->
    gone_through c h1 b1 (EPacket5 j len (IPub w)) b2 out h b j (a_id a) ->
    sess_at b1 j = Some (A5 s) -> wf_in5 (IPub w) -> len <= cf_packet_server c -> (forall code reason, ~ In (OPkt5 j (KDisconnect code reason)) out) ->
    sess_at b1 k0 = Some a -> not_removed b1 k0 -> sess_at b k = Some (A5 r) -> s_id r = a_id a ->
    forall l m, life5 j h1 l -> on_record c h1 k0 a m -> forall T f q,
      topic_for (cf_alias_max c) l w = Some T -> (forall p, w5_qp w = Q2 p -> opener l p = None /\ w5_dup w = false) ->
      m f = Some q -> plain f -> topic_matches f T -> wanted s (a_id a) f ->
      exists y lr l1 now live o n, life5 k h lr /\ srun5 hash5 c r lr /\ reached5 (a_id a) h j (queued_in j (a_id a) h1 b1) y lr l1 now live o /\ enc_len5 w = Some n /\
        fate5 hash5 c l1 now y live o T (w5_payload w) (qp_qos (w5_qp w)) n f q.
  Proof.
    intros c h1 b1 j s len w b2 out h b k0 a k r MQ GT A WF LE ND AK NR AR ID l m L RC T f q HT HQ MF.
    destruct (C73_end_to_end_5_5 hash5 hash3 pick c h1 b1 j s len w b2 out h b k0 a k r MQ GT A WF LE ND AK NR AR ID) as (l0 & m0 & L0 & RC0 & H). pose proof (proj1 GT) as R.
    destruct (agree5_lemma _ _ _ _ _ _ _ _ _ _ R A L L0) as (AT & AO & _). apply (H T f q).
    - rewrite <- AT. exact HT.
    - intros p Q. rewrite <- AO. exact (HQ p Q).
    - rewrite <- (record_once_lemma _ _ _ _ _ _ _ _ _ _ R AK RC RC0). exact MF.
  Qed.
  Theorem C73_any_5_3 : forall c h1 b1 j s len w b2 out h b k0 a k r, cf_max_qos c <= 2 ->
    gone_through c h1 b1 (EPacket5 j len (IPub w)) b2 out h b j (a_id a) ->
    sess_at b1 j = Some (A5 s) -> wf_in5 (IPub w) -> len <= cf_packet_server c -> (forall code reason, ~ In (OPkt5 j (KDisconnect code reason)) out) ->
    sess_at b1 k0 = Some a -> not_removed b1 k0 -> sess_at b k = Some (A3 r) -> z_id r = a_id a ->
    forall l m, life5 j h1 l -> on_record c h1 k0 a m -> forall T f q,
      topic_for (cf_alias_max c) l w = Some T -> (forall p, w5_qp w = Q2 p -> opener l p = None /\ w5_dup w = false) ->
      m f = Some q -> plain f -> topic_matches f T -> wanted s (a_id a) f ->
      exists y lr l1 now live o, life3 k h lr /\ srun3 hash3 c r lr /\ reached3 (a_id a) h j (queued_in j (a_id a) h1 b1) y lr l1 now live o /\
        fate3 hash3 c l1 now y live o T (w5_payload w) (qp_qos (w5_qp w)) f q.
  Proof.
    intros c h1 b1 j s len w b2 out h b k0 a k r MQ GT A WF LE ND AK NR AR ID l m L RC T f q HT HQ MF.
    destruct (C73_end_to_end_5_3 hash5 hash3 pick c h1 b1 j s len w b2 out h b k0 a k r MQ GT A WF LE ND AK NR AR ID) as (l0 & m0 & L0 & RC0 & H). pose proof (proj1 GT) as R.
    destruct (agree5_lemma _ _ _ _ _ _ _ _ _ _ R A L L0) as (AT & AO & _). apply (H T f q).
    - rewrite <- AT. exact HT.
    - intros p Q. rewrite <- AO. exact (HQ p Q).
    - rewrite <- (record_once_lemma _ _ _ _ _ _ _ _ _ _ R AK RC RC0). exact MF.
  Qed.
  Theorem C73_any_3_5 : forall c h1 b1 j s len w b2 out h b k0 a k r, cf_max_qos c <= 2 ->
    gone_through c h1 b1 (EPacket3 j len (YPub w)) b2 out h b j (a_id a) ->
    sess_at b1 j = Some (A3 s) -> wf_in3 (YPub w) -> len <= cf_packet_server c -> over b2 j = false -> (forall p, w3_qp w = Q2 p -> w3_dup w = false) ->
    sess_at b1 k0 = Some a -> not_removed b1 k0 -> sess_at b k = Some (A5 r) -> s_id r = a_id a ->
    forall m, on_record c h1 k0 a m -> forall f q, m f = Some q -> plain f -> topic_matches f (w3_topic w) ->
      exists x1 y lr l1 now live o n, life5 k h lr /\ srun5 hash5 c r lr /\ reached5 (a_id a) h j (queued_in j (a_id a) h1 b1 ++ x1) y lr l1 now live o /\
        nm_filters y = [f] /\ Forall (fun x => nm_topic x = w3_topic w /\ nm_payload x = w3_payload w /\ nm_filters x <> [f]) x1 /\ (forall n', enc_len3 w = Some n' -> n = n' + 1) /\
        fate5 hash5 c l1 now y live o (w3_topic w) (w3_payload w) (qp_qos (w3_qp w)) n f q.
  Proof.
    intros c h1 b1 j s len w b2 out h b k0 a k r MQ GT A WF LE OV DU AK NR AR ID m RC f q MF.
    destruct (C73_end_to_end_3_5 hash5 hash3 pick c h1 b1 j s len w b2 out h b k0 a k r MQ GT A WF LE OV DU AK NR AR ID) as (m0 & RC0 & H).
    apply (H f q). rewrite <- (record_once_lemma _ _ _ _ _ _ _ _ _ _ (proj1 GT) AK RC RC0). exact MF.
  Qed.
  Theorem C73_any_3_3 : forall c h1 b1 j s len w b2 out h b k0 a k r, cf_max_qos c <= 2 ->
    gone_through c h1 b1 (EPacket3 j len (YPub w)) b2 out h b j (a_id a) ->
    sess_at b1 j = Some (A3 s) -> wf_in3 (YPub w) -> len <= cf_packet_server c -> over b2 j = false -> (forall p, w3_qp w = Q2 p -> w3_dup w = false) ->
    sess_at b1 k0 = Some a -> not_removed b1 k0 -> sess_at b k = Some (A3 r) -> z_id r = a_id a ->
    forall m, on_record c h1 k0 a m -> forall f q, m f = Some q -> plain f -> topic_matches f (w3_topic w) ->
      exists x1 y lr l1 now live o, life3 k h lr /\ srun3 hash3 c r lr /\ reached3 (a_id a) h j (queued_in j (a_id a) h1 b1 ++ x1) y lr l1 now live o /\
        nm_filters y = [f] /\ Forall (fun x => nm_topic x = w3_topic w /\ nm_payload x = w3_payload w /\ nm_filters x <> [f]) x1 /\
        fate3 hash3 c l1 now y live o (w3_topic w) (w3_payload w) (qp_qos (w3_qp w)) f q.
  Proof.
    intros c h1 b1 j s len w b2 out h b k0 a k r MQ GT A WF LE OV DU AK NR AR ID m RC f q MF.
    destruct (C73_end_to_end_3_3 hash5 hash3 pick c h1 b1 j s len w b2 out h b k0 a k r MQ GT A WF LE OV DU AK NR AR ID) as (m0 & RC0 & H).
    apply (H f q). rewrite <- (record_once_lemma _ _ _ _ _ _ _ _ _ _ (proj1 GT) AK RC RC0). exact MF.
  Qed.

  (** ** To its application (C80); as there, logs with 65535 identifiers at once and expired messages are missing *)
  Theorem C80_any_5_5_partial : forall c h1 b1 j s len w b2 out h b k0 a k r, cf_max_qos c <= 2 -> (forall p, In p h -> after_1970 p) ->
    gone_through c h1 b1 (EPacket5 j len (IPub w)) b2 out h b j (a_id a) ->
    sess_at b1 j = Some (A5 s) -> wf_in5 (IPub w) -> len <= cf_packet_server c -> (forall code reason, ~ In (OPkt5 j (KDisconnect code reason)) out) ->
    sess_at b1 k0 = Some a -> not_removed b1 k0 -> sess_at b k = Some (A5 r) -> s_id r = a_id a ->
    forall l m, life5 j h1 l -> on_record c h1 k0 a m -> forall T f q,
      topic_for (cf_alias_max c) l w = Some T -> (forall p, w5_qp w = Q2 p -> opener l p = None /\ w5_dup w = false) ->
      m f = Some q -> plain f -> topic_matches f T -> wanted s (a_id a) f ->
      exists y lr l1 now live o n l2, life5 k h lr /\ srun5 hash5 c r lr /\ reached5 (a_id a) h j (queued_in j (a_id a) h1 b1) y lr l1 now live o /\ enc_len5 w = Some n /\
        lr = l1 ++ (if live then VMsg now y else VLost now y, o) :: l2 /\ finds5 hash5 c lr l1 l2 now y T (w5_payload w) (qp_qos (w5_qp w)) n f q.
  Proof.
    intros c h1 b1 j s len w b2 out h b k0 a k r MQ AF GT A WF LE ND AK NR AR ID l m L RC T f q HT HQ MF.
    destruct (C80_to_application_5_5_partial hash5 hash3 pick c h1 b1 j s len w b2 out h b k0 a k r MQ AF GT A WF LE ND AK NR AR ID) as (l0 & m0 & L0 & RC0 & H). pose proof (proj1 GT) as R.
    destruct (agree5_lemma _ _ _ _ _ _ _ _ _ _ R A L L0) as (AT & AO & _). apply (H T f q).
    - rewrite <- AT. exact HT.
    - intros p Q. rewrite <- AO. exact (HQ p Q).
    - rewrite <- (record_once_lemma _ _ _ _ _ _ _ _ _ _ R AK RC RC0). exact MF.
  Qed.
  Theorem C80_any_5_3_partial : forall c h1 b1 j s len w b2 out h b k0 a k r, cf_max_qos c <= 2 -> (forall p, In p h -> after_1970 p) ->
    gone_through c h1 b1 (EPacket5 j len (IPub w)) b2 out h b j (a_id a) ->
    sess_at b1 j = Some (A5 s) -> wf_in5 (IPub w) -> len <= cf_packet_server c -> (forall code reason, ~ In (OPkt5 j (KDisconnect code reason)) out) ->
    sess_at b1 k0 = Some a -> not_removed b1 k0 -> sess_at b k = Some (A3 r) -> z_id r = a_id a ->
    forall l m, life5 j h1 l -> on_record c h1 k0 a m -> forall T f q,
      topic_for (cf_alias_max c) l w = Some T -> (forall p, w5_qp w = Q2 p -> opener l p = None /\ w5_dup w = false) ->
      m f = Some q -> plain f -> topic_matches f T -> wanted s (a_id a) f ->
      exists y lr l1 now live o l2, life3 k h lr /\ srun3 hash3 c r lr /\ reached3 (a_id a) h j (queued_in j (a_id a) h1 b1) y lr l1 now live o /\
        lr = l1 ++ (if live then UMsg now y else ULost now y, o) :: l2 /\ finds3 hash3 c (ready3 c h b k r) lr l1 l2 now y T (w5_payload w) (qp_qos (w5_qp w)) f q.
  Proof.
    intros c h1 b1 j s len w b2 out h b k0 a k r MQ AF GT A WF LE ND AK NR AR ID l m L RC T f q HT HQ MF.
    destruct (C80_to_application_5_3_partial hash5 hash3 pick c h1 b1 j s len w b2 out h b k0 a k r MQ AF GT A WF LE ND AK NR AR ID) as (l0 & m0 & L0 & RC0 & H). pose proof (proj1 GT) as R.
    destruct (agree5_lemma _ _ _ _ _ _ _ _ _ _ R A L L0) as (AT & AO & _). apply (H T f q).
    - rewrite <- AT. exact HT.
    - intros p Q. rewrite <- AO. exact (HQ p Q).
    - rewrite <- (record_once_lemma _ _ _ _ _ _ _ _ _ _ R AK RC RC0). exact MF.
  Qed.
  Theorem C80_any_3_5_partial : forall c h1 b1 j s len w b2 out h b k0 a k r, cf_max_qos c <= 2 -> (forall p, In p h -> after_1970 p) ->
    gone_through c h1 b1 (EPacket3 j len (YPub w)) b2 out h b j (a_id a) ->
    sess_at b1 j = Some (A3 s) -> wf_in3 (YPub w) -> len <= cf_packet_server c -> over b2 j = false -> (forall p, w3_qp w = Q2 p -> w3_dup w = false) ->
    sess_at b1 k0 = Some a -> not_removed b1 k0 -> sess_at b k = Some (A5 r) -> s_id r = a_id a ->
    forall m, on_record c h1 k0 a m -> forall f q, m f = Some q -> plain f -> topic_matches f (w3_topic w) ->
      exists x1 y lr l1 now live o n l2, life5 k h lr /\ srun5 hash5 c r lr /\ reached5 (a_id a) h j (queued_in j (a_id a) h1 b1 ++ x1) y lr l1 now live o /\
        nm_filters y = [f] /\ Forall (fun x => nm_topic x = w3_topic w /\ nm_payload x = w3_payload w /\ nm_filters x <> [f]) x1 /\ (forall n', enc_len3 w = Some n' -> n = n' + 1) /\
        lr = l1 ++ (if live then VMsg now y else VLost now y, o) :: l2 /\ finds5 hash5 c lr l1 l2 now y (w3_topic w) (w3_payload w) (qp_qos (w3_qp w)) n f q.
  Proof.
    intros c h1 b1 j s len w b2 out h b k0 a k r MQ AF GT A WF LE OV DU AK NR AR ID m RC f q MF.
    destruct (C80_to_application_3_5_partial hash5 hash3 pick c h1 b1 j s len w b2 out h b k0 a k r MQ AF GT A WF LE OV DU AK NR AR ID) as (m0 & RC0 & H).
    apply (H f q). rewrite <- (record_once_lemma _ _ _ _ _ _ _ _ _ _ (proj1 GT) AK RC RC0). exact MF.
  Qed.
  Theorem C80_any_3_3_partial : forall c h1 b1 j s len w b2 out h b k0 a k r, cf_max_qos c <= 2 -> (forall p, In p h -> after_1970 p) ->
    gone_through c h1 b1 (EPacket3 j len (YPub w)) b2 out h b j (a_id a) ->
    sess_at b1 j = Some (A3 s) -> wf_in3 (YPub w) -> len <= cf_packet_server c -> over b2 j = false -> (forall p, w3_qp w = Q2 p -> w3_dup w = false) ->
    sess_at b1 k0 = Some a -> not_removed b1 k0 -> sess_at b k = Some (A3 r) -> z_id r = a_id a ->
    forall m, on_record c h1 k0 a m -> forall f q, m f = Some q -> plain f -> topic_matches f (w3_topic w) ->
      exists x1 y lr l1 now live o l2, life3 k h lr /\ srun3 hash3 c r lr /\ reached3 (a_id a) h j (queued_in j (a_id a) h1 b1 ++ x1) y lr l1 now live o /\
        nm_filters y = [f] /\ Forall (fun x => nm_topic x = w3_topic w /\ nm_payload x = w3_payload w /\ nm_filters x <> [f]) x1 /\
        lr = l1 ++ (if live then UMsg now y else ULost now y, o) :: l2 /\ finds3 hash3 c (ready3 c h b k r) lr l1 l2 now y (w3_topic w) (w3_payload w) (qp_qos (w3_qp w)) f q.
  Proof.
    intros c h1 b1 j s len w b2 out h b k0 a k r MQ AF GT A WF LE OV DU AK NR AR ID m RC f q MF.
    destruct (C80_to_application_3_3_partial hash5 hash3 pick c h1 b1 j s len w b2 out h b k0 a k r MQ AF GT A WF LE OV DU AK NR AR ID) as (m0 & RC0 & H).
    apply (H f q). rewrite <- (record_once_lemma _ _ _ _ _ _ _ _ _ _ (proj1 GT) AK RC RC0). exact MF.
  Qed.

  (** ** To the member of a share group (C84); what is missing is said in ShareProps and LeaveProps *)
  Theorem C84_group_any_partial : forall c h1 b1 j s len w b2 out, cf_max_qos c <= 2 ->
    brun c h1 b1 -> (forall p, In p h1 -> proper p) -> (forall p, In p h1 -> lossless p) ->
    sess_at b1 j = Some (A5 s) -> wf_in5 (IPub w) -> len <= cf_packet_server c ->
    bstep (EPacket5 j len (IPub w)) b1 = BOk b2 out -> (forall code reason, ~ In (OPkt5 j (KDisconnect code reason)) out) ->
    forall l, life5 j h1 l -> forall T gr inner sh,
      topic_for (cf_alias_max c) l w = Some T -> (forall p, w5_qp w = Q2 p -> opener l p = None /\ w5_dup w = false) ->
      offers_group (b_route b1) T inner gr sh ->
      topic_matches inner T /\ exists k d ms q q', held b1 k = Some (d, ms) /\ aget (share_filter gr inner) ms = Some q' /\ In (d, q) (sh_items sh) /\
        (forall d' y, In y (AccSpec.queued j d' b1 b2) -> In (share_filter gr inner) (nm_filters y) -> d' = d) /\
        arrives5 hash5 hash3 pick c h1 b1 j len w b2 out d T (share_filter gr inner) q.
  Proof.
    intros c h1 b1 j s len w b2 out MQ R P LS A WF LE S ND l L T gr inner sh HT HQ.
    destruct (C84_group_partial hash5 hash3 pick c h1 b1 j s len w b2 out MQ R P LS A WF LE S ND) as (l0 & L0 & H).
    destruct (agree5_lemma _ _ _ _ _ _ _ _ _ _ R A L L0) as (AT & AO & _). apply (H T gr inner sh).
    - rewrite <- AT. exact HT.
    - intros p Q. rewrite <- AO. exact (HQ p Q).
  Qed.
  Theorem C84_stayed_any_partial : forall c h1 b1 j s len w b2 out, cf_max_qos c <= 2 ->
    brun c h1 b1 -> (forall p, In p h1 -> proper p) -> (forall p, In p h1 -> lossless p) -> stayed h1 b1 ->
    sess_at b1 j = Some (A5 s) -> wf_in5 (IPub w) -> len <= cf_packet_server c ->
    bstep (EPacket5 j len (IPub w)) b1 = BOk b2 out -> (forall code reason, ~ In (OPkt5 j (KDisconnect code reason)) out) ->
    forall l, life5 j h1 l -> forall T gr inner,
      topic_for (cf_alias_max c) l w = Some T -> (forall p, w5_qp w = Q2 p -> opener l p = None /\ w5_dup w = false) ->
      shared_info (share_filter gr inner) = Some (gr, inner) -> topic_matches inner T ->
      (exists k d ms q, held b1 k = Some (d, ms) /\ aget (share_filter gr inner) ms = Some q) ->
      exists k d ms q, held b1 k = Some (d, ms) /\ aget (share_filter gr inner) ms = Some q /\
        (forall d' y, In y (AccSpec.queued j d' b1 b2) -> In (share_filter gr inner) (nm_filters y) -> d' = d) /\
        arrives5 hash5 hash3 pick c h1 b1 j len w b2 out d T (share_filter gr inner) q.
  Proof.
    intros c h1 b1 j s len w b2 out MQ R P LS ST A WF LE S ND l L T gr inner HT HQ.
    destruct (C84_stayed_partial hash5 hash3 pick c h1 b1 j s len w b2 out MQ R P LS ST A WF LE S ND) as (l0 & L0 & H).
    destruct (agree5_lemma _ _ _ _ _ _ _ _ _ _ R A L L0) as (AT & AO & _). apply (H T gr inner).
    - rewrite <- AT. exact HT.
    - intros p Q. rewrite <- AO. exact (HQ p Q).
  Qed.

  (** ** Wills (C81); to the application what is missing is said in WillWayProps *)
  Theorem C81_any_5_5 : forall c h1 b1 e b2 out h b j w k0 a k r, cf_max_qos c <= 2 ->
    gone_through c h1 b1 e b2 out h b j (a_id a) -> In (OWill5 j w) out -> valid_topic_name (wl_topic w) ->
    sess_at b1 k0 = Some a -> not_removed b1 k0 -> sess_at b k = Some (A5 r) -> s_id r = a_id a ->
    exists s n, sess_at b1 j = Some (A5 s) /\ s_will s = Some w /\ enc_len5 (will_packet5 w) = Some n /\ forall m, on_record c h1 k0 a m ->
      forall f q, m f = Some q -> plain f -> topic_matches f (wl_topic w) -> wanted s (a_id a) f ->
        exists y lr l1 now live o, life5 k h lr /\ srun5 hash5 c r lr /\ reached5 (a_id a) h j (queued_in j (a_id a) h1 b1) y lr l1 now live o /\
          fate5 hash5 c l1 now y live o (wl_topic w) (wl_payload w) (wl_qos w) n f q.
  Proof.
    intros c h1 b1 e b2 out h b j w k0 a k r MQ GT IW V AK NR AR ID.
    destruct (C81_will_5_5 hash5 hash3 pick c h1 b1 e b2 out h b j w k0 a k r MQ GT IW V AK NR AR ID) as (s & n & m0 & SJ & SW & EN & RC0 & H). exists s, n. repeat (split; [assumption|]).
    intros m RC f q MF. apply (H f q). rewrite <- (record_once_lemma _ _ _ _ _ _ _ _ _ _ (proj1 GT) AK RC RC0). exact MF.
  Qed.
  Theorem C81_any_5_5_application_partial : forall c h1 b1 e b2 out h b j w k0 a k r, cf_max_qos c <= 2 -> (forall p, In p h -> after_1970 p) ->
    gone_through c h1 b1 e b2 out h b j (a_id a) -> In (OWill5 j w) out -> valid_topic_name (wl_topic w) ->
    sess_at b1 k0 = Some a -> not_removed b1 k0 -> sess_at b k = Some (A5 r) -> s_id r = a_id a ->
    exists s n, sess_at b1 j = Some (A5 s) /\ s_will s = Some w /\ enc_len5 (will_packet5 w) = Some n /\ forall m, on_record c h1 k0 a m ->
      forall f q, m f = Some q -> plain f -> topic_matches f (wl_topic w) -> wanted s (a_id a) f ->
        exists y lr l1 now live o l2, life5 k h lr /\ srun5 hash5 c r lr /\ reached5 (a_id a) h j (queued_in j (a_id a) h1 b1) y lr l1 now live o /\
          lr = l1 ++ (if live then VMsg now y else VLost now y, o) :: l2 /\ finds5 hash5 c lr l1 l2 now y (wl_topic w) (wl_payload w) (wl_qos w) n f q.
  Proof.
    intros c h1 b1 e b2 out h b j w k0 a k r MQ AF GT IW V AK NR AR ID.
    destruct (C81_will_5_5_application_partial hash5 hash3 pick c h1 b1 e b2 out h b j w k0 a k r MQ AF GT IW V AK NR AR ID) as (s & n & m0 & SJ & SW & EN & RC0 & H). exists s, n. repeat (split; [assumption|]).
    intros m RC f q MF. apply (H f q). rewrite <- (record_once_lemma _ _ _ _ _ _ _ _ _ _ (proj1 GT) AK RC RC0). exact MF.
  Qed.
  Theorem C81_any_5_3 : forall c h1 b1 e b2 out h b j w k0 a k r, cf_max_qos c <= 2 ->
    gone_through c h1 b1 e b2 out h b j (a_id a) -> In (OWill5 j w) out -> valid_topic_name (wl_topic w) ->
    sess_at b1 k0 = Some a -> not_removed b1 k0 -> sess_at b k = Some (A3 r) -> z_id r = a_id a ->
    exists s, sess_at b1 j = Some (A5 s) /\ s_will s = Some w /\ forall m, on_record c h1 k0 a m ->
      forall f q, m f = Some q -> plain f -> topic_matches f (wl_topic w) -> wanted s (a_id a) f ->
        exists y lr l1 now live o, life3 k h lr /\ srun3 hash3 c r lr /\ reached3 (a_id a) h j (queued_in j (a_id a) h1 b1) y lr l1 now live o /\
          fate3 hash3 c l1 now y live o (wl_topic w) (wl_payload w) (wl_qos w) f q.
  Proof.
    intros c h1 b1 e b2 out h b j w k0 a k r MQ GT IW V AK NR AR ID.
    destruct (C81_will_5_3 hash5 hash3 pick c h1 b1 e b2 out h b j w k0 a k r MQ GT IW V AK NR AR ID) as (s & m0 & SJ & SW & RC0 & H). exists s. repeat (split; [assumption|]).
    intros m RC f q MF. apply (H f q). rewrite <- (record_once_lemma _ _ _ _ _ _ _ _ _ _ (proj1 GT) AK RC RC0). exact MF.
  Qed.
  Theorem C81_any_5_3_application_partial : forall c h1 b1 e b2 out h b j w k0 a k r, cf_max_qos c <= 2 -> (forall p, In p h -> after_1970 p) ->
    gone_through c h1 b1 e b2 out h b j (a_id a) -> In (OWill5 j w) out -> valid_topic_name (wl_topic w) ->
    sess_at b1 k0 = Some a -> not_removed b1 k0 -> sess_at b k = Some (A3 r) -> z_id r = a_id a ->
    exists s, sess_at b1 j = Some (A5 s) /\ s_will s = Some w /\ forall m, on_record c h1 k0 a m ->
      forall f q, m f = Some q -> plain f -> topic_matches f (wl_topic w) -> wanted s (a_id a) f ->
        exists y lr l1 now live o l2, life3 k h lr /\ srun3 hash3 c r lr /\ reached3 (a_id a) h j (queued_in j (a_id a) h1 b1) y lr l1 now live o /\
          lr = l1 ++ (if live then UMsg now y else ULost now y, o) :: l2 /\ finds3 hash3 c (ready3 c h b k r) lr l1 l2 now y (wl_topic w) (wl_payload w) (wl_qos w) f q.
  Proof.
    intros c h1 b1 e b2 out h b j w k0 a k r MQ AF GT IW V AK NR AR ID.
    destruct (C81_will_5_3_application_partial hash5 hash3 pick c h1 b1 e b2 out h b j w k0 a k r MQ AF GT IW V AK NR AR ID) as (s & m0 & SJ & SW & RC0 & H). exists s. repeat (split; [assumption|]).
    intros m RC f q MF. apply (H f q). rewrite <- (record_once_lemma _ _ _ _ _ _ _ _ _ _ (proj1 GT) AK RC RC0). exact MF.
  Qed.
  Theorem C81_any_3_5 : forall c h1 b1 e b2 out h b j w k0 a k r, cf_max_qos c <= 2 ->
    gone_through c h1 b1 e b2 out h b j (a_id a) -> In (OWill3 j w) out -> valid_topic_name (wl3_topic w) ->
    sess_at b1 k0 = Some a -> not_removed b1 k0 -> sess_at b k = Some (A5 r) -> s_id r = a_id a ->
    exists s n, sess_at b1 j = Some (A3 s) /\ z_will s = Some w /\ enc_len3 (will_packet3 w) = Some n /\ forall m, on_record c h1 k0 a m ->
      forall f q, m f = Some q -> plain f -> topic_matches f (wl3_topic w) ->
        exists x1 y lr l1 now live o, life5 k h lr /\ srun5 hash5 c r lr /\ reached5 (a_id a) h j (queued_in j (a_id a) h1 b1 ++ x1) y lr l1 now live o /\
          nm_filters y = [f] /\ Forall (fun x => nm_topic x = wl3_topic w /\ nm_payload x = wl3_payload w /\ nm_filters x <> [f]) x1 /\
          fate5 hash5 c l1 now y live o (wl3_topic w) (wl3_payload w) (wl3_qos w) (n + 1) f q.
  Proof.
    intros c h1 b1 e b2 out h b j w k0 a k r MQ GT IW V AK NR AR ID.
    destruct (C81_will_3_5 hash5 hash3 pick c h1 b1 e b2 out h b j w k0 a k r MQ GT IW V AK NR AR ID) as (s & n & m0 & SJ & SW & EN & RC0 & H). exists s, n. repeat (split; [assumption|]).
    intros m RC f q MF. apply (H f q). rewrite <- (record_once_lemma _ _ _ _ _ _ _ _ _ _ (proj1 GT) AK RC RC0). exact MF.
  Qed.
  Theorem C81_any_3_5_application_partial : forall c h1 b1 e b2 out h b j w k0 a k r, cf_max_qos c <= 2 -> (forall p, In p h -> after_1970 p) ->
    gone_through c h1 b1 e b2 out h b j (a_id a) -> In (OWill3 j w) out -> valid_topic_name (wl3_topic w) ->
    sess_at b1 k0 = Some a -> not_removed b1 k0 -> sess_at b k = Some (A5 r) -> s_id r = a_id a ->
    exists s n, sess_at b1 j = Some (A3 s) /\ z_will s = Some w /\ enc_len3 (will_packet3 w) = Some n /\ forall m, on_record c h1 k0 a m ->
      forall f q, m f = Some q -> plain f -> topic_matches f (wl3_topic w) ->
        exists x1 y lr l1 now live o l2, life5 k h lr /\ srun5 hash5 c r lr /\ reached5 (a_id a) h j (queued_in j (a_id a) h1 b1 ++ x1) y lr l1 now live o /\
          nm_filters y = [f] /\ Forall (fun x => nm_topic x = wl3_topic w /\ nm_payload x = wl3_payload w /\ nm_filters x <> [f]) x1 /\
          lr = l1 ++ (if live then VMsg now y else VLost now y, o) :: l2 /\ finds5 hash5 c lr l1 l2 now y (wl3_topic w) (wl3_payload w) (wl3_qos w) (n + 1) f q.
  Proof.
    intros c h1 b1 e b2 out h b j w k0 a k r MQ AF GT IW V AK NR AR ID.
    destruct (C81_will_3_5_application_partial hash5 hash3 pick c h1 b1 e b2 out h b j w k0 a k r MQ AF GT IW V AK NR AR ID) as (s & n & m0 & SJ & SW & EN & RC0 & H). exists s, n. repeat (split; [assumption|]).
    intros m RC f q MF. apply (H f q). rewrite <- (record_once_lemma _ _ _ _ _ _ _ _ _ _ (proj1 GT) AK RC RC0). exact MF.
  Qed.
  Theorem C81_any_3_3 : forall c h1 b1 e b2 out h b j w k0 a k r, cf_max_qos c <= 2 ->
    gone_through c h1 b1 e b2 out h b j (a_id a) -> In (OWill3 j w) out -> valid_topic_name (wl3_topic w) ->
    sess_at b1 k0 = Some a -> not_removed b1 k0 -> sess_at b k = Some (A3 r) -> z_id r = a_id a ->
    exists s, sess_at b1 j = Some (A3 s) /\ z_will s = Some w /\ forall m, on_record c h1 k0 a m ->
      forall f q, m f = Some q -> plain f -> topic_matches f (wl3_topic w) ->
        exists x1 y lr l1 now live o, life3 k h lr /\ srun3 hash3 c r lr /\ reached3 (a_id a) h j (queued_in j (a_id a) h1 b1 ++ x1) y lr l1 now live o /\
          nm_filters y = [f] /\ Forall (fun x => nm_topic x = wl3_topic w /\ nm_payload x = wl3_payload w /\ nm_filters x <> [f]) x1 /\
          fate3 hash3 c l1 now y live o (wl3_topic w) (wl3_payload w) (wl3_qos w) f q.
  Proof.
    intros c h1 b1 e b2 out h b j w k0 a k r MQ GT IW V AK NR AR ID.
    destruct (C81_will_3_3 hash5 hash3 pick c h1 b1 e b2 out h b j w k0 a k r MQ GT IW V AK NR AR ID) as (s & m0 & SJ & SW & RC0 & H). exists s. repeat (split; [assumption|]).
    intros m RC f q MF. apply (H f q). rewrite <- (record_once_lemma _ _ _ _ _ _ _ _ _ _ (proj1 GT) AK RC RC0). exact MF.
  Qed.
  Theorem C81_any_3_3_application_partial : forall c h1 b1 e b2 out h b j w k0 a k r, cf_max_qos c <= 2 -> (forall p, In p h -> after_1970 p) ->
    gone_through c h1 b1 e b2 out h b j (a_id a) -> In (OWill3 j w) out -> valid_topic_name (wl3_topic w) ->
    sess_at b1 k0 = Some a -> not_removed b1 k0 -> sess_at b k = Some (A3 r) -> z_id r = a_id a ->
    exists s, sess_at b1 j = Some (A3 s) /\ z_will s = Some w /\ forall m, on_record c h1 k0 a m ->
      forall f q, m f = Some q -> plain f -> topic_matches f (wl3_topic w) ->
        exists x1 y lr l1 now live o l2, life3 k h lr /\ srun3 hash3 c r lr /\ reached3 (a_id a) h j (queued_in j (a_id a) h1 b1 ++ x1) y lr l1 now live o /\
          nm_filters y = [f] /\ Forall (fun x => nm_topic x = wl3_topic w /\ nm_payload x = wl3_payload w /\ nm_filters x <> [f]) x1 /\
          lr = l1 ++ (if live then UMsg now y else ULost now y, o) :: l2 /\ finds3 hash3 c (ready3 c h b k r) lr l1 l2 now y (wl3_topic w) (wl3_payload w) (wl3_qos w) f q.
  Proof.
    intros c h1 b1 e b2 out h b j w k0 a k r MQ AF GT IW V AK NR AR ID.
    destruct (C81_will_3_3_application_partial hash5 hash3 pick c h1 b1 e b2 out h b j w k0 a k r MQ AF GT IW V AK NR AR ID) as (s & m0 & SJ & SW & RC0 & H). exists s. repeat (split; [assumption|]).
    intros m RC f q MF. apply (H f q). rewrite <- (record_once_lemma _ _ _ _ _ _ _ _ _ _ (proj1 GT) AK RC RC0). exact MF.
  Qed.
End Props.
Print Assumptions C49_lives_agree.
Print Assumptions C49_v3_lives_agree.
Print Assumptions C49_one_record.
Print Assumptions C82_determined.
Print Assumptions C49_published_any.
Print Assumptions C49_v3_published_any.
Print Assumptions C73_any_5_5.
Print Assumptions C73_any_5_3.
Print Assumptions C73_any_3_5.
Print Assumptions C73_any_3_3.
Print Assumptions C80_any_5_5_partial.
Print Assumptions C80_any_5_3_partial.
Print Assumptions C80_any_3_5_partial.
Print Assumptions C80_any_3_3_partial.
Print Assumptions C84_group_any_partial.
Print Assumptions C84_stayed_any_partial.
Print Assumptions C81_any_5_5.
Print Assumptions C81_any_5_5_application_partial.
Print Assumptions C81_any_5_3.
Print Assumptions C81_any_5_3_application_partial.
Print Assumptions C81_any_3_5.
Print Assumptions C81_any_3_5_application_partial.
Print Assumptions C81_any_3_3.
Print Assumptions C81_any_3_3_application_partial.

(** ** Cases that meet the hypotheses
    Client "a" subscribes, leaves and comes back with a clean start.  Its session has seen nothing since, or everything up to the
    clean start and that; both are lives of it, and agree.  For the other theorems see the cases in LifeProps, EndProps, GetProps,
    ShareProps, LeaveProps, WillWayProps and RetRunProps; the theorems there give the events and the record. *)
Definition lv_evs : list bev := [ETick 100000; x_a true] ++ x_up 0 ++ [x_sub 0 "t"] ++ x_down 0 ++ [x_a true] ++ x_over 0 1 ++ x_up 1 ++ [x_sub 1 "u"].
Example lives_case : exists h b, x_run h b /\ (exists s, sess_at b 1 = Some (A5 s)) /\ exists l1 l2, life5 1 h l1 /\ life5 1 h l2 /\
  (List.length l1 = 3)%nat /\ (List.length l2 = 7)%nat /\ subscribed5 l1 "u" = Some L1 /\ subscribed5 l2 "u" = Some L1 /\ subscribed5 l2 "t" = None.
Proof.
  run_of lv_evs. split; [eexists; reflexivity|]. do 2 eexists.
  split; [eapply lf5_step; [eapply lf5_step; [eapply lf5_new; [reflexivity|left; eexists; split; [cbn; left; reflexivity|reflexivity]|split; [do 3 right; left; reflexivity|reflexivity]|reflexivity]|apply d5_start; reflexivity]|eapply d5_pkt; reflexivity]|].
  split.
  - eapply lf5_step; [eapply lf5_step; [|apply d5_start; reflexivity]|eapply d5_pkt; reflexivity].
    match goal with |- life5 1 (?p :: ?t :: ?q :: ?r) _ => refine (lf5_take 1 p [t] q 0 false _ r _ _ _ _ _ _ _ _ _ _ _ _ _) end;
      [reflexivity|reflexivity| |reflexivity|do 2 eexists; split; reflexivity|split; [do 3 right; left; reflexivity|reflexivity]|reflexivity].
    do 5 (eapply lf5_step; [|apply (d5_still _ _ []); [cbn; first [exact Logic.I|discriminate]|reflexivity|constructor]]).
    eapply lf5_step; [eapply lf5_step; [|apply d5_start; reflexivity]|eapply d5_pkt; reflexivity].
    eapply lf5_new; [reflexivity|left; eexists; split; [cbn; left; reflexivity|reflexivity]|split; [do 1 right; left; reflexivity|reflexivity]|reflexivity].
  - repeat split; reflexivity.
Qed.
(** MQTT 3: the same with a step that does not concern the session. *)
Definition lv_evs3 : list bev := [ETick 100000; x_c3 false "c" true 60 None] ++ x_up 0 ++ [x_s3 0 "t"; ETick 1].
Example lives_case3 : exists h b, x_run h b /\ (exists s, sess_at b 0 = Some (A3 s)) /\ exists l1 l2, life3 0 h l1 /\ life3 0 h l2 /\
  (List.length l1 = 3)%nat /\ (List.length l2 = 4)%nat /\ subscribed3 config_default l1 "t" = Some L1 /\ subscribed3 config_default l2 "t" = Some L1.
Proof.
  run_of lv_evs3. split; [eexists; reflexivity|]. do 2 eexists.
  split; [eapply lf3_step; [eapply lf3_step; [eapply lf3_step; [eapply lf3_new; [reflexivity|right; eexists; cbn; left; reflexivity|split; [do 1 right; left; reflexivity|reflexivity]|reflexivity]|apply d3_start; reflexivity]|eapply d3_pkt; reflexivity]|apply (d3_still _ _ []); [exact Logic.I|reflexivity|constructor]]|].
  split; [eapply lf3_step; [eapply lf3_step; [eapply lf3_step; [eapply lf3_new; [reflexivity|right; eexists; cbn; left; reflexivity|split; [do 1 right; left; reflexivity|reflexivity]|reflexivity]|apply d3_start; reflexivity]|eapply d3_pkt; reflexivity]|
    apply (d3_still _ _ [(USet, [])]); [exact Logic.I|reflexivity|constructor; [exact Logic.I|constructor]]]|].
  repeat split; reflexivity.
Qed.
