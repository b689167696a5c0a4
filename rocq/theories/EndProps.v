(** C73: an accepted PUBLISH gets to the session of every subscriber, once and in order.

    A PUBLISH is read from connection [j] in state [b1] and not refused.  [a] is the session of
    any connection at that time, and [m] what the SUBACKs and UNSUBACKs say it is subscribed to
    ([on_record]); [f] is a filter of it that matches the topic.  Later, in state [b], client
    [a_id a] has session [r] on some connection [k], and the messages between the two have gone
    through ([gone_through]).  Then the message is among those session [r] was handed
    ([reached5]): after what connection [j] had queued for it before, and before the rest;
    and [fate5] says what became of it.  Definitions in EndSpec. *)
From Coq Require Import List Bool NArith String.
From Verif Require Import Base TopicModel TopicSpec MsgModel OutModel RouteModel RouteSpec GlobModel Sess5Model Sess3Model ConnModel BrokerModel DelivSpec InSpec OutSpec BrokerSpec LifeSpec SubsSpec RecvSpec ReplySpec RecordSpec RunProofs BrokerFacts
  AccSpec EndSpec EndProofs BrokerProps LifeProps AccProps.
Import ListNotations.
Local Open Scope N_scope.
Local Open Scope list_scope.

Section Props.
  Variables (hash5 : wpub5 -> N) (hash3 : wpub3 -> N) (pick : draw -> broker -> string -> string -> N).
  Local Notation brun := (brun hash5 hash3 pick).
  Local Notation gone_through := (gone_through hash5 hash3 pick).

  (** From a v5 client to a v5 client. *)
  Theorem C73_end_to_end_5_5 : forall c h1 b1 j s len w b2 out h b k0 a k r, cf_max_qos c <= 2 ->
    gone_through c h1 b1 (EPacket5 j len (IPub w)) b2 out h b j (a_id a) ->
    sess_at b1 j = Some (A5 s) -> wf_in5 (IPub w) -> len <= cf_packet_server c -> (forall code reason, ~ In (OPkt5 j (KDisconnect code reason)) out) ->
    sess_at b1 k0 = Some a -> not_removed b1 k0 -> sess_at b k = Some (A5 r) -> s_id r = a_id a ->
    exists l m, life5 j h1 l /\ on_record c h1 k0 a m /\ forall T f q,
      topic_for (cf_alias_max c) l w = Some T -> (forall p, w5_qp w = Q2 p -> opener l p = None /\ w5_dup w = false) ->
      m f = Some q -> plain f -> topic_matches f T -> wanted s (a_id a) f ->
      exists y lr l1 now live o n, life5 k h lr /\ srun5 hash5 c r lr /\ reached5 (a_id a) h j (queued_in j (a_id a) h1 b1) y lr l1 now live o /\ enc_len5 w = Some n /\
        fate5 hash5 c l1 now y live o T (w5_payload w) (qp_qos (w5_qp w)) n f q.
  Proof. intros c h1 b1 j s len w b2 out h b k0 a k r M (R & S & P & W & h2 & b3 & h3 & a' & G2 & G3 & -> & A' & Q). intros. eapply end55; eauto. Qed.
  (** From a v5 client to a v3 client. *)
  Theorem C73_end_to_end_5_3 : forall c h1 b1 j s len w b2 out h b k0 a k r, cf_max_qos c <= 2 ->
    gone_through c h1 b1 (EPacket5 j len (IPub w)) b2 out h b j (a_id a) ->
    sess_at b1 j = Some (A5 s) -> wf_in5 (IPub w) -> len <= cf_packet_server c -> (forall code reason, ~ In (OPkt5 j (KDisconnect code reason)) out) ->
    sess_at b1 k0 = Some a -> not_removed b1 k0 -> sess_at b k = Some (A3 r) -> z_id r = a_id a ->
    exists l m, life5 j h1 l /\ on_record c h1 k0 a m /\ forall T f q,
      topic_for (cf_alias_max c) l w = Some T -> (forall p, w5_qp w = Q2 p -> opener l p = None /\ w5_dup w = false) ->
      m f = Some q -> plain f -> topic_matches f T -> wanted s (a_id a) f ->
      exists y lr l1 now live o, life3 k h lr /\ srun3 hash3 c r lr /\ reached3 (a_id a) h j (queued_in j (a_id a) h1 b1) y lr l1 now live o /\
        fate3 hash3 c l1 now y live o T (w5_payload w) (qp_qos (w5_qp w)) f q.
  Proof. intros c h1 b1 j s len w b2 out h b k0 a k r M (R & S & P & W & h2 & b3 & h3 & a' & G2 & G3 & -> & A' & Q). intros. eapply end53; eauto. Qed.
  (** From a v3 client: one message for each matching filter; [x1] are those for other filters
      of the same PUBLISH that come first. *)
  Theorem C73_end_to_end_3_5 : forall c h1 b1 j s len w b2 out h b k0 a k r, cf_max_qos c <= 2 ->
    gone_through c h1 b1 (EPacket3 j len (YPub w)) b2 out h b j (a_id a) ->
    sess_at b1 j = Some (A3 s) -> wf_in3 (YPub w) -> len <= cf_packet_server c -> over b2 j = false -> (forall p, w3_qp w = Q2 p -> w3_dup w = false) ->
    sess_at b1 k0 = Some a -> not_removed b1 k0 -> sess_at b k = Some (A5 r) -> s_id r = a_id a ->
    exists m, on_record c h1 k0 a m /\ forall f q, m f = Some q -> plain f -> topic_matches f (w3_topic w) ->
      exists x1 y lr l1 now live o n, life5 k h lr /\ srun5 hash5 c r lr /\ reached5 (a_id a) h j (queued_in j (a_id a) h1 b1 ++ x1) y lr l1 now live o /\
        nm_filters y = [f] /\ Forall (fun x => nm_topic x = w3_topic w /\ nm_payload x = w3_payload w /\ nm_filters x <> [f]) x1 /\ (forall n', enc_len3 w = Some n' -> n = n' + 1) /\
        fate5 hash5 c l1 now y live o (w3_topic w) (w3_payload w) (qp_qos (w3_qp w)) n f q.
  Proof. intros c h1 b1 j s len w b2 out h b k0 a k r M (R & S & P & W & h2 & b3 & h3 & a' & G2 & G3 & -> & A' & Q). intros. eapply end35; eauto. Qed.
  Theorem C73_end_to_end_3_3 : forall c h1 b1 j s len w b2 out h b k0 a k r, cf_max_qos c <= 2 ->
    gone_through c h1 b1 (EPacket3 j len (YPub w)) b2 out h b j (a_id a) ->
    sess_at b1 j = Some (A3 s) -> wf_in3 (YPub w) -> len <= cf_packet_server c -> over b2 j = false -> (forall p, w3_qp w = Q2 p -> w3_dup w = false) ->
    sess_at b1 k0 = Some a -> not_removed b1 k0 -> sess_at b k = Some (A3 r) -> z_id r = a_id a ->
    exists m, on_record c h1 k0 a m /\ forall f q, m f = Some q -> plain f -> topic_matches f (w3_topic w) ->
      exists x1 y lr l1 now live o, life3 k h lr /\ srun3 hash3 c r lr /\ reached3 (a_id a) h j (queued_in j (a_id a) h1 b1 ++ x1) y lr l1 now live o /\
        nm_filters y = [f] /\ Forall (fun x => nm_topic x = w3_topic w /\ nm_payload x = w3_payload w /\ nm_filters x <> [f]) x1 /\
        fate3 hash3 c l1 now y live o (w3_topic w) (w3_payload w) (qp_qos (w3_qp w)) f q.
  Proof. intros c h1 b1 j s len w b2 out h b k0 a k r M (R & S & P & W & h2 & b3 & h3 & a' & G2 & G3 & -> & A' & Q). intros. eapply end33; eauto. Qed.
  (** A client that has a session now was never cut off: no connection dropped messages for it
      because nobody was receiving.  So C54's accounting has no gap for it. *)
  Theorem C73_never_cut_off : forall c h b k a j, brun c h b -> sess_at b k = Some a -> forall p, In p h -> ~ cut_off j (a_id a) p.
  Proof. exact (not_cut hash5 hash3 pick). Qed.
  Theorem C73_accounted : forall c h b k a j a', brun c h b -> sess_at b k = Some a -> sess_at b j = Some a' ->
    queued_in j (a_id a) h b = passed_by j (passed_in (a_id a) h) ++ queue_of (a_bcast a') (a_id a).
  Proof. intros c h b k a j a' R A A'. exact (AccProofs.sender_lemma hash5 hash3 pick c h b j a' (a_id a) R A' (not_cut hash5 hash3 pick c h b k a j R A)). Qed.
End Props.

(** ** Cases that meet the hypotheses *)
(** "a" subscribed, left and came back on connection 2; "c" (MQTT 3) subscribed; "p" publishes
    (or "c" does), and both get the message. *)
Ltac gone_of es :=
  match goal with
  | R : BrokerSpec.brun _ _ _ _ ?h1 ?b1 |- exists b2 out h b, EndSpec.gone_through _ _ _ _ _ _ ?e b2 out h b _ _ /\ _ =>
      let r := eval vm_compute in (x_step e b1) in
      match r with BOk ?b2 ?out =>
        let t := eval vm_compute in (trace x_h5 x_h3 x_pick es (Past b1 e out :: h1) b2) in
        match t with Some (?h, ?b) => exists b2, out, h, b;
          assert (P : forall p, In p h -> proper p) by proper_of;
          pose proof (fun d a => gone_by_trace x_h5 x_h3 x_pick config_default h1 b1 e b2 out es h b 3 d a R ltac:(vm_compute; reflexivity) ltac:(vm_compute; reflexivity) P) as G3;
          pose proof (fun d a => gone_by_trace x_h5 x_h3 x_pick config_default h1 b1 e b2 out es h b 1 d a R ltac:(vm_compute; reflexivity) ltac:(vm_compute; reflexivity) P) as G1
        end
      end
  end.
Ltac on_record_of R P k a := destruct (RecordProofs.recorded x_h5 x_h3 x_pick config_default _ _ k a ltac:(vm_compute; discriminate) R P ltac:(reflexivity)) as (m & RC & E); exists m; split; [exact RC|rewrite <- E; reflexivity].
Definition x_both (h1 : list past) (b1 b : broker) : Prop :=
  (exists a r, sess_at b1 2 = Some a /\ not_removed b1 2 /\ a_id a = 0 /\ sess_at b 2 = Some (A5 r) /\ s_id r = 0 /\ exists m, on_record config_default h1 2 a m /\ m "t/+"%string = Some L1) /\
  (exists a r, sess_at b1 1 = Some a /\ not_removed b1 1 /\ a_id a = 1 /\ sess_at b 1 = Some (A3 r) /\ z_id r = 1 /\ exists m, on_record config_default h1 1 a m /\ m "t/#"%string = Some L1).
Ltac both_of R P1 := split; do 2 eexists; (split; [reflexivity|]; split; [intros ? X; vm_compute in X; discriminate X|]; split; [reflexivity|]; split; [reflexivity|]; split; [reflexivity|]);
  match goal with |- exists m, on_record _ ?h ?k ?a m /\ _ => on_record_of R P1 k a end.
Example end_to_end_case : exists h1 b1, x_run h1 b1 /\ exists b2 out h b,
  gone_through x_h5 x_h3 x_pick config_default h1 b1 (x_pub 3 "t/x") b2 out h b 3 0 /\ gone_through x_h5 x_h3 x_pick config_default h1 b1 (x_pub 3 "t/x") b2 out h b 3 1 /\
  out = [OPkt5 3 (KPuback 7 0)] /\ (exists s, sess_at b1 3 = Some (A5 s)) /\ x_both h1 b1 b.
Proof.
  run_of x_some. match goal with |- exists b2 out h b, gone_through _ _ _ _ ?h1 ?b1 _ _ _ _ _ _ _ /\ _ => assert (R : BrokerSpec.brun x_h5 x_h3 x_pick config_default h1 b1) by (apply (trace_new x_h5 x_h3 x_pick config_default x_some); vm_compute; reflexivity);
    assert (P1 : forall p, In p h1 -> proper p) by proper_of end.
  gone_of [EFlush 3 0; EFlush 3 1; ENormal 2; ENormal 1].
  split; [eapply G3; reflexivity|]. split; [eapply G3; reflexivity|]. split; [reflexivity|]. split; [eexists; reflexivity|]. clear G1 G3. both_of R P1.
Qed.
Definition x_w3p : wpub3 := WPub3 false (Q2 4) false "t/x" "m".
Example end_to_end_case3 : exists h1 b1, x_run h1 b1 /\ exists b2 out h b,
  gone_through x_h5 x_h3 x_pick config_default h1 b1 (EPacket3 1 9 (YPub x_w3p)) b2 out h b 1 0 /\ gone_through x_h5 x_h3 x_pick config_default h1 b1 (EPacket3 1 9 (YPub x_w3p)) b2 out h b 1 1 /\
  out = [OPkt3 1 (JPubrec 4)] /\ over b2 1 = false /\ (exists s, sess_at b1 1 = Some (A3 s)) /\ x_both h1 b1 b.
Proof.
  run_of x_some. match goal with |- exists b2 out h b, gone_through _ _ _ _ ?h1 ?b1 _ _ _ _ _ _ _ /\ _ => assert (R : BrokerSpec.brun x_h5 x_h3 x_pick config_default h1 b1) by (apply (trace_new x_h5 x_h3 x_pick config_default x_some); vm_compute; reflexivity);
    assert (P1 : forall p, In p h1 -> proper p) by proper_of end.
  gone_of [EFlush 1 0; EFlush 1 1; ENormal 2; ENormal 1].
  split; [eapply G1; reflexivity|]. split; [eapply G1; reflexivity|]. split; [reflexivity|]. split; [reflexivity|]. split; [eexists; reflexivity|]. clear G1 G3. both_of R P1.
Qed.
Print Assumptions C73_end_to_end_5_5.
Print Assumptions C73_end_to_end_5_3.
Print Assumptions C73_end_to_end_3_5.
Print Assumptions C73_end_to_end_3_3.
Print Assumptions C73_never_cut_off.
Print Assumptions C73_accounted.
