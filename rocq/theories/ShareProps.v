(** C84: from an accepted PUBLISH to the member of a share group that is chosen.

    Connection [j] (protocol 5) has a PUBLISH on topic [T] accepted in state [b1], after history [h1].  For
    every share group that the routing table offers for [T] there is exactly one client that is
    handed the message for the group.  A connection of this client holds the shared subscription at that moment,
    and once the messages for this client have gone through, its session has got the message
    (C73) and its application gets it (C80).  Which member it is, is up to [pick].
    Definitions in ShareSpec. *)
From Coq Require Import List Bool NArith String.
From Verif Require Import Base TopicModel TopicSpec MsgModel OutModel OutSpec RouteModel RouteSpec GlobModel Sess5Model Sess3Model ConnModel BrokerModel DelivSpec InSpec BrokerSpec LifeSpec SubsSpec LinkSpec RecvSpec RecordSpec RunProofs BrokerFacts
  AccSpec EndSpec EndProofs GetSpec ShareSpec ShareProofs BrokerProps LifeProps EndProps.
Import ListNotations.
Local Open Scope N_scope.
Local Open Scope list_scope.

Section Props.
  Variables (hash5 : wpub5 -> N) (hash3 : wpub3 -> N) (pick : draw -> broker -> string -> string -> N).

  (** Missing: histories in which a session was given up half-way ([lossless], C64_dead_member_refuted);
      groups that the table has lost after a last member left ([offers_group], C03_shared_members_refuted); messages of
      MQTT 3 clients, which never go to share groups (C64_v3_refuted). *)
  Theorem C84_group_partial : forall c h1 b1 j s len w b2 out, cf_max_qos c <= 2 ->
    brun hash5 hash3 pick c h1 b1 -> (forall p, In p h1 -> proper p) -> (forall p, In p h1 -> lossless p) ->
    sess_at b1 j = Some (A5 s) -> wf_in5 (IPub w) -> len <= cf_packet_server c ->
    bstep hash5 hash3 pick (EPacket5 j len (IPub w)) b1 = BOk b2 out -> (forall code reason, ~ In (OPkt5 j (KDisconnect code reason)) out) ->
    exists l, life5 j h1 l /\ forall T gr inner sh,
      topic_for (cf_alias_max c) l w = Some T -> (forall p, w5_qp w = Q2 p -> opener l p = None /\ w5_dup w = false) ->
      offers_group (b_route b1) T inner gr sh ->
      topic_matches inner T /\ exists k d ms q q', held b1 k = Some (d, ms) /\ aget (share_filter gr inner) ms = Some q' /\ In (d, q) (sh_items sh) /\
        (forall d' y, In y (AccSpec.queued j d' b1 b2) -> In (share_filter gr inner) (nm_filters y) -> d' = d) /\
        arrives5 hash5 hash3 pick c h1 b1 j len w b2 out d T (share_filter gr inner) q.
  Proof. exact (share5_lemma hash5 hash3 pick). Qed.
End Props.
Print Assumptions C84_group_partial.

(** ** A case that meets the hypotheses
    "a" and "b" are in group "g" on "t"; "p" publishes.  The message goes to "a", whose client acknowledges it. *)
Definition m_evs : list bev := [ETick 100000; x_a true] ++ x_up 0 ++ [x_sub 0 "$share/g/t"; x_c5 "p" true 60 None None] ++ x_up 1 ++ [x_c5 "b" true 60 None None] ++ x_up 2 ++ [x_sub 2 "$share/g/t"].
Example group_case : exists h1 b1, x_run h1 b1 /\ (forall p, In p h1 -> proper p) /\ (forall p, In p h1 -> lossless p) /\
  exists b2 out h b, gone_through x_h5 x_h3 x_pick config_default h1 b1 (x_pub 1 "t") b2 out h b 1 0 /\ (forall p, In p h -> after_1970 p) /\
  out = [OPkt5 1 (KPuback 7 0)] /\ (exists s, sess_at b1 1 = Some (A5 s)) /\ (exists r, sess_at b 0 = Some (A5 r) /\ s_id r = 0) /\
  exists sh, offers_group (b_route b1) "t" "t" "g" sh /\ sh_items sh = [(0, L1); (2, L1)] /\
    (exists y, AccSpec.queued 1 0 b1 b2 = [y] /\ nm_filters y = ["$share/g/t"%string]) /\ AccSpec.queued 1 2 b1 b2 = [].
Proof.
  run_of m_evs. match goal with |- (forall p, In p ?h1 -> proper p) /\ _ /\ exists b2 out h b, gone_through _ _ _ _ _ ?b1 _ _ _ _ _ _ _ /\ _ =>
    assert (R : BrokerSpec.brun x_h5 x_h3 x_pick config_default h1 b1) by (apply (trace_new x_h5 x_h3 x_pick config_default m_evs); vm_compute; reflexivity);
    assert (P1 : forall p, In p h1 -> proper p) by proper_of end.
  split; [exact P1|]. split; [lossless_of|]. gone_of [EFlush 1 0; ENormal 0; EPacket5 0 4 (IPuback 1)].
  split; [eapply G1; reflexivity|]. split; [after_of|]. split; [reflexivity|]. split; [eexists; reflexivity|]. split; [eexists; split; reflexivity|].
  eexists. split; [eexists; split; [vm_compute; left; reflexivity|split; [reflexivity|left; reflexivity]]|]. split; [reflexivity|]. split; [|reflexivity]. eexists. split; reflexivity.
Qed.
