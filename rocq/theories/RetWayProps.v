(** C83: from a retained message to the application of a new subscriber.

    Session [r] of a client has seen the events [lr], one of which is a SUBSCRIBE that was answered by
    SUBACK, after the events [l1].  [hr] are the retained messages the broker keeps at that moment
    (C82).  Every retained message that a filter of the SUBSCRIBE matches, and that the options of the
    subscription ask for, comes to the client: with QoS 0 it is written along with the SUBACK; with QoS 1 and 2
    it goes through the session's queue, and the application of a correct client gets it as it gets
    a message published now (C80).  Definitions in RetWaySpec. *)
From Coq Require Import List Bool NArith String.
From Verif Require Import Base TopicModel TopicSpec MsgModel OutModel OutSpec RouteModel RouteSpec RetainModel RetainSpec RetainProofs GlobModel Sess5Model Sess3Model ConnModel BrokerModel DelivSpec InSpec BrokerSpec LifeSpec SubsSpec LinkSpec RecvSpec
  RunProofs BrokerFacts GetSpec RetRunSpec RetRunProofs RetWaySpec RetWayProofs BrokerProps LifeProps RetRunProps.
Import ListNotations.
Local Open Scope N_scope.
Local Open Scope list_scope.

Section Props.
  Variables (hash5 : wpub5 -> N) (hash3 : wpub3 -> N) (pick : draw -> broker -> string -> string -> N).
  Local Notation brun := (brun hash5 hash3 pick).

  (** Missing: as in C80, logs in which a client holds 65535 identifiers ([few_enough]) and, for
      protocol 5, logs in which a message expired after being sent ([expired_unsent]). *)
  Theorem C83_retained_5_partial : forall c h b k r, cf_max_qos c <= 2 -> brun c h b -> (forall p, In p h -> proper p) -> (forall p, In p h -> after_1970 p) -> sess_at b k = Some (A5 r) ->
    exists lr, life5 k h lr /\ srun5 hash5 c r lr /\ forall l1 now len p id fs g o l2 codes, lr = l1 ++ (VPkt now len (ISub p id fs) g, o) :: l2 -> In (KSuback p codes) o ->
      exists h2 q h1 j hr r1 mq, h = h2 ++ q :: h1 /\ w_e q = EPacket5 j len (ISub p id fs) /\ o = pkts5 j (w_out q) /\ life5 j h1 l1 /\ srun5 hash5 c r1 l1 /\
        keeps c h1 (w_b q) hr /\ qos_num mq = cf_max_qos c /\
        forall fs1 f op fs2 m, fs = fs1 ++ (f, op) :: fs2 -> (forall c', ~ unsupported c id f c') -> plain f -> cf_retain c = true ->
          so_rh op = RH_send \/ so_rh op = RH_send_if_new /\ ~ In f (map fst fs1) /\ subscribed5 l1 f = None ->
          retained hr (rc_topic m) = Some m -> topic_matches f (rc_topic m) -> ~ (so_no_local op = true /\ rc_client m = s_ident r1) ->
          s_maxpkt r1 < retained_size5 (qos_min (so_qos op) mq) m \/ comes5 c lr l1 l2 now o (retained_pub5 id (qos_min (so_qos op) mq) (so_rap op) m).
  Proof. exact (retained5_lemma hash5 hash3 pick). Qed.

  (** Protocol 3.  The server does not hand out retained messages above the QoS it grants. *)
  Theorem C83_retained_3_partial : forall c h b k r, cf_max_qos c <= 2 -> brun c h b -> (forall p, In p h -> proper p) -> (forall p, In p h -> after_1970 p) -> sess_at b k = Some (A3 r) ->
    exists lr, life3 k h lr /\ srun3 hash3 c r lr /\ forall l1 now len p fs g o l2 codes, lr = l1 ++ (UPkt now len (YSub p fs) g, o) :: l2 -> In (JSuback p codes) o ->
      exists h2 q h1 j hr mq, h = h2 ++ q :: h1 /\ w_e q = EPacket3 j len (YSub p fs) /\ o = pkts3 j (w_out q) /\ life3 j h1 l1 /\ keeps c h1 (w_b q) hr /\ qos_num mq = cf_max_qos c /\
        forall f qs m, In (f, qs) fs -> retained hr (rc_topic m) = Some m -> topic_matches f (rc_topic m) -> qos_leb (rc_qos m) (qos_min qs mq) = true ->
          comes3 c (ready3 c h b k r) lr l1 l2 now o (retained_pub3 m).
  Proof. exact (retained3_lemma hash5 hash3 pick). Qed.
End Props.
Print Assumptions C83_retained_5_partial.
Print Assumptions C83_retained_3_partial.

(** ** Cases that meet the hypotheses
    "p" leaves retained messages for "t" (QoS 1) and "u" (QoS 0).  "c" subscribes to "#" and acknowledges
    the first. *)
Definition v_sub : in5 := ISub 1 None [("#"%string, SubOpts L1 false false RH_send_if_new)].
Definition v_pubs : list bev := [ETick 100000; x_c5 "p" true 60 None None] ++ x_up 0 ++ [k_pub5 0 (WPub5 false (Q1 7) true "t" "1" k_no); k_pub5 0 (WPub5 false Q0 true "u" "2" k_no)].
Definition v_evs5 : list bev := v_pubs ++ [x_c5 "c" true 60 None None] ++ x_up 1 ++ [EPacket5 1 10 v_sub; EPacket5 1 4 (IPuback 1)].
Definition v_evs3 : list bev := v_pubs ++ [x_c3 false "c" true 60 None] ++ x_up 1 ++ [EPacket3 1 10 (YSub 1 [("#"%string, L1)]); EPacket3 1 4 (YPuback 1)].
Definition v_t : rcontent := RContent "p" L1 "t" "1" (Some k_no) 9.
Definition v_u : rcontent := RContent "p" L0 "u" "2" (Some k_no) 7.
Lemma v_kept c h2 q h1 b l : BrokerSpec.brun x_h5 x_h3 x_pick c (h2 ++ q :: h1) b -> (forall p, In p (h2 ++ q :: h1) -> proper p) -> ret_get_matches (b_retain (w_b q)) "#" = Some l ->
  exists hr, keeps c h1 (w_b q) hr /\ forall m, In m l -> retained hr (rc_topic m) = Some m /\ topic_matches "#" (rc_topic m).
Proof.
  intros R P E. destruct (kept_then x_h5 x_h3 x_pick c h2 q h1 b R P) as (hr & K & G). exists hr. split; [exact K|]. intros m I.
  destruct (retained_lookup_lemma hr "#") as (l' & E' & _ & H); [exact vl_hash|]. change (g_retain (glob_of (w_b q))) with (b_retain (w_b q)) in G. rewrite <- G, E in E'. injection E' as <-. now apply H.
Qed.
Lemma life5_as k h l l' : life5 k h l -> l = l' -> life5 k h l'.
Proof. now intros L <-. Qed.
Ltac v_life5 := repeat match goal with |- life5 1 (?p :: _) _ => let e := eval cbn in (w_e p) in
  match e with EJoin 1 => eapply lf5_new; [reflexivity|left; eexists; split; [cbn; left; reflexivity|reflexivity]|split; [right; left; reflexivity|reflexivity]|reflexivity]
  | EStart 1 => eapply lf5_step; [|apply d5_start; reflexivity] | EPacket5 1 ?n ?x => eapply lf5_step; [|apply (d5_pkt 1 p n x); reflexivity]
  | _ => eapply lf5_step; [|apply (d5_still _ _ []); [cbn; first [exact Logic.I|discriminate]|reflexivity|constructor]] end end.
Example retained_case5 : exists h b, x_run h b /\ (forall p, In p h -> proper p) /\ (forall p, In p h -> after_1970 p) /\ (exists r, sess_at b 1 = Some (A5 r)) /\
  exists h2 q h1 hr, h = h2 ++ q :: h1 /\ w_e q = EPacket5 1 10 v_sub /\ keeps config_default h1 (w_b q) hr /\
    (forall m, In m [v_t; v_u] -> retained hr (rc_topic m) = Some m /\ topic_matches "#" (rc_topic m)) /\ (forall c', ~ unsupported config_default None "#" c') /\ plain "#" /\
    exists l1 now g o l2 w0 w1, life5 1 h (l1 ++ (VPkt now 10 v_sub g, o) :: l2) /\ goes_on5 l2 /\ subscribed5 l1 "#" = None /\
      o = [KPub w0; KPub w1; KSuback 1 [1]] /\ w5_qp w0 = Q0 /\ w5_qp w1 = Q1 1.
Proof.
  run_of v_evs5. match goal with |- _ /\ _ /\ _ /\ exists h2 q h1 hr, ?h = _ /\ _ => assert (R : exists b, BrokerSpec.brun x_h5 x_h3 x_pick config_default h b) by (eexists; apply (trace_new x_h5 x_h3 x_pick config_default v_evs5); vm_compute; reflexivity);
    assert (P1 : forall p, In p h -> proper p) by proper_of end.
  split; [exact P1|]. split; [after_of|]. split; [eexists; reflexivity|]. destruct R as (b & R).
  match type of R with BrokerSpec.brun _ _ _ _ (?p :: ?q :: ?h1) _ => destruct (v_kept config_default [p] q h1 b [v_t; v_u] R P1 ltac:(vm_compute; reflexivity)) as (hr & K & H); exists [p], q, h1, hr end.
  split; [reflexivity|]. split; [reflexivity|]. split; [exact K|]. split; [exact H|].
  split; [intros c' X; inversion X as [i Y _|_ Y|_ Y]; vm_compute in Y; discriminate Y|]. split; [reflexivity|].
  eexists [_; _], _, _, _, [_], _, _. split; [eapply life5_as; [v_life5|reflexivity]|]. split; [intros ? ? ? ? ? [X|[]]; discriminate X|]. split; [reflexivity|]. split; [reflexivity|]. split; reflexivity.
Qed.
Lemma life3_as k h l l' : life3 k h l -> l = l' -> life3 k h l'.
Proof. now intros L <-. Qed.
Ltac v_life3 := repeat match goal with |- life3 1 (?p :: _) _ => let e := eval cbn in (w_e p) in
  match e with EJoin 1 => eapply lf3_new; [reflexivity|right; eexists; cbn; left; reflexivity|split; [right; left; reflexivity|reflexivity]|reflexivity]
  | EStart 1 => eapply lf3_step; [|apply d3_start; reflexivity] | EPacket3 1 ?n ?x => eapply lf3_step; [|apply (d3_pkt 1 p n x); reflexivity]
  | _ => eapply lf3_step; [|apply (d3_still _ _ []); [cbn; first [exact Logic.I|discriminate]|reflexivity|constructor]] end end.
Example retained_case3 : exists h b, x_run h b /\ (forall p, In p h -> proper p) /\ (forall p, In p h -> after_1970 p) /\ (exists r, sess_at b 1 = Some (A3 r)) /\
  exists h2 q h1 hr, h = h2 ++ q :: h1 /\ w_e q = EPacket3 1 10 (YSub 1 [("#"%string, L1)]) /\ keeps config_default h1 (w_b q) hr /\
    (forall m, In m [v_t; v_u] -> retained hr (rc_topic m) = Some m /\ topic_matches "#" (rc_topic m)) /\
    exists l1 now g o l2, life3 1 h (l1 ++ (UPkt now 10 (YSub 1 [("#"%string, L1)]) g, o) :: l2) /\ goes_on3 l2 /\
      o = [JPub (WPub3 false Q0 true "u" "2"); JPub (WPub3 false (Q1 1) true "t" "1"); JSuback 1 [L1]].
Proof.
  run_of v_evs3. match goal with |- _ /\ _ /\ _ /\ exists h2 q h1 hr, ?h = _ /\ _ => assert (R : exists b, BrokerSpec.brun x_h5 x_h3 x_pick config_default h b) by (eexists; apply (trace_new x_h5 x_h3 x_pick config_default v_evs3); vm_compute; reflexivity);
    assert (P1 : forall p, In p h -> proper p) by proper_of end.
  split; [exact P1|]. split; [after_of|]. split; [eexists; reflexivity|]. destruct R as (b & R).
  match type of R with BrokerSpec.brun _ _ _ _ (?p :: ?q :: ?h1) _ => destruct (v_kept config_default [p] q h1 b [v_t; v_u] R P1 ltac:(vm_compute; reflexivity)) as (hr & K & H); exists [p], q, h1, hr end.
  split; [reflexivity|]. split; [reflexivity|]. split; [exact K|]. split; [exact H|].
  eexists [_; _], _, _, _, [_]. split; [eapply life3_as; [v_life3|reflexivity]|]. split; [intros ? ? ? ? [X|[]]; discriminate X|]. reflexivity.
Qed.
