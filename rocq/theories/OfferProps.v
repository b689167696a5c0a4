(** C63: features that are switched off cannot be used.  [brun], [wills_in], [sess_at]: see
    BrokerProps; [allowed_sub], [allowed_will]: OfferSpec.  That CONNACK announces exactly these
    limits is [C42_negotiated] (ConnProps); that a larger packet than Maximum Packet Size
    is refused is [C48_large_packet_refused] (InProps). *)
From Coq Require Import List Bool NArith String.
From Verif Require Import Base BaseLemmas TopicModel MsgModel PendingModel OutModel RouteModel RouteSpec RetainModel GlobModel Sess5Model Sess3Model ConnModel ConnSpec RegModel BrokerModel
  InSpec DelivSpec RecvSpec BrokerSpec FrameProofs BrokerFacts LifeSpec OfferSpec OfferProofs BrokerProps LifeProps.
Import ListNotations.
Local Open Scope N_scope.

(** C63: whatever clients ask for, at any time, every subscription of every protocol 5 session
    is one the server offers: QoS at most the announced one, and wildcards, shared groups and
    subscription identifiers only if available. *)
Theorem C63_subscriptions : forall hash5 hash3 pick c h b k s f d,
  brun hash5 hash3 pick c h b -> (forall p, In p h -> proper p) ->
  sess_at b k = Some (A5 s) -> aget f (s_subs s) = Some d -> allowed_sub c f (so_qos (sd_opts d)) (sd_id d).
Proof. exact offer_subs. Qed.

(** C63, MQTT 3: QoS at most the configured one; shared groups never.  Missing: wildcards
    ([C63_wildcard_v3_refuted]). *)
Theorem C63_subscriptions_v3_partial : forall hash5 hash3 pick c h b k s f q, cf_max_qos c <= 2 ->
  brun hash5 hash3 pick c h b -> (forall p, In p h -> proper p) ->
  sess_at b k = Some (A3 s) -> aget f (z_subs s) = Some q -> qos_num q <= cf_max_qos c /\ plain f.
Proof. exact offer_subs3. Qed.

(** C63: every will ever published for a protocol 5 client is one the server offers. *)
Theorem C63_will : forall hash5 hash3 pick c h b k w,
  brun hash5 hash3 pick c h b -> In (W5 w) (wills_in k h) -> allowed_will c (wl_qos w) (wl_retain w).
Proof. exact offer_will. Qed.

(** C63: without subscription identifiers no message carries one ([r]: any session of the
    same server the message is handed to). *)
Theorem C63_no_ids : forall hash pick cfg h l w s s' g out c xs y hash' l' r,
  published5 hash pick cfg h l w s s' g out -> handed (s_bcast s) (s_bcast s') c xs -> In y xs ->
  cf_subid cfg = false -> srun5 hash' cfg r l' ->
  forall now, exists r' o, passes5 now cfg y r r' o /\ forall p, o = Some p -> pp_subids (p5_props p) = [].
Proof. exact no_ids. Qed.

(** Nothing is on offer but QoS 0. *)
Definition x_off : config := Config 0 15 10 10 256 10 65535 4294967295 268435460 268435460 65535 false false false false.
Ltac off_of es :=
  let r := eval vm_compute in (trace x_h5 x_h3 x_pick es [] (broker_new x_off)) in
  match r with Some (?h, ?b) => exists h, b; split; [apply (trace_new x_h5 x_h3 x_pick x_off es); vm_compute; reflexivity|] end.
Definition x_told (k : N) (h : list past) : Prop :=
  exists p ack, In p h /\ In (OConnack5 k ack) (w_out p) /\ ka_code ack = RC_success /\ told_max_qos ack = L0 /\ ka_retain ack = Some false /\ ka_wild ack = Some false.

(** C63 is false of PUBLISH: a client that was told QoS 0 and no retained messages publishes
    with QoS 2 and RETAIN; the message is acknowledged, forwarded and stored. *)
Definition x_forbidden : bev := EPacket5 0 10 (IPub (WPub5 false (Q2 7) true "t" "m" (PProps None None [] ""))).
Theorem C63_publish_refuted : exists h b b' m, brun x_h5 x_h3 x_pick x_off h b /\ (forall p, In p h -> proper p) /\ x_told 0 h /\
  x_step x_forbidden b = BOk b' [OPkt5 0 (KPubrec 7 0)] /\
  ret_get_matches (b_retain b) "t" = Some [] /\ ret_get_matches (b_retain b') "t" = Some [m] /\ rc_qos m = L2 /\ rc_payload m = "m"%string.
Proof.
  assert (X : exists h b, brun x_h5 x_h3 x_pick x_off h b /\ (forall p, In p h -> proper p) /\ x_told 0 h /\ exists b' m,
    x_step x_forbidden b = BOk b' [OPkt5 0 (KPubrec 7 0)] /\ ret_get_matches (b_retain b) "t" = Some [] /\ ret_get_matches (b_retain b') "t" = Some [m] /\ rc_qos m = L2 /\ rc_payload m = "m"%string).
  { off_of ([ETick 100000; x_a true] ++ x_up 0 ++ [x_sub 0 "t"])%list. split; [proper_of|]. split.
    - eexists _, _. split; [do 2 right; left; reflexivity|]. split; [left; reflexivity|]. repeat split.
    - eexists _, _. split; [vm_compute; reflexivity|]. split; [vm_compute; reflexivity|]. split; [vm_compute; reflexivity|]. split; reflexivity. }
  destruct X as (h & b & R & P & T & b' & m & X). exists h, b, b', m. auto.
Qed.

(** C63 is false of MQTT 3 subscriptions: "#" is granted, and the message that should not have
    been retained is sent. *)
Theorem C63_wildcard_v3_refuted : exists h b b', brun x_h5 x_h3 x_pick x_off h b /\ (forall p, In p h -> proper p) /\
  x_step (x_s3 1 "#") b = BOk b' [OPkt3 1 (JPub (WPub3 false Q0 true "t" "m")); OPkt3 1 (JSuback 1 [L0])].
Proof.
  assert (X : exists h b, brun x_h5 x_h3 x_pick x_off h b /\ (forall p, In p h -> proper p) /\ exists b',
    x_step (x_s3 1 "#") b = BOk b' [OPkt3 1 (JPub (WPub3 false Q0 true "t" "m")); OPkt3 1 (JSuback 1 [L0])]).
  { off_of ([ETick 100000; x_a true] ++ x_up 0 ++ [EPacket5 0 10 (IPub (WPub5 false Q0 true "t" "m" (PProps None None [] ""))); x_c3 false "b" true 60 None] ++ x_up 1)%list. split; [proper_of|].
    eexists. vm_compute. reflexivity. }
  destruct X as (h & b & R & P & b' & X). exists h, b, b'. auto.
Qed.

(** C63 is false of MQTT 3 wills: a QoS 2 will with RETAIN is accepted and published. *)
Theorem C63_will_v3_refuted : exists h b, brun x_h5 x_h3 x_pick x_off h b /\ (forall p, In p h -> proper p) /\ In (W3 (Will3 L2 true "t" "bye")) (wills_in 0 h) /\
  exists m, ret_get_matches (b_retain b) "t" = Some [m] /\ rc_qos m = L2.
Proof.
  off_of ([x_c3 false "b" true 60 (Some (Will3 L2 true "t" "bye"))] ++ x_up 0 ++ [EClose 0; EEnd 0 true])%list. split; [proper_of|].
  split; [vm_compute; auto 10|]. eexists. split; [vm_compute; reflexivity|reflexivity].
Qed.

(** Three clients of a server that offers nothing but QoS 0 and retained messages: the second
    subscribes with QoS 1 and gets QoS 0, its other SUBSCRIBE packets are refused; the will of
    the third, of QoS 1, is refused, that of the first is published. *)
Definition x_few : config := Config 0 15 10 10 256 10 65535 4294967295 268435460 268435460 65535 true false false false.
Definition x_w1 (q : qos) (r : bool) : will5 := Will5 q r "w" "bye" None (PProps None None [] "").
Example C63_case : exists h b, brun x_h5 x_h3 x_pick x_few h b /\ (forall p, In p h -> proper p) /\
  (exists s d, sess_at b 1 = Some (A5 s) /\ keys (s_subs s) = ["w"%string] /\ aget "w"%string (s_subs s) = Some d /\ so_qos (sd_opts d) = L0) /\
  In (W5 (x_w1 L0 true)) (wills_in 0 h) /\
  (exists p ack, In p h /\ w_out p = [OConnack5 2 ack; OClosed 2] /\ ka_code ack = RC_qos_not_supported) /\
  (exists p, In p h /\ w_out p = [OPkt5 1 (KSuback 1 [0xA2])]) /\ (exists p, In p h /\ w_out p = [OPkt5 1 (KSuback 1 [0x9E])]) /\
  (exists p, In p h /\ w_out p = [OPkt5 1 (KSuback 1 [0xA1])]).
Proof.
  let es := constr:(([ETick 100000; x_c5 "a" true 60 None (Some (x_w1 L0 true))] ++ x_up 0 ++ [x_c5 "b" true 60 None None] ++ x_up 1 ++
    [x_sub 1 "w"; x_sub 1 "#"; x_sub 1 "$share/g/a"; EPacket5 1 10 (ISub 1 (Some 3) [("w"%string, SubOpts L1 false false RH_send)]);
     x_c5 "c" true 60 None (Some (x_w1 L1 false)); ETick 1; EJoin 2; EClose 0; EEnd 0 true])%list) in
  let r := eval vm_compute in (trace x_h5 x_h3 x_pick es [] (broker_new x_few)) in
  match r with Some (?h, ?b) => exists h, b; split; [apply (trace_new x_h5 x_h3 x_pick x_few es); vm_compute; reflexivity|] end.
  split; [proper_of|]. split; [eexists _, _; repeat split; vm_compute; reflexivity|]. split; [vm_compute; auto 10|].
  split; [eexists _, _; split; [do 2 right; left; reflexivity|split; reflexivity]|].
  repeat split.
  - eexists; split; [do 7 right; left; reflexivity|reflexivity].
  - eexists; split; [do 6 right; left; reflexivity|reflexivity].
  - eexists; split; [do 5 right; left; reflexivity|reflexivity].
Qed.

Print Assumptions C63_subscriptions.
Print Assumptions C63_subscriptions_v3_partial.
Print Assumptions C63_will.
Print Assumptions C63_no_ids.
Print Assumptions C63_publish_refuted.
Print Assumptions C63_wildcard_v3_refuted.
Print Assumptions C63_will_v3_refuted.
