(** C68: a client receives nothing that nobody published, and nothing it did not ask for.

    [brun hash5 hash3 pick c h b]: [b] is a state the server can be in after the steps [h],
    latest first (BrokerProps).  [p] is any step of the run, [pre] what happened before it.
    OriginSpec says in terms of the packets of the clients and their answers what it is to
    publish and to subscribe. *)
From Coq Require Import List Bool NArith String Lia.
From Verif Require Import Base BaseLemmas TopicModel TopicSpec MsgModel PendingModel OutModel RouteModel RouteSpec RetainModel GlobModel Sess5Model Sess3Model ConnModel RegModel BrokerModel
  OutSpec AliasSpec BrokerSpec LifeSpec BrokerProps LifeProps OriginSpec OriginProofs.
Import ListNotations.
Local Open Scope N_scope.
Local Open Scope list_scope.

Section Props.
  Variables (hash5 : wpub5 -> N) (hash3 : wpub3 -> N) (pick : draw -> broker -> string -> string -> N).
  Local Notation brun := (brun hash5 hash3 pick).
  (** Packets are as mqtt-proto decodes them. *)
  Local Notation usual h := ((forall p, In p h -> proper p) /\ wills_fine h).

  (** Every PUBLISH written to an MQTT 5 client.  The client resolves the topic of the packet
      with the aliases it was taught by the packets written before, within the Topic Alias
      Maximum of its own CONNECT.  Then this topic, the payload and the properties were
      published before, at this QoS or a higher one, with a lifetime not shorter than the one
      announced (none, if none is announced), and the client subscribed to a filter that
      selects the topic; the QoS is not above the server's maximum. *)
  Theorem C68_only_published : forall c post p pre b k w o1 o2, brun c (post ++ p :: pre) b -> usual (post ++ p :: pre) ->
    w_out p = o1 ++ OPkt5 k (KPub w) :: o2 ->
    exists amax a t, alias_limit k pre amax /\ sess_at (w_b p) k = Some a /\
      fst (client_read amax (fold_left (learn amax) (pkts5 k o1) (learned amax k pre)) w) = Some t /\
      due_to c (p :: pre) (a_ident a) t (w5_payload w) (pp_other (w5_props w)) (pp_expiry (w5_props w)) (qp_qos (w5_qp w)).
  Proof. intros c post p pre b k w o1 o2 R (P & W). exact (sent5 hash5 hash3 pick c post p pre b k w o1 o2 R P W). Qed.

  (** The same for an MQTT 3 client; its packets have no aliases and no properties. *)
  Theorem C68_v3_only_published : forall c post p pre b k w, brun c (post ++ p :: pre) b -> usual (post ++ p :: pre) ->
    In (OPkt3 k (JPub w)) (w_out p) ->
    exists a other v, sess_at (w_b p) k = Some a /\ due_to c (p :: pre) (a_ident a) (w3_topic w) (w3_payload w) other v (qp_qos (w3_qp w)).
  Proof. intros c post p pre b k w R (P & W). exact (sent3 hash5 hash3 pick c post p pre b k w R P W). Qed.
End Props.

(** ** A run *)

(** Client "a" takes up to two aliases and subscribes to "t/#"; an MQTT 3 client "c" does
    too; client "b" publishes "t/x" and binds alias 3 to it, then publishes with the alias
    only, and then its will is published.  "a" gets "t/x" with alias 1, then alias 1 alone,
    then the will; "c" gets the topics. *)
Definition x_w (q : qos) (t : string) : will5 := Will5 q false t "bye" None (PProps None None [] "").
Definition x_say (k : N) (t m : string) (a : option N) : bev := EPacket5 k 10 (IPub (WPub5 false (Q1 7) false t m (PProps None a [] "p"))).
Definition x_origin : list bev :=
  EConnect5 0 "u" (Connect5 true 60 "a" None None None None None None (Some 2) None None None) None :: ETick 100000 :: x_up 0 ++ [x_sub 0 "t/#"] ++
  [x_c3 false "c" true 60 None] ++ x_up 1 ++ [x_s3 1 "t/#"] ++
  [x_c5 "b" true 60 None (Some (x_w L1 "t/w"))] ++ x_up 2 ++
  [x_say 2 "t/x" "m" (Some 3); EFlush 2 0; EFlush 2 1; ENormal 0; ENormal 1; x_say 2 "" "n" (Some 3); EFlush 2 0; EFlush 2 1; ENormal 0; ENormal 1;
   EClose 2; EEnd 2 true; EFlush 2 0; EFlush 2 1; ENormal 0; ENormal 1].
Definition x_got (k : N) (h : list past) : list bout := flat_map (fun p => filter (fun o => match o with OPkt5 j (KPub _) | OPkt3 j (JPub _) => j =? k | _ => false end) (w_out p)) (rev h).
Ltac wills_of_run := apply wills_one; repeat (apply Forall_cons; [cbn; repeat constructor; discriminate|]); apply Forall_nil.
Example C68_case : exists h b, x_run h b /\ (forall p, In p h -> proper p) /\ wills_fine h /\
  (exists w1 w2 w3, x_got 0 h = [OPkt5 0 (KPub w1); OPkt5 0 (KPub w2); OPkt5 0 (KPub w3)] /\
    map (fun w => (w5_topic w, w5_payload w, pp_alias (w5_props w))) [w1; w2; w3] = [("t/x", "m", Some 1); ("", "n", Some 1); ("t/w", "bye", Some 2)]%string) /\
  (exists w1 w2 w3, x_got 1 h = [OPkt3 1 (JPub w1); OPkt3 1 (JPub w2); OPkt3 1 (JPub w3)] /\
    map (fun w => (w3_topic w, w3_payload w)) [w1; w2; w3] = [("t/x", "m"); ("t/x", "n"); ("t/w", "bye")]%string).
Proof.
  run_of x_origin. split; [proper_of|]. split; [wills_of_run|]. split; do 3 eexists; (split; [vm_compute; reflexivity|reflexivity]).
Qed.

Print Assumptions C68_only_published.
Print Assumptions C68_v3_only_published.

(** ** C75: lifetimes end to end *)
(** The lifetime announced to a receiver is never more than the publisher gave the message, and
    a message is announced without lifetime only if it was published without: this is part of
    [C68_only_published].  Here it is on its own, with the time that passed since the
    publication left out; in full the property is false, see below. *)
Section Lifetime.
  Variables (hash5 : wpub5 -> N) (hash3 : wpub3 -> N) (pick : draw -> broker -> string -> string -> N).
  Theorem C75_announced_partial : forall c post p pre b k w, brun hash5 hash3 pick c (post ++ p :: pre) b ->
    (forall q, In q (post ++ p :: pre) -> proper q) -> wills_fine (post ++ p :: pre) -> In (OPkt5 k (KPub w)) (w_out p) ->
    exists t other v0 q0, origin c (p :: pre) (Msg t (w5_payload w) other v0 q0) /\ within (pp_expiry (w5_props w)) v0.
  Proof. exact (announced5 hash5 hash3 pick). Qed.
End Lifetime.

(** A retained message lives for ever.  "b" publishes one with an expiry interval of one second
    at second 100 and leaves; at second 1100 "a" subscribes, is sent the message and is told
    that it has one more second to live. *)
Definition x_brief (k : N) (r : bool) : bev := EPacket5 k 10 (IPub (WPub5 false (Q1 7) r "t" "m" (PProps (Some 1) None [] ""))).
Definition x_old : list bev := [ETick 100000; x_c5 "b" true 60 None None] ++ x_up 0 ++ [x_brief 0 true] ++ x_down 0 ++ [ETick 1000000; x_a true] ++ x_up 1 ++ [x_sub 1 "t"].
Theorem C75_retained_refuted : exists h b w, x_run h b /\ (forall p, In p h -> proper p) /\ wills_fine h /\
  (exists p, In p h /\ w_e p = x_brief 0 true /\ seconds (w_b p) = 100) /\
  (exists p, In p h /\ In (OPkt5 1 (KPub w)) (w_out p) /\ seconds (w_b p) = 1100) /\ w5_payload w = "m"%string /\ pp_expiry (w5_props w) = Some 1.
Proof.
  assert (K : exists h b, x_run h b /\ (forall p, In p h -> proper p) /\ wills_fine h /\ exists w,
    (exists p, In p h /\ w_e p = x_brief 0 true /\ seconds (w_b p) = 100) /\
    (exists p, In p h /\ In (OPkt5 1 (KPub w)) (w_out p) /\ seconds (w_b p) = 1100) /\ w5_payload w = "m"%string /\ pp_expiry (w5_props w) = Some 1).
  { run_of x_old. split; [proper_of|]. split; [wills_of_run|]. eexists.
    split. { eexists. split; [do 9 right; left; reflexivity|]. split; reflexivity. }
    split. { eexists. split; [left; reflexivity|]. split; [left; reflexivity|reflexivity]. }
    split; reflexivity. }
  destruct K as (h & b & R & P & W & w & K). exists h, b, w. auto.
Qed.

(** Nor does the time count that a message waits on its way to the receiver's session.  "b"
    publishes at second 100 for "a", whose task gets to it at second 120. *)
Definition x_slow : list bev := [ETick 100000; x_a true] ++ x_up 0 ++ [x_sub 0 "t"; x_c5 "b" true 60 None None] ++ x_up 1 ++
  [x_brief 1 false; EFlush 1 0; ETick 20000; ENormal 0].
Theorem C75_transit_refuted : exists h b w, x_run h b /\ (forall p, In p h -> proper p) /\ wills_fine h /\
  (exists p, In p h /\ w_e p = x_brief 1 false /\ seconds (w_b p) = 100) /\
  (exists p, In p h /\ In (OPkt5 0 (KPub w)) (w_out p) /\ seconds (w_b p) = 120) /\ w5_payload w = "m"%string /\ pp_expiry (w5_props w) = Some 1.
Proof.
  assert (K : exists h b, x_run h b /\ (forall p, In p h -> proper p) /\ wills_fine h /\ exists w,
    (exists p, In p h /\ w_e p = x_brief 1 false /\ seconds (w_b p) = 100) /\
    (exists p, In p h /\ In (OPkt5 0 (KPub w)) (w_out p) /\ seconds (w_b p) = 120) /\ w5_payload w = "m"%string /\ pp_expiry (w5_props w) = Some 1).
  { run_of x_slow. split; [proper_of|]. split; [wills_of_run|]. eexists.
    split. { eexists. split; [do 3 right; left; reflexivity|]. split; reflexivity. }
    split. { eexists. split; [left; reflexivity|]. split; [left; reflexivity|reflexivity]. }
    split; reflexivity. }
  destruct K as (h & b & R & P & W & w & K). exists h, b, w. auto.
Qed.
Print Assumptions C75_announced_partial.
Print Assumptions C75_retained_refuted.
Print Assumptions C75_transit_refuted.
