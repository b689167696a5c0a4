(** C50 for runs of the whole broker. *)
From Coq Require Import List Bool NArith String Lia.
From Verif Require Import Base BaseLemmas TopicModel TopicSpec MsgModel PendingModel OutModel RouteModel RouteSpec RetainModel GlobModel Sess5Model Sess3Model ConnModel RegModel BrokerModel
  OutSpec InSpec BrokerSpec LifeSpec RunProofs BrokerFacts PanicProofs BrokerProps LifeProps.
Import ListNotations.
Local Open Scope N_scope.
Local Open Scope list_scope.

(** Topic of a will, of either protocol. *)
Definition will_topic (w : awill) : string := match w with W5 w => wl_topic w | W3 w => wl3_topic w end.

(** Whatever the clients did before and in whatever order, no step panics: no CONNECT, packet,
    takeover, will, expiry or end of a session.  Packets and wills are as mqtt-proto decodes
    them ([proper], valid topic names), and the configured maximum QoS is 0, 1 or 2.  Missing:
    runs in which MQTT 5 clients subscribe to shared filters, where that is allowed. *)
Theorem C50_broker_no_panic_partial : forall hash5 hash3 pick c h b e, cf_max_qos c <= 2 -> brun hash5 hash3 pick c h b ->
  (forall p, In p h -> proper p) -> proper (Past b e []) ->
  (forall k w, In w (asked_will k h) -> valid_topic_name (will_topic w)) ->
  (forall p, In p h -> Forall plain (shared_asked c (w_e p))) ->
  bstep hash5 hash3 pick e b <> BPanic.
Proof. intros hash5 hash3 pick c h b e Q R P PE W PL. exact (broker_no_panic hash5 hash3 pick c h b e Q R P PL W PE). Qed.

(** So a server configured without shared subscriptions never panics. *)
Theorem C50_unshared_no_panic : forall hash5 hash3 pick c h b e, cf_max_qos c <= 2 -> cf_shared c = false -> brun hash5 hash3 pick c h b ->
  (forall p, In p h -> proper p) -> proper (Past b e []) ->
  (forall k w, In w (asked_will k h) -> valid_topic_name (will_topic w)) ->
  bstep hash5 hash3 pick e b <> BPanic.
Proof. exact unshared_no_panic. Qed.

Ltac plain_of := apply Forall_forall; repeat (apply Forall_cons; [cbn; repeat constructor|]); apply Forall_nil.
(** Clients of both protocols, one with a will; sessions end and are resumed; then the client
    with the will is lost and its session ends. *)
Definition x_busy : list bev := x_sent ++ [x_c5 "w" true 60 (Some 5) (Some (x_will None))] ++ x_up 4 ++ [x_sub 4 "u/+"; EClose 4].
Example C50_broker_case : exists h b, x_run h b /\ (forall p, In p h -> proper p) /\ asked_will 4 h = [W5 (x_will None)] /\
  (forall k w, In w (asked_will k h) -> valid_topic_name (will_topic w)) /\ (forall p, In p h -> Forall plain (shared_asked config_default (w_e p))) /\
  exists b' o, exec x_h5 x_h3 x_pick [EEnd 4 true; EDone 4; ETick 5000; EFire 6; EFire 6; EControl 4] b = Some (b', o) /\ In (OWill5 4 (x_will None)) o.
Proof.
  run_of x_busy. split; [proper_of|]. split; [vm_compute; reflexivity|]. split; [|split; [plain_of|]].
  - intros k w. unfold asked_will. cbn [flat_map]. unfold connect_will. cbn. rewrite ?app_nil_r. intros I.
    repeat match goal with H : context[if ?x then _ else _] |- _ => destruct x; cbn in H end; try contradiction;
      destruct I as [<-|[]]; split; reflexivity.
  - go_of [EEnd 4 true; EDone 4; ETick 5000; EFire 6; EFire 6; EControl 4]. vm_compute; auto 10.
Qed.

(** With shared filters the statement is false of whole runs: two v5 clients join a group, the
    second leaves it and joins again. *)
Definition x_shared : list bev :=
  [ETick 100000; x_a true] ++ x_up 0 ++ [x_c5 "b" true 60 None None] ++ x_up 1 ++ [x_sub 0 "$share/g/a"; x_sub 1 "$share/g/a"; EPacket5 1 10 (IUnsub 2 ["$share/g/a"%string])].
Theorem C50_broker_no_panic_refuted : exists h b, x_run h b /\ (forall p, In p h -> proper p) /\ proper (Past b (x_sub 1 "$share/g/a") []) /\ x_step (x_sub 1 "$share/g/a") b = BPanic.
Proof. run_of x_shared. split; [proper_of|]. split; [repeat constructor|]. vm_compute. reflexivity. Qed.

(** Nor can a client always leave: after four clients joined and left a group, the one that
    disconnects makes the server panic while it removes the client. *)
Definition x_unsub (k : N) (f : string) : bev := EPacket5 k 10 (IUnsub 2 [f]).
Definition x_leave : list bev :=
  [ETick 100000; x_a true] ++ x_up 0 ++ [x_c5 "b" true 60 None None] ++ x_up 1 ++ [x_c5 "c" true 60 None None] ++ x_up 2 ++ [x_c5 "d" true 60 None None] ++ x_up 3 ++
  [x_sub 0 "$share/g/a"; x_sub 1 "$share/g/a"; x_sub 2 "$share/g/a"; x_unsub 2 "$share/g/a"; x_sub 3 "$share/g/a"; x_sub 2 "$share/g/a"; x_unsub 3 "$share/g/a"; EClose 2; EEnd 2 true].
Theorem C50_leave_no_panic_refuted : exists h b, x_run h b /\ (forall p, In p h -> proper p) /\ proper (Past b (EDone 2) []) /\ x_step (EDone 2) b = BPanic.
Proof. run_of x_leave. split; [proper_of|]. split; [repeat constructor|]. vm_compute. reflexivity. Qed.

(** A server without shared subscriptions answers the same clients with an error (0x9E). *)
Definition x_unshared : config := Config 2 15 10 10 256 10 65535 4294967295 268435460 268435460 65535 true false true true.
Example C50_unshared_case : exists h b, brun x_h5 x_h3 x_pick x_unshared h b /\ cf_shared x_unshared = false /\ (forall p, In p h -> proper p) /\ asked_will 0 h = [] /\
  exists b', x_step (x_sub 1 "$share/g/a") b = BOk b' [OPkt5 1 (KSuback 1 [0x9E])].
Proof.
  let r := eval vm_compute in (trace x_h5 x_h3 x_pick x_shared [] (broker_new x_unshared)) in
  match r with Some (?h, ?b) => exists h, b; split; [apply (trace_new x_h5 x_h3 x_pick x_unshared x_shared); vm_compute; reflexivity|] end.
  split; [reflexivity|]. split; [proper_of|]. split; [reflexivity|]. eexists. vm_compute. reflexivity.
Qed.

Print Assumptions C50_broker_no_panic_partial.
Print Assumptions C50_unshared_no_panic.
Print Assumptions C50_broker_no_panic_refuted.
Print Assumptions C50_leave_no_panic_refuted.
