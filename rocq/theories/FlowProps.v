(** C70, C78: a client that does not read its socket makes the server hold back only a limited
    amount for it. *)
From Coq Require Import List Bool String Ascii NArith Lia.
From Verif Require Import Base BaseLemmas TopicModel MsgModel PendingModel OutModel RouteModel RetainModel GlobModel Sess5Model
  ConnModel OnlineModel OnlineSpec Sess3Model HookModel HookFacts InProps OnlineProps FlowSpec FlowProofs FlowLast FlowRead BadBytes.
Import ListNotations.
Local Open Scope N_scope.

(** The server takes a packet off the client's socket, or a message out of its inbox, only
    when what still waits to be written to the client is little: at most fifteen packets, or
    fourteen and a buffer of less than 2048 bytes.  [t1] is everything before that moment. *)
Theorem C70_room_first : forall {P Msg In Err Ctl Act Req Ans S G} (i : iface P Msg In Err Ctl Act Req Ans S G) m es s l t r t1 t2,
  life i es (lst_new s) = (l, t, r) -> up_to i m t -> t = (t1 ++ Took :: t2)%list -> backlog i t1 <= room m.
Proof. intros P Msg In Err Ctl Act Req Ans S G i m es s l t r t1 t2 E U. exact (room_before i m es s l t r E U t1 t2). Qed.
Print Assumptions C70_room_first.

(** So at any moment what waits is that much, and what handling the last packet or message
    taken has added. *)
Theorem C70_bounded_partial : forall {P Msg In Err Ctl Act Req Ans S G} (i : iface P Msg In Err Ctl Act Req Ans S G) m es s l t r t1 t2 t3,
  life i es (lst_new s) = (l, t, r) -> up_to i m t -> t = (t1 ++ Took :: t2 ++ t3)%list ->
  backlog i (t1 ++ Took :: t2) <= room m + bytes i t2.
Proof. intros P Msg In Err Ctl Act Req Ans S G i m es s l t r t1 t2 t3 E U. exact (room_after i m es s l t r E U t1 t2 t3). Qed.
Print Assumptions C70_bounded_partial.

(** A client sends forty packets and reads nothing: sixteen are answered, the others stay in
    the socket.  Once it reads, some more are taken. *)
Definition flow_ping (ws : list wres) := (exo_env (repeat (RdPacket (2, IPing) HWait) 40) ws [], ex_g).
Example C70_case :
  up_to exo_i 2 (exo_t [flow_ping []]) /\ takes (exo_t [flow_ping []]) = 16 /\ backlog exo_i (exo_t [flow_ping []]) = 32 /\
  takes (exo_t [flow_ping []; flow_ping []]) = 31 /\
  takes (exo_t [flow_ping [WOk 32]; flow_ping []]) = 32 /\
  exists t1 t2, exo_t [flow_ping []] = (t1 ++ Took :: t2)%list /\ backlog exo_i t1 = 30.
Proof.
  split; [intros p; vm_compute; intros H; repeat destruct H as [<-|H]; try destruct H; discriminate|].
  repeat (split; [vm_compute; reflexivity|]).
  exists (firstn 30 (exo_t [flow_ping []])), (skipn 31 (exo_t [flow_ping []])). split; vm_compute; reflexivity.
Qed.

(** Without that addition the bound is false: one SUBSCRIBE of [4 * n + 12] bytes, of any
    length MQTT allows, makes the server queue [n] packets, one for each time a topic with a
    retained message is named in it. *)
Theorem C70_one_packet_refuted : forall n, 4 * n + 12 <= 268435455 -> exists fs es s l t r t1 t2, size fs = n /\
  es = [(exo_env [RdPacket (4 * n + 12, ISub 1 None fs) HWait] [] [], flow_g)] /\
  life exo_i es (lst_new s) = (l, t, r) /\ t = (t1 ++ t2)%list /\ takes t1 = 1 /\ up_to exo_i 2 t1 /\ 2 * n <= backlog exo_i t1.
Proof. exact one_packet. Qed.
Print Assumptions C70_one_packet_refuted.

(** ** C78 *)

(** While ten or more messages that a client published wait for a place in other clients'
    inboxes, the server leaves what the client sends in its socket: a poll does the same
    whatever [rs] is there to read.  [tidy]: C54_count. *)
Theorem C78_publisher_waits : forall hk hash pick encode e rs l g, let i := online5 hk hash pick encode in
  tidy i (l_s l) -> 10 <= undelivered i (l_s l) -> poll i (reading rs e) l g = poll i e l g.
Proof. intros hk hash pick encode e rs l g. exact (full_poll _ (online5_well hash pick hk encode) (fun _ => eq_refl) e rs l g). Qed.
Print Assumptions C78_publisher_waits.
Theorem C78_v3_publisher_waits : forall hk hash encode e rs l g, let i := online3 hk hash encode in
  tidy i (l_s l) -> 10 <= undelivered i (l_s l) -> poll i (reading rs e) l g = poll i e l g.
Proof. intros hk hash encode e rs l g. exact (full_poll _ (online3_well hash hk encode) (fun _ => eq_refl) e rs l g). Qed.
Print Assumptions C78_v3_publisher_waits.
(** With fewer, and unless one of the other limits is reached, it goes on to read. *)
Theorem C78_publisher_goes_on : forall hk hash pick encode e l g l' g' t r x rs, let i := online5 hk hash pick encode in
  tidy i (l_s l) -> l_hook l = None -> l_take l = None -> i_disc i (l_s l) = None -> too_much (l_wp l) = false -> undelivered i (l_s l) < 10 ->
  e_read e = x :: rs -> poll i e l g = (l', g', t, r) -> exists u, t = Took :: u.
Proof. intros hk hash pick encode e l g l' g' t r x rs. exact (room_poll (online5 hk hash pick encode) (fun _ => eq_refl) e l g l' g' t r x rs). Qed.
Print Assumptions C78_publisher_goes_on.
Theorem C78_v3_publisher_goes_on : forall hk hash encode e l g l' g' t r x rs, let i := online3 hk hash encode in
  tidy i (l_s l) -> l_hook l = None -> l_take l = None -> i_disc i (l_s l) = None -> too_much (l_wp l) = false -> undelivered i (l_s l) < 10 ->
  e_read e = x :: rs -> poll i e l g = (l', g', t, r) -> exists u, t = Took :: u.
Proof. intros hk hash encode e l g l' g' t r x rs. exact (room_poll (online3 hk hash encode) (fun _ => eq_refl) e l g l' g' t r x rs). Qed.
Print Assumptions C78_v3_publisher_goes_on.

(** Client 9's inbox has no room.  Of forty messages for it ten are taken, another one in the
    next poll (the inbox's sender holds one message itself), and then none. *)
Definition flow_pub := (exo_env (repeat (RdPacket (20, IPub (WPub5 false (Q1 7) false (w5_topic (ex_w false)) "m" pprops_default)) HWait) 40) [WOk 100] [], ex_g).
Example C78_publisher_case :
  takes (exo_t [flow_pub]) = 10 /\ undelivered exo_i (l_s (exo_l [flow_pub])) = 9 /\ tidy exo_i (l_s (exo_l [flow_pub])) /\
  l_hook (exo_l [flow_pub]) = None /\ l_take (exo_l [flow_pub]) = None /\ i_disc exo_i (l_s (exo_l [flow_pub])) = None /\ too_much (l_wp (exo_l [flow_pub])) = false /\
  takes (exo_t [flow_pub; flow_pub]) = 11 /\ undelivered exo_i (l_s (exo_l [flow_pub; flow_pub])) = 10 /\ tidy exo_i (l_s (exo_l [flow_pub; flow_pub])) /\
  takes (exo_t [flow_pub; flow_pub; flow_pub]) = 11.
Proof. repeat split; try (vm_compute; reflexivity); vm_compute; repeat constructor; intuition discriminate. Qed.

(** ** C55 in the event loop *)

(** A client that is connected sends bytes that are no packet: the first thing the poll does
    is to take them and to queue DISCONNECT with "malformed packet"; it takes nothing more
    and queues nothing more. *)
Theorem C55_malformed_loop : forall hk hash pick encode e l g l' g' t r why rs, let i := online5 hk hash pick encode in
  tidy i (l_s l) -> l_hook l = None -> l_take l = None -> i_disc i (l_s l) = None -> too_much (l_wp l) = false -> i_cnt i (l_s l) < 10 ->
  e_read e = RdErr (DMalformed why) :: rs -> poll i e l g = (l', g', t, r) ->
  exists reason u, t = Took :: Queued (KDisconnect RC_malformed reason) :: u /\ takes u = 0 /\ queued u = [] /\
    (reason = Some why \/ reason = None).
Proof. intros hk hash pick encode e l g l' g' t r why rs i T. exact (bad_poll hk hash pick encode e l g l' g' t r why rs (proj1 T)). Qed.
Print Assumptions C55_malformed_loop.

Example C55_malformed_loop_case :
  let e := fst (flow_ping []) in let e' := exo_env [RdErr (DMalformed "bad"); RdPacket (2, IPing) HWait] [WOk 9] [] in
  tidy exo_i ex_s0 /\ i_disc exo_i ex_s0 = None /\ too_much (l_wp (lst_new (P := pkt5) (Msg := nmsg) (Req := req5) ex_s0)) = false /\
  takes (exo_t [(e', ex_g)]) = 1 /\ written (exo_t [(e', ex_g)]) = [224; 0] /\
  takes (exo_t [(e', ex_g); (e, ex_g)]) = 1.
Proof. split; [exact exo_tidy|]. repeat split; vm_compute; reflexivity. Qed.
