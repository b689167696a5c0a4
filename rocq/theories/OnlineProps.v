(** C35, C37, C51: the event loop that serves a connection.

    [life i es (lst_new s)] is what the task of a connection does: [s] is the session
    when the connection is established, [es] the successive polls, each with the
    behaviour of the outside world during that poll (bytes and messages arriving, how
    much the socket and the channels of other clients accept) and the shared tables
    found.  All of it is arbitrary.  The result is the final state, the trace of
    what happened, and how it ended.  [i] is the session's own code: [online5 ...] for
    MQTT 5, [online3 ...] for MQTT 3. *)
From Coq Require Import List Bool String Ascii NArith Lia.
From Verif Require Import Base BaseLemmas TopicModel MsgModel PendingModel OutModel RouteModel RetainModel GlobModel Sess5Model Sess3Model
  ConnModel InSpec OnlineModel OnlineSpec HookModel HookFacts OnlineLast InProps.
Import ListNotations.
Local Open Scope N_scope.

(** ** Example runs *)
Definition exo_enc (k : pkt5) : option (list N) :=
  Some match k with KPubrec _ _ => [80; 2; 0; 5] | KDisconnect _ _ => [224; 0] | _ => [208; 0] end.
Definition exo_env (rs : list (rd (N * in5) derr ans5)) (ws : list wres) (ch : list chan) : env nmsg (N * in5) derr control ans5 :=
  Env 1001 HWait None true None rs [] [] ws (Some true) (fun _ => ch) (fun _ => []) [] (Some true) (Some true) false None.
Definition exo_take (ctl : list (option control)) (ready : option chan) (start : bool) : env nmsg (N * in5) derr control ans5 :=
  Env 1001 HWait ready start (Some COk) [] ctl [] [] (Some true) (fun _ => []) (fun _ => []) [] None None false None.
Definition exo_i := online5 (Hooks false false false) (fun _ => 3) ex_pick exo_enc.
(** A QoS 2 PUBLISH arrives, one byte of PUBREC is accepted, client 9's channel is full. *)
Definition exo_1 := (exo_env [RdPacket (20, IPub (ex_w false)) HWait] [WOk 1] [], ex_g).
(** The rest is accepted, client 9's channel has room. *)
Definition exo_2 := (exo_env [] [WOk 2] [COk], ex_g).
Definition exo_3 := (exo_env [] [WOk 5] [], ex_g).
Definition exo_run es := life exo_i es (lst_new ex_s0).
Definition exo_l es := fst (fst (exo_run es)).
Definition exo_t es := snd (fst (exo_run es)).
Definition exo_poll e l := poll exo_i e l ex_g.

(** ** C35 *)

(** The bytes written are at all times a prefix of the encodings of the queued
    packets in order; while the connection lives the rest is still to be written;
    and if it ends by a DISCONNECT, of either side, everything was written. *)
Theorem C35_bytes_are_packets : forall {P Msg In Err Ctl Act Req Ans S G} (i : iface P Msg In Err Ctl Act Req Ans S G) es s l t r,
  life i es (lst_new s) = (l, t, r) ->
  (exists rest, stream i (queued t) = (written t ++ rest)%list) /\
  (r = RPending -> stream i (queued t) = (written t ++ unsent_bytes i (l_wp l))%list) /\
  (r = RReady false -> (forall e g, List.In (e, g) es -> e_ctl e = []) -> stream i (queued t) = written t).
Proof. intros P Msg In Err Ctl Act Req Ans S G i es s l t r. exact (gen_stream i es s l t r). Qed.
Print Assumptions C35_bytes_are_packets.

Example C35_example :
  snd (exo_run [exo_1]) = RPending /\ written (exo_t [exo_1]) = [80] /\ unsent_bytes exo_i (l_wp (exo_l [exo_1])) = [2; 0; 5] /\
  queued (exo_t [exo_1; exo_2; exo_3]) = [KPubrec 5 0] /\ written (exo_t [exo_1; exo_2; exo_3]) = [80; 2; 0; 5] /\
  l_wp (exo_l [exo_1; exo_2; exo_3]) = [] /\
  snd (exo_run [(exo_env [RdPacket (20, IPub (ex_w false)) HWait; RdPacket (2, IDisconnect 0 None) HWait] [WOk 9] [COk], ex_g)]) = RReady false.
Proof. repeat split; vm_compute; reflexivity. Qed.

(** ** C37 *)

(** Every message queued for a client whose channel is not found closed is handed
    over in order and once, or still waits; and the loop's own assertions never
    fail.  Missing: connections that are taken over (see below) and messages still
    waiting when the connection ends. *)
Theorem C37_delivery_order_partial : forall hk hash pick encode es s l t r,
  let i := online5 hk hash pick encode in
  tidy i s -> no_takeover es -> life i es (lst_new s) = (l, t, r) ->
  r <> RBug /\ forall d, ~ List.In (Gone d) t ->
    (queue_of (s_bcast s) d ++ asked_for d t = delivered_to d t ++ waiting_for i l d)%list.
Proof. intros hk hash pick encode es s l t r. exact (gen_deliver _ (online5_well hash pick hk encode) es s l t r). Qed.
Print Assumptions C37_delivery_order_partial.

Theorem C37_v3_delivery_order_partial : forall hk hash encode es s l t r,
  let i := online3 hk hash encode in
  tidy i s -> no_takeover es -> life i es (lst_new s) = (l, t, r) ->
  r <> RBug /\ forall d, ~ List.In (Gone d) t ->
    (queue_of (z_bcast s) d ++ asked_for d t = delivered_to d t ++ waiting_for i l d)%list.
Proof. intros hk hash encode es s l t r. exact (gen_deliver _ (online3_well hash hk encode) es s l t r). Qed.
Print Assumptions C37_v3_delivery_order_partial.

(** When the connection ends, the final emptying of the queues delivers what still
    waits, except a message held by a sink alone ([late]: unless the receiver had
    taken it meanwhile). *)
Theorem C37_end_delivers_partial : forall hk hash pick encode es s l t r alive late d,
  let i := online5 hk hash pick encode in
  tidy i s -> no_takeover es -> life i es (lst_new s) = (l, t, r) ->
  ~ List.In (Gone d) t -> alive d = true ->
  late d = true \/ queue_of (s_bcast (l_s l)) d <> [] \/ hold_of (l_sinks l) d = [] ->
  (queue_of (s_bcast s) d ++ asked_for d t = delivered_to d (t ++ finish i alive late l))%list.
Proof. intros hk hash pick encode es s l t r alive late d. exact (gen_finish _ (online5_well hash pick hk encode) es s l t r alive late d). Qed.
Print Assumptions C37_end_delivers_partial.

Theorem C37_v3_end_delivers_partial : forall hk hash encode es s l t r alive late d,
  let i := online3 hk hash encode in
  tidy i s -> no_takeover es -> life i es (lst_new s) = (l, t, r) ->
  ~ List.In (Gone d) t -> alive d = true ->
  late d = true \/ queue_of (z_bcast (l_s l)) d <> [] \/ hold_of (l_sinks l) d = [] ->
  (queue_of (z_bcast s) d ++ asked_for d t = delivered_to d (t ++ finish i alive late l))%list.
Proof. intros hk hash encode es s l t r alive late d. exact (gen_finish _ (online3_well hash hk encode) es s l t r alive late d). Qed.
Print Assumptions C37_v3_end_delivers_partial.

Lemma exo_tidy : tidy exo_i ex_s0.
Proof. split; [constructor|reflexivity]. Qed.
Lemma exo_no_takeover : no_takeover [exo_1; exo_2; exo_3].
Proof. intros e g H. cbn in H. repeat destruct H as [H|H]; try (injection H as <- <-; discriminate). destruct H. Qed.
Example C37_example :
  tidy exo_i ex_s0 /\ no_takeover [exo_1; exo_2; exo_3] /\ (exists m, asked_for 9 (exo_t [exo_1]) = [m] /\
  waiting_for exo_i (exo_l [exo_1]) 9 = [m] /\ delivered_to 9 (exo_t [exo_1]) = [] /\
  delivered_to 9 (exo_t [exo_1; exo_2]) = [m]) /\ (forall d, ~ List.In (Gone d) (exo_t [exo_1; exo_2])).
Proof.
  split; [exact exo_tidy|]. split; [exact exo_no_takeover|]. split.
  - eexists. repeat split; vm_compute; reflexivity.
  - intros d. vm_compute. intuition discriminate.
Qed.

(** C37 as stated is false.  A connection that is taken over loses the messages it
    has accepted but not yet handed over: neither the old task nor the new session
    has them. *)
Definition exo_two := [(exo_env [RdPacket (20, IPub (ex_w false)) HWait; RdPacket (20, IPub ex_w2) HWait] [WOk 9] [], ex_g);
                       (exo_take [Some COnline5] None true, ex_g)].
Definition exo_again : connect5 := Connect5 false 60 "me" None None None (Some 100) None None None None None None.
Definition exo_new := session_connect5 unit ex_cfg 1002 (RcPresent (snd (build_state5 (l_s (exo_l exo_two))))) None
                        (new_conn ex_cfg "" 1002 exo_again).
Theorem C37_takeover_refuted : exists es l1 t1 e l2 g2 t2 m1 m2 s' k,
  life exo_i es (lst_new ex_s0) = (l1, t1, RPending) /\ asked_for 9 t1 = [m1; m2] /\ delivered_to 9 t1 = [] /\
  waiting_for exo_i l1 9 = [m1; m2] /\
  poll exo_i e l1 ex_g = (l2, g2, t2, RTaken) /\ delivered_to 9 t2 = [] /\ (forall d, ~ List.In (Gone d) (t1 ++ t2)) /\
  session_connect5 unit ex_cfg 1002 (RcPresent (snd (build_state5 (l_s l1)))) None (new_conn ex_cfg "" 1002 exo_again) = Some (s', k) /\
  ka_present k = true /\ s_bcast s' = [].
Proof.
  exists exo_two, (exo_l exo_two), (exo_t exo_two), (exo_take [] (Some COk) true). do 7 eexists.
  split; [vm_compute; reflexivity|]. split; [vm_compute; reflexivity|]. split; [vm_compute; reflexivity|].
  split; [vm_compute; reflexivity|]. split; [vm_compute; reflexivity|]. split; [vm_compute; reflexivity|].
  split; [intros d; vm_compute; intuition discriminate|]. split; [vm_compute; reflexivity|]. split; vm_compute; reflexivity.
Qed.
Print Assumptions C37_takeover_refuted.

(** And a message held by a sink when the client disconnects is lost, although its
    destination is alive. *)
Definition exo_bye := [(exo_env [RdPacket (20, IPub (ex_w false)) HWait; RdPacket (2, IDisconnect 0 None) HWait] [WOk 9] [], ex_g)].
Theorem C37_end_refuted : exists es l t m,
  life exo_i es (lst_new ex_s0) = (l, t, RReady false) /\ asked_for 9 t = [m] /\ (forall d, ~ List.In (Gone d) t) /\
  delivered_to 9 (t ++ finish exo_i (fun _ => true) (fun _ => false) l) = [].
Proof.
  exists exo_bye, (exo_l exo_bye), (exo_t exo_bye). eexists. split; [vm_compute; reflexivity|]. split; [vm_compute; reflexivity|].
  split; [intros d; vm_compute; intuition discriminate|vm_compute; reflexivity].
Qed.
Print Assumptions C37_end_refuted.

(** ** C51 *)

(** Whenever the task suspends, it waits for input, or for what holds input back;
    for each client with messages waiting, for that client's channel; for messages
    from other clients, or for room to write what holds them back; and for control
    messages.  ([held]:
    it waits for a hook or a takeover, or has woken itself.  [l_drain]: the
    connection is being closed.) *)
Theorem C51_woken_partial : forall hk hash pick encode es s l t e g l' g' t',
  let i := online5 hk hash pick encode in
  tidy i s -> no_takeover ((e, g) :: es) -> life i es (lst_new s) = (l, t, RPending) -> poll i e l g = (l', g', t', RPending) ->
  (l_drain l' = None -> List.In (Waits WRead) t' \/ List.In (Waits WWrite) t' \/ (exists d, List.In (Waits (WChan d)) t') \/ held t') /\
  (forall d, waiting_for i l' d <> [] -> List.In (Waits (WChan d)) t' \/ held t') /\
  (l_wp l' = [] \/ List.In (Waits WWrite) t' \/ held t' \/ exists b k q, l_wp l' = Data b k :: q /\ (k < List.length b)%nat) /\
  (List.In (Waits WControl) t' \/ held t') /\
  (l_drain l' = None -> List.In (Waits WNormal) t' \/ List.In (Waits WWrite) t' \/ held t').
Proof.
  intros hk hash pick encode es s l t e g l' g' t'.
  exact (gen_wake _ (online5_well hash pick hk encode) (online5_sticky hash pick hk encode) (fun _ => eq_refl) es s l t e g l' g' t').
Qed.
Print Assumptions C51_woken_partial.

Theorem C51_v3_woken_partial : forall hk hash encode es s l t e g l' g' t',
  let i := online3 hk hash encode in
  tidy i s -> no_takeover ((e, g) :: es) -> life i es (lst_new s) = (l, t, RPending) -> poll i e l g = (l', g', t', RPending) ->
  (l_drain l' = None -> List.In (Waits WRead) t' \/ List.In (Waits WWrite) t' \/ (exists d, List.In (Waits (WChan d)) t') \/ held t') /\
  (forall d, waiting_for i l' d <> [] -> List.In (Waits (WChan d)) t' \/ held t') /\
  (l_wp l' = [] \/ List.In (Waits WWrite) t' \/ held t' \/ exists b k q, l_wp l' = Data b k :: q /\ (k < List.length b)%nat) /\
  (List.In (Waits WControl) t' \/ held t') /\
  (l_drain l' = None -> List.In (Waits WNormal) t' \/ List.In (Waits WWrite) t' \/ held t').
Proof.
  intros hk hash encode es s l t e g l' g' t'.
  exact (gen_wake _ (online3_well hash hk encode) (online3_sticky hash hk encode) (fun _ => eq_refl) es s l t e g l' g' t').
Qed.
Print Assumptions C51_v3_woken_partial.

Example C51_example :
  exo_run [exo_1] = (exo_l [exo_1], exo_t [exo_1], RPending) /\
  (exists l' t', exo_poll (exo_env [] [] []) (exo_l [exo_1]) = (l', ex_g, t', RPending) /\ waiting_for exo_i l' 9 <> [] /\
   t' = [Waits WRead; Waits WControl; Waits WNormal; Waits WWrite; Waits (WChan 9)]).
Proof.
  split; [vm_compute; reflexivity|]. do 2 eexists. split; [vm_compute; reflexivity|]. split; [vm_compute; discriminate|reflexivity].
Qed.

(** The full statement is false: after a write that accepts only part of the data the
    task suspends without waiting for room in the socket; nothing wakes it to write
    the rest. *)
Theorem C51_short_write_refuted : exists e l t,
  poll exo_i e (lst_new ex_s0) ex_g = (l, ex_g, t, RPending) /\ unsent_bytes exo_i (l_wp l) = [0; 5] /\
  t = [Took; Queued (KPubrec 5 16); Waits WRead; Waits WControl; Waits WNormal; Wrote [80; 2]].
Proof.
  exists (exo_env [RdPacket (20, IPub (WPub5 false (Q2 5) false "u/v" "x" (PProps None None [] ""))) HWait] [WOk 2] []). do 2 eexists.
  split; [vm_compute; reflexivity|]. split; vm_compute; reflexivity.
Qed.
Print Assumptions C51_short_write_refuted.

(** And a takeover that is given up leaves a count of messages that are gone: with ten
    of them the old connection never reads again. *)
Definition exo_pub (p : N) : rd (N * in5) derr ans5 := RdPacket (20, IPub (WPub5 false (Q1 p) false "t" "x" (PProps None None [] ""))) HWait.
Definition exo_many := [(exo_env (map exo_pub [1; 2; 3; 4; 5; 6; 7; 8; 9; 10; 11]) [WOk 99] [], ex_g);
                        (exo_env [exo_pub 11] [WOk 99] [], ex_g);
                        (exo_take [Some COnline5] None true, ex_g); (exo_take [] (Some COk) false, ex_g)].
Theorem C51_given_up_takeover_refuted : exists es l t l' t',
  life exo_i es (lst_new ex_s0) = (l, t, RPending) /\ (forall d, waiting_for exo_i l d = []) /\ l_wp l = [] /\
  poll exo_i (exo_env [exo_pub 12] [WOk 99] [COk]) l ex_g = (l', ex_g, t', RPending) /\
  t' = [Waits WControl; Waits WNormal] /\ l_s l' = l_s l.
Proof.
  exists exo_many, (exo_l exo_many), (exo_t exo_many). do 2 eexists. split; [vm_compute; reflexivity|]. split.
  { intros d. assert (E : l_sinks (exo_l exo_many) = [] /\ s_bcast (l_s (exo_l exo_many)) = []) by (split; vm_compute; reflexivity).
    destruct E as (E1 & E2). unfold waiting_for. rewrite E1. change (i_bc exo_i) with s_bcast. rewrite E2. reflexivity. }
  split; [vm_compute; reflexivity|]. split; [vm_compute; reflexivity|]. split; vm_compute; reflexivity.
Qed.
Print Assumptions C51_given_up_takeover_refuted.

(** C34 at the level of one task: whenever it runs and finds a kick, it ends, unless a
    hook or a takeover is still under way. *)
Theorem C34_kick_ends : forall hk hash pick encode es s l t e g l' g' t' r,
  let i := online5 hk hash pick encode in
  life i es (lst_new s) = (l, t, RPending) -> List.In (Some CKick) (e_ctl e) -> poll i e l g = (l', g', t', r) ->
  r <> RPending \/ held t'.
Proof. intros hk hash pick encode es s l t e g l' g' t' r. exact (kick_lemma5 hk hash pick encode es s l t e g l' g' t' r). Qed.
Print Assumptions C34_kick_ends.

Theorem C34_v3_kick_ends : forall hk hash encode es s l t e g l' g' t' r,
  let i := online3 hk hash encode in
  life i es (lst_new s) = (l, t, RPending) -> List.In (Some CKick) (e_ctl e) -> poll i e l g = (l', g', t', r) ->
  r <> RPending \/ held t'.
Proof. intros hk hash encode es s l t e g l' g' t' r. exact (kick_lemma3 hk hash encode es s l t e g l' g' t' r). Qed.
Print Assumptions C34_v3_kick_ends.

Example C34_kick_example :
  exo_run [exo_1] = (exo_l [exo_1], exo_t [exo_1], RPending) /\
  exists l' t', exo_poll (exo_take [Some COnline3; Some CKick] None true) (exo_l [exo_1]) = (l', ex_g, t', RReady false).
Proof. split; [vm_compute; reflexivity|]. do 2 eexists. vm_compute. reflexivity. Qed.
