(** C17, C18, C19, C48: what the server does with the PUBLISH packets of a client.

    [srun5 hash cfg s l]: [s] is the state of a v5 session after the events
    [l], from its first CONNECT on: packets of the client, messages of other
    clients, retransmissions and reconnections in any order, with the routing
    table, retained messages and clock found at each event arbitrary ([srun3]
    likewise).  [packet_step5] is the server's reaction to one packet: the new
    session and tables and the packets written; [answers] are the latter without
    the messages sent to this client.  [forwarded5]/[not_forwarded5] (DelivSpec)
    say what other clients were handed.  [hash] stands for the hash of a packet
    and [pick] for the number used to select a shared subscriber: both arbitrary. *)
From Coq Require Import List Bool String NArith Lia.
From Verif Require Import Base BaseLemmas TopicModel TopicSpec MsgModel RouteModel RouteSpec RetainModel
  PendingModel AliasModel OutModel GlobModel Sess5Model Sess3Model ConnModel DelivSpec InSpec InProofs InRun InRun3 InFacts.
Import ListNotations.
Local Open Scope N_scope.

(** ** Example runs *)
Section Ex.
  Variable hash : wpub5 -> N.
  Definition ex_pick : string -> string -> N := fun _ _ => 4.
  Definition ex_cfg : config := Config 2 15 10 1 256 10 65535 4294967295 268435460 1000 5 true true true true.
  Definition ex_connect : connect5 :=
    Connect5 true 60 "me" None None None (Some 100) None None None None None None.
  Definition ex_s0 : sess5 :=
    match session_connect5 unit ex_cfg 1000 (RcNew 7) None (new_conn ex_cfg "" 1000 ex_connect) with
    | Some (s, _) => s
    | None => sess5_new ex_cfg 0
    end.
  Definition ex_h : list rop := [Sub "t" 9 L1; Sub "$share/x/+" 9 L0].
  Definition ex_g : glob := Glob ex_cfg (rt_run ex_h) tnode_new [9].
  (** PUBLISH on "t" with alias 3, QoS 2, identifier 5. *)
  Definition ex_w (dup : bool) : wpub5 := WPub5 dup (Q2 5) false "t" "hello" (PProps None (Some 3) [] "").
  Definition ex_e : sev5 := VPkt 1001 20 (IPub (ex_w false)) ex_g.
  Definition ex_res := packet_step5 hash ex_pick 1001 20 (IPub (ex_w false)) ex_s0 ex_g.
  Definition ex_s1 : sess5 := match ex_res with Go s _ _ => s | _ => ex_s0 end.
  Definition ex_out : list pkt5 := match ex_res with Go _ _ o => o | _ => [] end.
  (** PUBLISH with alias 3 only. *)
  Definition ex_w2 : wpub5 := WPub5 false (Q1 6) false "" "again" (PProps None (Some 3) [] "").
  (** Another QoS 2 PUBLISH. *)
  Definition ex_w3 : wpub5 := WPub5 false (Q2 8) false "u" "more" (PProps None None [] "").

  Lemma ex_run0 : srun5 hash ex_cfg ex_s0 [].
  Proof. constructor. apply (si_new ex_cfg 1000 1000 "" ex_connect None 7 ex_s0
           (match session_connect5 unit ex_cfg 1000 (RcNew 7) None (new_conn ex_cfg "" 1000 ex_connect) with
            | Some (_, k) => k | None => connack_plain 0 None end)). reflexivity. Qed.
  Lemma ex_in dup : incoming5 ex_cfg ex_h 20 (ex_w dup) ex_g.
  Proof. repeat split; vm_compute; discriminate. Qed.
  Lemma ex_run1 : srun5 hash ex_cfg ex_s1 [(ex_e, ex_out)].
  Proof.
    apply (sr_snoc hash ex_cfg ex_s0 [] ex_e ex_s1 ex_out ex_run0).
    apply (st_pkt hash ex_cfg ex_pick ex_s0 1001 20 (IPub (ex_w false)) ex_g ex_s1
             (match ex_res with Go _ g _ => g | _ => ex_g end) ex_out); try reflexivity.
    - split; [split; reflexivity|discriminate].
    - split; [reflexivity|]. exists ex_h. reflexivity.
  Qed.
End Ex.

(** ** C17 *)

(** A PUBLISH that does not end the connection is for the topic it names or the
    one last bound to its alias, and on that topic it is forwarded (unless it
    repeats a QoS 2 identifier: C18). *)
Theorem C17_alias_topic : forall hash pick cfg s l now len w g h,
  srun5 hash cfg s l -> is_disconnected5 s = false -> incoming5 cfg h len w g ->
  exists s' g' out, packet_step5 hash pick now len (IPub w) s g = Go s' g' out /\
    (is_disconnected5 s' = false ->
     exists T, topic_for (cf_alias_max cfg) l w = Some T /\
       ((exists n, enc_len5 w = Some n /\ forwarded5 pick h (message5 T w) n s s' g g') \/
        (not_forwarded5 s s' g g' /\ exists p, w5_qp w = Q2 p /\ (opener l p <> None \/ w5_dup w = true)))).
Proof. exact c17_accepted. Qed.
Print Assumptions C17_alias_topic.

(** An alias that is 0, above the announced maximum or not bound, or no topic at
    all: refused, nothing forwarded. *)
Theorem C17_bad_alias_refused : forall hash pick cfg s l now len w g h,
  srun5 hash cfg s l -> is_disconnected5 s = false -> incoming5 cfg h len w g ->
  topic_for (cf_alias_max cfg) l w = None ->
  exists s' g' out code, packet_step5 hash pick now len (IPub w) s g = Go s' g' out /\
    refused5 code s s' g g' (answers out) /\
    (starts_with_dollar (w5_topic w) = false -> ~ (w5_qp w = Q0 /\ w5_dup w = true) ->
     forall a, pp_alias (w5_props w) = Some a ->
       (a = 0 \/ cf_alias_max cfg < a -> code = RC_topic_alias_invalid) /\
       (1 <= a <= cf_alias_max cfg -> code = RC_protocol_error)).
Proof. exact c17_refused. Qed.
Print Assumptions C17_bad_alias_refused.

Example C17_example : forall hash,
  srun5 hash ex_cfg (ex_s1 hash) [(ex_e, ex_out hash)] /\
  is_disconnected5 (ex_s1 hash) = false /\ incoming5 ex_cfg ex_h 20 ex_w2 ex_g /\
  topic_for 5 [(ex_e, ex_out hash)] ex_w2 = Some "t"%string /\
  topic_for 5 [] ex_w2 = None /\
  packet_step5 hash ex_pick 1002 20 (IPub ex_w2) (ex_s1 hash) ex_g =
    Go (match packet_step5 hash ex_pick 1002 20 (IPub ex_w2) (ex_s1 hash) ex_g with Go s _ _ => s | _ => ex_s0 end)
       ex_g [KPuback 6 RC_success].
Proof.
  intros hash. split; [apply ex_run1|]. split; [reflexivity|]. split; [repeat split; vm_compute; discriminate|].
  split; [reflexivity|]. split; [reflexivity|]. vm_compute. reflexivity.
Qed.

(** ** C18 *)

(** The first PUBLISH with an identifier (not marked as a repetition) that is not
    refused is forwarded and answered with PUBREC; from then on the identifier is open. *)
Theorem C18_first_publish_forwarded_partial : forall hash pick cfg s l now len w g h p T,
  srun5 hash cfg s l -> is_disconnected5 s = false -> incoming5 cfg h len w g ->
  w5_qp w = Q2 p -> opener l p = None -> w5_dup w = false ->
  exists s' g' out, packet_step5 hash pick now len (IPub w) s g = Go s' g' out /\
    (topic_for (cf_alias_max cfg) l w = Some T -> is_disconnected5 s' = false ->
     (exists n, enc_len5 w = Some n /\ forwarded5 pick h (message5 T w) n s s' g g') /\
     (exists code, answers out = [KPubrec p code]) /\
     opener (l ++ [(VPkt now len (IPub w) g, out)]) p = Some w).
Proof. exact c18_first. Qed.
Print Assumptions C18_first_publish_forwarded_partial.

(** While the identifier is open, across any other events and reconnections, no
    PUBLISH with it is forwarded; a faithful repetition gets PUBREC again. *)
Theorem C18_repetition_not_forwarded : forall hash pick cfg s l now len w g h p w0,
  srun5 hash cfg s l -> is_disconnected5 s = false -> incoming5 cfg h len w g ->
  w5_qp w = Q2 p -> opener l p = Some w0 ->
  exists s' g' out, packet_step5 hash pick now len (IPub w) s g = Go s' g' out /\
    not_forwarded5 s s' g g' /\
    (is_disconnected5 s' = false ->
       hash w = hash w0 /\ w5_dup w = true /\ answers out = [KPubrec p RC_success] \/
       hash w <> hash w0 /\ answers out = [KPubrec p RC_pid_in_use]) /\
    (is_disconnected5 s' = true -> exists code reason, answers out = [KDisconnect code reason]) /\
    opener (l ++ [(VPkt now len (IPub w) g, out)]) p = Some w0.
Proof. exact c18_again. Qed.
Print Assumptions C18_repetition_not_forwarded.

(** PUBREL is answered with PUBCOMP and frees the identifier. *)
Theorem C18_pubrel_frees : forall hash pick cfg s l now len g h p,
  srun5 hash cfg s l -> is_disconnected5 s = false -> g_cfg g = cfg -> g_route g = rt_run h ->
  len <= cf_packet_server cfg ->
  exists s' g' out, packet_step5 hash pick now len (IPubrel p) s g = Go s' g' out /\
    not_forwarded5 s s' g g' /\
    answers out = [KPubcomp p (match opener l p with Some _ => RC_success | None => RC_pid_not_found end)] /\
    opener (l ++ [(VPkt now len (IPubrel p) g, out)]) p = None.
Proof. exact c18_release. Qed.
Print Assumptions C18_pubrel_frees.

Example C18_example : forall hash,
  srun5 hash ex_cfg ex_s0 [] /\ is_disconnected5 ex_s0 = false /\ incoming5 ex_cfg ex_h 20 (ex_w false) ex_g /\
  opener [] 5 = None /\ is_disconnected5 (ex_s1 hash) = false /\
  srun5 hash ex_cfg (ex_s1 hash) [(ex_e, ex_out hash)] /\
  ex_out hash = [KPubrec 5 RC_success] /\ opener [(ex_e, ex_out hash)] 5 = Some (ex_w false) /\
  queue_of (s_bcast (ex_s1 hash)) 9 =
    [NM5 (NMsg5 false L2 "t" "hello" ["t"; "$share/x/+"]%string L1 (PProps None None [] "") 16)] /\
  incoming5 ex_cfg ex_h 20 (ex_w true) ex_g.
Proof.
  intros hash. split; [apply ex_run0|]. split; [reflexivity|]. split; [apply ex_in|]. split; [reflexivity|].
  split; [reflexivity|]. split; [apply ex_run1|]. split; [reflexivity|]. split; [reflexivity|].
  split; [vm_compute; reflexivity|apply ex_in].
Qed.

(** C18 as stated is false: a PUBLISH marked as a repetition is acknowledged but
    not forwarded even when the server never saw its first transmission (say the
    connection broke while it was sent), although client 9 subscribes to "t". *)
Theorem C18_lost_first_transmission_refuted : forall hash pick,
  exists cfg s l w g h p c q s' g' out,
    srun5 hash cfg s l /\ is_disconnected5 s = false /\ incoming5 cfg h 20 w g /\
    w5_qp w = Q2 p /\ opener l p = None /\ l = [] /\
    plain_sub h (w5_topic w) c (w5_topic w) q /\ c <> s_id s /\ In c (g_live g) /\
    packet_step5 hash pick 1001 20 (IPub w) s g = Go s' g' out /\
    answers out = [KPubrec p RC_success] /\ not_forwarded5 s s' g g' /\
    opener (l ++ [(VPkt 1001 20 (IPub w) g, out)]) p = Some w.
Proof.
  intros hash pick. exists ex_cfg, ex_s0, [], (ex_w true), ex_g, ex_h, 5, 9, L1.
  do 3 eexists. split; [apply ex_run0|]. split; [reflexivity|]. split; [apply ex_in|]. split; [reflexivity|].
  split; [reflexivity|]. split; [reflexivity|].
  split; [split; [reflexivity|]; split; [|reflexivity]; split; [constructor 4; [discriminate|discriminate|constructor]|intros (r & X); discriminate]|].
  split; [discriminate|]. split; [now left|]. split; [reflexivity|]. split; [reflexivity|]. split; [repeat split|reflexivity].
Qed.
Print Assumptions C18_lost_first_transmission_refuted.

(** MQTT 3: the same. *)
Theorem C18_v3_first_publish_forwarded_partial : forall hash cfg s l now len w g h p,
  srun3 hash cfg s l -> z_disc s = false -> incoming3 cfg h len w g ->
  w3_qp w = Q2 p -> opener3 l p = None -> w3_dup w = false ->
  w3_topic w <> ""%string -> starts_with_dollar (w3_topic w) = false ->
  exists s' g' out n, packet_step3 hash now len (YPub w) s g = Go3 s' g' out /\
    enc_len3 w = Some n /\ forwarded3 h (message3 w) n s s' g g' /\ answers3 out = [JPubrec p] /\
    opener3 (l ++ [(UPkt now len (YPub w) g, out)]) p = Some w.
Proof. exact c18_v3_first. Qed.
Print Assumptions C18_v3_first_publish_forwarded_partial.

Theorem C18_v3_repetition_not_forwarded : forall hash cfg s l now len w g h p w0,
  srun3 hash cfg s l -> z_disc s = false -> incoming3 cfg h len w g ->
  w3_qp w = Q2 p -> opener3 l p = Some w0 ->
  packet_step3 hash now len (YPub w) s g = Stop3 s g \/
  exists s' g' out, packet_step3 hash now len (YPub w) s g = Go3 s' g' out /\
    not_forwarded3 s s' g g' /\ hash w = hash w0 /\ w3_dup w = true /\ answers3 out = [JPubrec p] /\
    opener3 (l ++ [(UPkt now len (YPub w) g, out)]) p = Some w0.
Proof. exact c18_v3_again. Qed.
Print Assumptions C18_v3_repetition_not_forwarded.

Theorem C18_v3_pubrel_frees : forall hash cfg s l now len g h p w0,
  srun3 hash cfg s l -> z_disc s = false -> g_cfg g = cfg -> g_route g = rt_run h ->
  len <= cf_packet_server cfg -> opener3 l p = Some w0 ->
  exists s' g' out, packet_step3 hash now len (YPubrel p) s g = Go3 s' g' out /\
    not_forwarded3 s s' g g' /\ answers3 out = [JPubcomp p] /\
    opener3 (l ++ [(UPkt now len (YPubrel p) g, out)]) p = None.
Proof. exact c18_v3_release. Qed.
Print Assumptions C18_v3_pubrel_frees.

Section Ex3.
  Variable hash : wpub3 -> N.
  Definition ex3_c : connect3 := Connect3 false true 60 "me" None None None.
  Definition ex3_p : sess3 :=
    match handle_connect3 (fun _ _ => true) ex_cfg (AuthCfg false [] false) "" 1000 ex3_c with
    | PGo3 s => s | _ => sess3_new ex_cfg 0 end.
  Definition ex3_s0 : sess3 := fst (session_connect3 1000 (RcNew3 7) ex3_p).
  Definition ex3_w (dup : bool) : wpub3 := WPub3 dup (Q2 5) false "t" "hello".
  Definition ex3_e : sev3 := UPkt 1001 20 (YPub (ex3_w false)) ex_g.
  Definition ex3_s1 : sess3 :=
    match packet_step3 hash 1001 20 (YPub (ex3_w false)) ex3_s0 ex_g with Go3 s _ _ => s | _ => ex3_s0 end.
  Lemma ex3_run0 : srun3 hash ex_cfg ex3_s0 [].
  Proof.
    constructor. apply (si3_new ex_cfg 1000 ex3_p 7 ex3_s0 (Connack3 false 0)); [|reflexivity].
    exists ""%string, 1000, ex3_c. reflexivity.
  Qed.
  Lemma ex3_run1 : srun3 hash ex_cfg ex3_s1 [(ex3_e, [JPubrec 5])].
  Proof.
    apply (sr3_snoc hash ex_cfg ex3_s0 [] ex3_e ex3_s1 [JPubrec 5] ex3_run0).
    apply (st3_pkt hash ex_cfg ex3_s0 1001 20 (YPub (ex3_w false)) ex_g ex3_s1
             (match packet_step3 hash 1001 20 (YPub (ex3_w false)) ex3_s0 ex_g with Go3 _ g _ => g | _ => ex_g end) [JPubrec 5]);
      try reflexivity.
    - split; [split; reflexivity|discriminate].
    - split; [reflexivity|]. exists ex_h. reflexivity.
  Qed.
End Ex3.
Example C18_v3_example : forall hash,
  srun3 hash ex_cfg ex3_s0 [] /\ z_disc ex3_s0 = false /\ incoming3 ex_cfg ex_h 20 (ex3_w false) ex_g /\
  incoming3 ex_cfg ex_h 20 (ex3_w true) ex_g /\
  srun3 hash ex_cfg (ex3_s1 hash) [(ex3_e, [JPubrec 5])] /\ opener3 [(ex3_e, [JPubrec 5])] 5 = Some (ex3_w false) /\
  z_disc (ex3_s1 hash) = false.
Proof.
  intros hash. split; [apply ex3_run0|]. split; [reflexivity|].
  split; [repeat split; vm_compute; discriminate|]. split; [repeat split; vm_compute; discriminate|].
  split; [apply ex3_run1|]. split; reflexivity.
Qed.

(** ** C19 *)
Theorem C19_receive_maximum : forall hash cfg s l ps,
  srun5 hash cfg s l -> all_open l ps -> N.of_nat (List.length ps) <= cf_inflight_server cfg.
Proof. exact c19_bound. Qed.
Print Assumptions C19_receive_maximum.

(** At the limit, a PUBLISH that has no other defect and opens another identifier
    is refused with Receive Maximum exceeded, and nothing is stored. *)
Theorem C19_one_more_refused : forall hash pick cfg s l now len w g h ps p,
  srun5 hash cfg s l -> is_disconnected5 s = false -> incoming5 cfg h len w g ->
  all_open l ps -> N.of_nat (List.length ps) = cf_inflight_server cfg ->
  w5_qp w = Q2 p -> ~ In p ps ->
  starts_with_dollar (w5_topic w) = false -> topic_for (cf_alias_max cfg) l w <> None -> pp_subids (w5_props w) = [] ->
  exists s' g' out, packet_step5 hash pick now len (IPub w) s g = Go s' g' out /\
    refused5 RC_receive_max_exceeded s s' g g' (answers out) /\
    all_open (l ++ [(VPkt now len (IPub w) g, out)]) ps.
Proof. exact c19_refused. Qed.
Print Assumptions C19_one_more_refused.

(** The example server allows one. *)
Example C19_example : forall hash,
  srun5 hash ex_cfg (ex_s1 hash) [(ex_e, ex_out hash)] /\ is_disconnected5 (ex_s1 hash) = false /\
  all_open [(ex_e, ex_out hash)] [5] /\ N.of_nat (List.length [5]) = cf_inflight_server ex_cfg /\
  incoming5 ex_cfg ex_h 20 ex_w3 ex_g /\ w5_qp ex_w3 = Q2 8 /\ ~ In 8 [5] /\
  topic_for (cf_alias_max ex_cfg) [(ex_e, ex_out hash)] ex_w3 <> None.
Proof.
  intros hash. split; [apply ex_run1|]. split; [reflexivity|].
  split.
  { split; [repeat constructor; intros []|]. intros p. change (opener _ p) with
      (if (5 =? p) && ((5 =? p) || false) then Some (ex_w false) else None).
    destruct (N.eqb_spec 5 p); cbn; split; intros H; try congruence; try tauto; left; congruence. }
  split; [reflexivity|]. split; [repeat split; vm_compute; discriminate|]. split; [reflexivity|].
  split; [intros [H|[]]; discriminate H|discriminate].
Qed.

(** ** C48 *)

(** Every PUBLISH: either the connection goes on and it gets exactly the
    acknowledgement of its QoS with its identifier, or the connection ends with
    DISCONNECT as the only answer and nothing is forwarded. *)
Theorem C48_one_acknowledgement : forall hash pick cfg s l now len w g h,
  srun5 hash cfg s l -> is_disconnected5 s = false -> incoming5 cfg h len w g ->
  exists s' g' out, packet_step5 hash pick now len (IPub w) s g = Go s' g' out /\
    ((is_disconnected5 s' = false /\
      exists code, answers out = ack_of (w5_qp w) code /\
        In code [RC_success; RC_no_matching_subscribers; RC_pid_in_use] /\
        (not_forwarded5 s s' g g' \/
         exists T n, topic_for (cf_alias_max cfg) l w = Some T /\ forwarded5 pick h (message5 T w) n s s' g g' /\
           (code = RC_success <-> (exists c f q, plain_sub h T c f q) \/
                                  (exists inner grp sh, offers_group (rt_run h) T inner grp sh)) /\
           code <> RC_pid_in_use)) \/
     (is_disconnected5 s' = true /\ exists code, refused5 code s s' g g' (answers out))).
Proof. exact c48. Qed.
Print Assumptions C48_one_acknowledgement.

Theorem C48_large_packet_refused : forall hash pick cfg s l now len x g,
  srun5 hash cfg s l -> g_cfg g = cfg -> cf_packet_server cfg < len ->
  exists s' g' out, packet_step5 hash pick now len x s g = Go s' g' out /\
    refused5 RC_packet_too_large s s' g g' (answers out).
Proof. exact c48_large. Qed.
Print Assumptions C48_large_packet_refused.

(** MQTT 3 has no error packets: a refused PUBLISH closes the connection and
    changes nothing. *)
Theorem C48_v3_one_acknowledgement : forall hash cfg s l now len w g h,
  srun3 hash cfg s l -> z_disc s = false -> incoming3 cfg h len w g ->
  packet_step3 hash now len (YPub w) s g = Stop3 s g \/
  exists s' g' out, packet_step3 hash now len (YPub w) s g = Go3 s' g' out /\
    answers3 out = ack_of3 (w3_qp w) /\
    ((exists n, forwarded3 h (message3 w) n s s' g g') \/
     (not_forwarded3 s s' g g' /\ w3_dup w = true /\ exists p, w3_qp w = Q2 p)).
Proof. exact c48_v3. Qed.
Print Assumptions C48_v3_one_acknowledgement.

Example C48_example : forall hash,
  srun5 hash ex_cfg (ex_s1 hash) [(ex_e, ex_out hash)] /\ is_disconnected5 (ex_s1 hash) = false /\
  incoming5 ex_cfg ex_h 20 ex_w2 ex_g /\ cf_packet_server ex_cfg < 1001 /\
  forall hash3, srun3 hash3 ex_cfg ex3_s0 [] /\ incoming3 ex_cfg ex_h 20 (ex3_w false) ex_g.
Proof.
  intros hash. split; [apply ex_run1|]. split; [reflexivity|]. split; [repeat split; vm_compute; discriminate|].
  split; [reflexivity|]. intros hash3. split; [apply ex3_run0|]. repeat split; vm_compute; discriminate.
Qed.
