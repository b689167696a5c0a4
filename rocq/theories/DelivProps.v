(** C20 - C25, C46, C49, C50: who receives a published message and in which form,
    SUBSCRIBE and UNSUBSCRIBE, and panics of the packet handlers.

    [published5 hash pick cfg h l w s s' g out]: a v5 session reached [s] by the
    events [l], then its client sent the PUBLISH [w] while the routing table was
    the result of the calls [h]; the session became [s'] and [out] was written.
    [handed (s_bcast s) (s_bcast s') c xs]: this handed the messages [xs] to
    client [c].  [passes5]/[passes3] say what the receiving session, in any state
    [r] it may be in by then, passes on to its own client. *)
From Coq Require Import List Bool String NArith Lia.
From Verif Require Import Base BaseLemmas TopicModel TopicSpec MsgModel RouteModel RouteSpec RouteProps RetainModel RetainSpec RetainProps
  PendingModel AliasModel OutModel OutSpec GlobModel Sess5Model Sess3Model ConnModel DelivSpec InSpec InProps
  RecvSpec RecvProofs SubProofs SubFacts DelivLast.
Import ListNotations.
Local Open Scope N_scope.

(** ** Example data: the publisher of InProps; client 9 holds "t" with QoS 1 and
    is in the shared group x on "+". *)
Section Ex.
  Variable hash : wpub5 -> N.
  Variable hash3 : wpub3 -> N.

  Lemma exd_published : published5 hash ex_pick ex_cfg ex_h [] (ex_w false) ex_s0 (ex_s1 hash) ex_g (ex_out hash).
  Proof.
    exists 1001, 20. eexists. split; [apply ex_run0|]. split; [reflexivity|]. split; [apply ex_in|].
    vm_compute. reflexivity.
  Qed.
  Definition exd_y : nmsg :=
    NM5 (NMsg5 false L2 "t" "hello" ["t"; "$share/x/+"]%string L1 (PProps None None [] "") 16).
  Lemma exd_handed : handed (s_bcast ex_s0) (s_bcast (ex_s1 hash)) 9 [exd_y].
  Proof. vm_compute. reflexivity. Qed.
  Lemma exd_matches : topic_matches "t" "t".
  Proof. split; [constructor 4; [discriminate|discriminate|constructor]|intros (r & X); discriminate]. Qed.
  Lemma exd_through : through ex_pick ex_h ex_s0 "t" 9 "t" L1.
  Proof. left. split; [|discriminate]. split; [reflexivity|]. split; [apply exd_matches|reflexivity]. Qed.

  (** A receiver with the subscription "t" under identifier 42. *)
  Definition exd_sub (nl rap : bool) (id : option N) : subdata := SubData (SubOpts L1 nl rap RH_send) id.
  Definition exd_r (sub : subdata) (max : N) : sess5 :=
    Sess5 9 "you" true false false (Some 1) 1 (out5_new 10 256 15 0) [] [("t"%string, sub)] [] [] 0 None 60 true 0 10 max true.
  Definition exd_r3 : sess3 :=
    Sess3 9 "you" false true false (Some 1) 1 (out3_new 10 256 15) [] [("t"%string, L1)] [] 0 None 60 true.

  (** The v3 publisher of InProps. *)
  Lemma exd_published3 h g out s' : g = Glob ex_cfg (rt_run h) tnode_new [9] ->
    (exists g', packet_step3 hash3 1001 20 (YPub (ex3_w false)) ex3_s0 g = Go3 s' g' out) ->
    published3 hash3 ex_cfg h [] (ex3_w false) ex3_s0 s' g out.
  Proof.
    intros -> (g' & E). exists 1001, 20, g'. split; [apply ex3_run0|]. split; [reflexivity|]. split; [|exact E].
    repeat split; vm_compute; discriminate.
  Qed.
End Ex.

(** ** C20 *)

(** Every message handed to a client has the QoS min(published, highest granted
    QoS of its matching subscriptions), whoever receives it. *)
Theorem C20_delivered_qos : forall hash pick cfg h l w s s' g out c xs y,
  published5 hash pick cfg h l w s s' g out -> handed (s_bcast s) (s_bcast s') c xs -> In y xs ->
  exists T sq, topic_for (cf_alias_max cfg) l w = Some T /\
    (exists f, through pick h s T c f sq) /\ (forall f q, through pick h s T c f q -> qos_leb q sq = true) /\
    (forall now r, exists r' o, passes5 now cfg y r r' o /\ forall p, o = Some p ->
       p5_topic p = T /\ p5_payload p = w5_payload w /\ p5_qos p = qos_min (qp_qos (w5_qp w)) sq) /\
    (forall now r, exists r' o, passes3 now y r r' o /\ forall p, o = Some p ->
       p3_topic p = T /\ p3_payload p = w5_payload w /\ p3_qos p = qos_min (qp_qos (w5_qp w)) sq).
Proof. exact c20. Qed.
Print Assumptions C20_delivered_qos.

(** A message of a v3 publisher: one per matching subscription, with the QoS of
    that subscription (see the refutation below). *)
Theorem C20_v3_delivered_qos_partial : forall hash cfg h l w s s' g out c xs y,
  published3 hash cfg h l w s s' g out -> handed (z_bcast s) (z_bcast s') c xs -> In y xs ->
  exists f sq, plain_sub h (w3_topic w) c f sq /\ nm_filters y = [f] /\
    (forall now r, exists r' o, passes5 now cfg y r r' o /\ forall p, o = Some p ->
       p5_topic p = w3_topic w /\ p5_payload p = w3_payload w /\ p5_qos p = qos_min (qp_qos (w3_qp w)) sq) /\
    (forall now r, exists r' o, passes3 now y r r' o /\ forall p, o = Some p ->
       p3_topic p = w3_topic w /\ p3_payload p = w3_payload w /\ p3_qos p = qos_min (qp_qos (w3_qp w)) sq).
Proof. exact c20_v3. Qed.
Print Assumptions C20_v3_delivered_qos_partial.

Definition exd_h3 : list rop := [Sub "t" 9 L1; Sub "+" 9 L2].
Definition exd_g3 : glob := Glob ex_cfg (rt_run exd_h3) tnode_new [9].
Definition exd_s3 (hash3 : wpub3 -> N) : sess3 :=
  match packet_step3 hash3 1001 20 (YPub (ex3_w false)) ex3_s0 exd_g3 with Go3 s _ _ => s | _ => ex3_s0 end.
Definition exd_y3 (f : string) (q : qos) : nmsg := NM3 (NMsg3 false L2 "t" "hello" f q 12).
Definition exd_p : pub5 := Pub5 "t" L1 false "hello" (PProps None None [42] "").

Example C20_example : forall hash hash3,
  published5 hash ex_pick ex_cfg ex_h [] (ex_w false) ex_s0 (ex_s1 hash) ex_g (ex_out hash) /\
  handed (s_bcast ex_s0) (s_bcast (ex_s1 hash)) 9 [exd_y] /\
  (exists r', passes5 1002 ex_cfg exd_y (exd_r (exd_sub false false (Some 42)) 100) r' (Some exd_p)) /\
  published3 hash3 ex_cfg exd_h3 [] (ex3_w false) ex3_s0 (exd_s3 hash3) exd_g3 [JPubrec 5] /\
  handed (z_bcast ex3_s0) (z_bcast (exd_s3 hash3)) 9 [exd_y3 "t" L1; exd_y3 "+" L2].
Proof.
  intros hash hash3. split; [apply exd_published|]. split; [apply exd_handed|].
  split; [eexists; eapply pa5_pass; [vm_compute; reflexivity|vm_compute; split; reflexivity|reflexivity]|].
  split; [apply exd_published3; [reflexivity|]; eexists; vm_compute; reflexivity|vm_compute; reflexivity].
Qed.

(** C20 as stated is false for a v3 publisher: client 9 holds "+" with QoS 2 and
    "t" with QoS 1, and of a QoS 2 message it gets a second copy with QoS 1. *)
Theorem C20_v3_highest_qos_refuted : forall hash,
  exists cfg h w s s' g out c xs y f q now r r' p,
    published3 hash cfg h [] w s s' g out /\ handed (z_bcast s) (z_bcast s') c xs /\ In y xs /\
    plain_sub h (w3_topic w) c f q /\ (forall f' q', plain_sub h (w3_topic w) c f' q' -> qos_leb q' q = true) /\
    passes5 now cfg y r r' (Some p) /\ p5_qos p <> qos_min (qp_qos (w3_qp w)) q.
Proof.
  intros hash. exists ex_cfg, exd_h3, (ex3_w false), ex3_s0, (exd_s3 hash), exd_g3, [JPubrec 5], 9,
    [exd_y3 "t" L1; exd_y3 "+" L2], (exd_y3 "t" L1), "+"%string, L2, 1002, (exd_r (exd_sub false false None) 100).
  do 2 eexists. split; [apply exd_published3; [reflexivity|]; eexists; vm_compute; reflexivity|].
  split; [vm_compute; reflexivity|]. split; [now left|].
  split; [split; [reflexivity|]; split; [|reflexivity]; split; [constructor 3; constructor|intros (r & X); discriminate]|].
  split; [intros f' [| |] _; reflexivity|].
  split; [eapply (pa5_pass _ _ _ _ _ (Pub5 "t" L1 false "hello" (PProps None None [] ""))); [vm_compute; reflexivity|vm_compute; split; reflexivity|reflexivity]|].
  discriminate.
Qed.
Print Assumptions C20_v3_highest_qos_refuted.

(** ** C21 *)

(** A publisher that is handed its own message holds a matching plain
    subscription without No Local, or was selected in a shared group. *)
Theorem C21_own_message_partial : forall hash pick cfg h l w s s' g out xs,
  published5 hash pick cfg h l w s s' g out -> handed (s_bcast s) (s_bcast s') (s_id s) xs -> xs <> [] ->
  exists T f q, topic_for (cf_alias_max cfg) l w = Some T /\
    ((plain_sub h T (s_id s) f q /\ exists sub, aget f (s_subs s) = Some sub /\ so_no_local (sd_opts sub) = false) \/
     shared_pick pick (rt_run h) T (s_id s) f q).
Proof. exact c21. Qed.
Print Assumptions C21_own_message_partial.

(** And no plain subscription made with No Local is among the filters the message
    is delivered for. *)
Theorem C21_no_local_filters : forall hash pick cfg h l w s s' g out xs y,
  published5 hash pick cfg h l w s s' g out -> handed (s_bcast s) (s_bcast s') (s_id s) xs -> In y xs ->
  forall f, In f (nm_filters y) -> plain f ->
    exists sub, aget f (s_subs s) = Some sub /\ so_no_local (sd_opts sub) = false.
Proof. exact c21_ids. Qed.
Print Assumptions C21_no_local_filters.

(** The publisher of InProps subscribes to [f] with No Local [nl] first. *)
Definition exn_sub (f : string) (nl : bool) : in5 := ISub 1 None [(f, SubOpts L1 nl false RH_send)].
Definition exn_g (f : string) : glob := Glob ex_cfg (rt_run [Sub f 7 L1]) ret_empty [7].
Definition exn_g0 : glob := Glob ex_cfg (rt_run []) ret_empty [7].
Definition exn_s (hash : wpub5 -> N) (f : string) (nl : bool) : sess5 :=
  match packet_step5 hash ex_pick 1001 20 (exn_sub f nl) ex_s0 exn_g0 with Go s _ _ => s | _ => ex_s0 end.
Definition exn_l (f : string) (nl : bool) : list (sev5 * list pkt5) :=
  [(VPkt 1001 20 (exn_sub f nl) exn_g0, [KSuback 1 [1]])].
Definition exn_s' (hash : wpub5 -> N) (f : string) (nl : bool) : sess5 :=
  match packet_step5 hash ex_pick 1002 20 (IPub (ex_w false)) (exn_s hash f nl) (exn_g f) with Go s _ _ => s | _ => ex_s0 end.
Lemma exn_published hash f nl : (f = "t" \/ f = "$share/x/t")%string ->
  published5 hash ex_pick ex_cfg [Sub f 7 L1] (exn_l f nl) (ex_w false) (exn_s hash f nl) (exn_s' hash f nl) (exn_g f) [KPubrec 5 0].
Proof.
  assert (V : valid_filter "t" /\ valid_filter "$share/x/t")
    by (split; unfold valid_filter; cbn; repeat (apply vl_lit; [split; reflexivity|]); constructor).
  intros Hf.
  assert (R : srun5 hash ex_cfg (exn_s hash f nl) (exn_l f nl)).
  { apply (sr_snoc hash ex_cfg ex_s0 [] _ _ _ (ex_run0 hash)).
    apply (st_pkt hash ex_cfg ex_pick ex_s0 1001 20 (exn_sub f nl) exn_g0 (exn_s hash f nl) (exn_g f) [KSuback 1 [1]]); try reflexivity.
    - constructor; [|constructor]. destruct Hf as [->| ->]; apply V.
    - split; [reflexivity|]. exists []. reflexivity.
    - destruct Hf as [->| ->], nl; vm_compute; reflexivity. }
  exists 1002, 20. destruct Hf as [->| ->], nl; (eexists; split; [exact R|]; split; [reflexivity|]; split;
    [repeat split; try (vm_compute; discriminate)|vm_compute; reflexivity]).
Qed.

Example C21_example : forall hash,
  published5 hash ex_pick ex_cfg [Sub "t" 7 L1] (exn_l "t" false) (ex_w false) (exn_s hash "t" false) (exn_s' hash "t" false) (exn_g "t") [KPubrec 5 0] /\
  (exists y, handed (s_bcast (exn_s hash "t" false)) (s_bcast (exn_s' hash "t" false)) (s_id (exn_s hash "t" false)) [y] /\ nm_filters y = ["t"%string]) /\
  published5 hash ex_pick ex_cfg [Sub "t" 7 L1] (exn_l "t" true) (ex_w false) (exn_s hash "t" true) (exn_s' hash "t" true) (exn_g "t") [KPubrec 5 0] /\
  handed (s_bcast (exn_s hash "t" true)) (s_bcast (exn_s' hash "t" true)) (s_id (exn_s hash "t" true)) [].
Proof.
  intros hash. split; [apply exn_published; auto|]. split; [eexists; split; [vm_compute; reflexivity|reflexivity]|].
  split; [apply exn_published; auto|vm_compute; reflexivity].
Qed.

(** C21 as stated is false for shared subscriptions: No Local is accepted there
    (MQTT makes it a protocol error) and ignored. *)
Theorem C21_shared_no_local_refuted : forall hash,
  exists pick cfg h l w s s' g out y f sub,
    published5 hash pick cfg h l w s s' g out /\ handed (s_bcast s) (s_bcast s') (s_id s) [y] /\
    nm_filters y = [f] /\ aget f (s_subs s) = Some sub /\ so_no_local (sd_opts sub) = true.
Proof.
  intros hash. exists ex_pick, ex_cfg, [Sub "$share/x/t" 7 L1], (exn_l "$share/x/t" true), (ex_w false),
    (exn_s hash "$share/x/t" true), (exn_s' hash "$share/x/t" true), (exn_g "$share/x/t"), [KPubrec 5 0].
  eexists. exists "$share/x/t"%string. eexists.
  split; [apply exn_published; auto|]. split; [vm_compute; reflexivity|]. split; [reflexivity|]. split; reflexivity.
Qed.
Print Assumptions C21_shared_no_local_refuted.

(** ** C22 *)

(** At most one message per client, and it carries exactly the identifiers of
    the matching subscriptions that still exist when it is received, each once. *)
Theorem C22_one_copy_with_ids : forall hash pick cfg h l w s s' g out c xs,
  published5 hash pick cfg h l w s s' g out -> handed (s_bcast s) (s_bcast s') c xs ->
  (List.length xs <= 1)%nat /\
  forall y, In y xs -> exists T, topic_for (cf_alias_max cfg) l w = Some T /\
    forall now r, exists r' o, passes5 now cfg y r r' o /\ forall p, o = Some p ->
      NoDup (pp_subids (p5_props p)) /\
      forall i, In i (pp_subids (p5_props p)) <->
        exists f q sub, through pick h s T c f q /\ aget f (s_subs r) = Some sub /\ sd_id sub = Some i.
Proof. exact c22. Qed.
Print Assumptions C22_one_copy_with_ids.

(** And exactly one if it is forwarded at all and the client can be reached. *)
Theorem C22_exactly_one : forall hash pick cfg h l w s s' g out T c f q,
  published5 hash pick cfg h l w s s' g out -> is_disconnected5 s' = false ->
  (forall p, w5_qp w = Q2 p -> opener l p = None /\ w5_dup w = false) ->
  topic_for (cf_alias_max cfg) l w = Some T -> through pick h s T c f q -> reachable g (s_bcast s) c ->
  exists y, handed (s_bcast s) (s_bcast s') c [y] /\ nm_topic y = T /\ nm_payload y = w5_payload w /\
    nm_qos y = qp_qos (w5_qp w) /\ In f (nm_filters y).
Proof. exact c22_one. Qed.
Print Assumptions C22_exactly_one.

Example C22_example : forall hash,
  published5 hash ex_pick ex_cfg ex_h [] (ex_w false) ex_s0 (ex_s1 hash) ex_g (ex_out hash) /\
  is_disconnected5 (ex_s1 hash) = false /\ (forall p, w5_qp (ex_w false) = Q2 p -> opener [] p = None /\ w5_dup (ex_w false) = false) /\
  topic_for (cf_alias_max ex_cfg) [] (ex_w false) = Some "t"%string /\
  through ex_pick ex_h ex_s0 "t" 9 "t" L1 /\ reachable ex_g (s_bcast ex_s0) 9 /\
  handed (s_bcast ex_s0) (s_bcast (ex_s1 hash)) 9 [exd_y] /\
  (exists r', passes5 1002 ex_cfg exd_y (exd_r (exd_sub false false (Some 42)) 100) r' (Some exd_p)) /\
  pp_subids (p5_props exd_p) = [42].
Proof.
  intros hash. split; [apply exd_published|]. split; [reflexivity|]. split; [intros p _; split; reflexivity|].
  split; [reflexivity|]. split; [apply exd_through|]. split; [left; now left|]. split; [apply exd_handed|].
  split; [eexists; eapply pa5_pass; [vm_compute; reflexivity|vm_compute; split; reflexivity|reflexivity]|reflexivity].
Qed.

(** ** C23 *)

(** A v5 client's copy has RETAIN=1 only for Retain As Published. *)
Theorem C23_forwarded_retain_v5 : forall hash pick cfg h l w s s' g out c xs y,
  published5 hash pick cfg h l w s s' g out -> handed (s_bcast s) (s_bcast s') c xs -> In y xs ->
  exists T, topic_for (cf_alias_max cfg) l w = Some T /\
    forall now r, exists r' o, passes5 now cfg y r r' o /\ forall p, o = Some p ->
      (p5_retain p = true <-> w5_retain w = true /\ cf_retain cfg = true /\
         exists f q sub, through pick h s T c f q /\ aget f (s_subs r) = Some sub /\ so_rap (sd_opts sub) = true).
Proof. exact c23_v5. Qed.
Print Assumptions C23_forwarded_retain_v5.

Theorem C23_forwarded_retain_v3_to_v5 : forall hash cfg h l w s s' g out c xs y,
  published3 hash cfg h l w s s' g out -> handed (z_bcast s) (z_bcast s') c xs -> In y xs ->
  exists f q, plain_sub h (w3_topic w) c f q /\
    forall now r, exists r' o, passes5 now cfg y r r' o /\ forall p, o = Some p ->
      (p5_retain p = true <-> w3_retain w = true /\ cf_retain cfg = true /\
         exists sub, aget f (s_subs r) = Some sub /\ so_rap (sd_opts sub) = true).
Proof. exact c23_v3. Qed.
Print Assumptions C23_forwarded_retain_v3_to_v5.

(** The published message with RETAIN=1. *)
Definition exr_w : wpub5 := WPub5 false (Q1 6) true "t" "hello" pprops_default.
Definition exr_s' : sess5 :=
  match packet_step5 (fun _ => 0) ex_pick 1001 20 (IPub exr_w) ex_s0 ex_g with Go s _ _ => s | _ => ex_s0 end.
Definition exr_y : nmsg := NM5 (NMsg5 true L1 "t" "hello" ["t"; "$share/x/+"]%string L1 pprops_default 13).
Lemma exr_published : published5 (fun _ => 0) ex_pick ex_cfg ex_h [] exr_w ex_s0 exr_s' ex_g [KPuback 6 0].
Proof.
  exists 1001, 20. eexists. split; [apply ex_run0|]. split; [reflexivity|]. split; [repeat split; vm_compute; discriminate|].
  vm_compute. reflexivity.
Qed.
Example C23_example :
  published5 (fun _ => 0) ex_pick ex_cfg ex_h [] exr_w ex_s0 exr_s' ex_g [KPuback 6 0] /\
  handed (s_bcast ex_s0) (s_bcast exr_s') 9 [exr_y] /\
  (exists r', passes5 1002 ex_cfg exr_y (exd_r (exd_sub false true None) 100) r' (Some (Pub5 "t" L1 true "hello" pprops_default))) /\
  (exists r', passes5 1002 ex_cfg exr_y (exd_r (exd_sub false false None) 100) r' (Some (Pub5 "t" L1 false "hello" pprops_default))).
Proof.
  split; [apply exr_published|]. split; [vm_compute; reflexivity|].
  split; eexists; (eapply pa5_pass; [vm_compute; reflexivity|vm_compute; split; reflexivity|reflexivity]).
Qed.

(** C23 as stated is false in two ways.  A v3 client's copy keeps the RETAIN flag
    of the published message. *)
Theorem C23_v3_receiver_refuted :
  exists hash pick cfg h l w s s' g out c y now r r' p,
    published5 hash pick cfg h l w s s' g out /\ handed (s_bcast s) (s_bcast s') c [y] /\
    current h "t" c = Some L1 /\ passes3 now y r r' (Some p) /\ p3_retain p = true.
Proof.
  exists (fun _ => 0), ex_pick, ex_cfg, ex_h, [], exr_w, ex_s0, exr_s', ex_g, [KPuback 6 0], 9, exr_y, 1002, exd_r3.
  do 2 eexists. split; [apply exr_published|]. split; [vm_compute; reflexivity|]. split; [reflexivity|].
  split; [eapply (pa3_pass _ _ _ _ (Pub3 "t" L1 true "hello")); [vm_compute; reflexivity|vm_compute; split; reflexivity|reflexivity]|reflexivity].
Qed.
Print Assumptions C23_v3_receiver_refuted.

(** And a retained message sent for a new v5 subscription has RETAIN=0 unless
    Retain As Published is set. *)
Definition exs_ret : list retop := [RIns (RContent "pub" L0 "t" "old" None 8); RIns (RContent "pub" L2 "u" "two" None 10)].
Definition exs_g : glob := Glob ex_cfg (rt_run []) (ret_run exs_ret) [7].
Theorem C23_retained_on_subscribe_refuted : forall hash,
  exists pick cfg l s g s' g' out p w hr,
    srun5 hash cfg s l /\ is_disconnected5 s = false /\ g_cfg g = cfg /\ g_retain g = ret_run hr /\
    retained hr "t" = Some (RContent "pub" L0 "t" "old" None 8) /\ s_subs s = [] /\
    packet_step5 hash pick 1001 20 (ISub p None [("t"%string, SubOpts L1 false false RH_send)]) s g = Go s' g' out /\
    In (KPub w) out /\ w5_topic w = "t"%string /\ w5_payload w = "old"%string /\ w5_retain w = false.
Proof.
  intros hash. exists ex_pick, ex_cfg, [], ex_s0, exs_g. do 3 eexists. exists 3. eexists. exists exs_ret.
  split; [apply ex_run0|]. split; [reflexivity|]. split; [reflexivity|]. split; [reflexivity|]. split; [reflexivity|].
  split; [reflexivity|]. split; [vm_compute; reflexivity|]. split; [now left|]. repeat split.
Qed.
Print Assumptions C23_retained_on_subscribe_refuted.

(** ** C24 *)

(** SUBSCRIBE: the packets written before SUBACK and the change of the queue are
    exactly those of handing over, filter by filter, the retained messages due
    ([due5]: matching, Retain Handling, No Local); those larger than the
    client's maximum are skipped. *)
Theorem C24_retained_on_subscribe : forall hash pick cfg s l now len p id fs g h hr s' g' out, cf_max_qos cfg <= 2 ->
  srun5 hash cfg s l -> is_disconnected5 s = false -> g_cfg g = cfg -> g_route g = rt_run h -> g_retain g = ret_run hr ->
  len <= cf_packet_server cfg -> Forall (fun e => valid_filter (fst e)) fs -> id <> Some 0 ->
  packet_step5 hash pick now len (ISub p id fs) s g = Go s' g' out ->
  exists mq codes o k1 k2, max_allowed_qos cfg = Some mq /\ out = (k1 ++ KSuback p codes :: k2)%list /\
    serves5 cfg id hr (s_ident s) (s_maxpkt s) now mq (keys (s_subs s)) fs (s_out s) o k1 /\
    flushed5 now o (s_out s') k2.
Proof. exact c24. Qed.
Print Assumptions C24_retained_on_subscribe.

(** MQTT 3: the retained messages of at most the granted QoS. *)
Theorem C24_v3_retained_on_subscribe_partial : forall hash cfg s l now len p fs g h hr s' g' out, cf_max_qos cfg <= 2 ->
  srun3 hash cfg s l -> z_disc s = false -> g_cfg g = cfg -> g_route g = rt_run h -> g_retain g = ret_run hr ->
  Forall (fun e => valid_filter (fst e)) fs ->
  packet_step3 hash now len (YSub p fs) s g = Go3 s' g' out ->
  exists mq codes o k1 k2, max_allowed_qos cfg = Some mq /\ out = (k1 ++ JSuback p codes :: k2)%list /\
    serves3 hr now mq fs (z_out s) o k1 /\ flushed3 now o (z_out s') k2.
Proof. exact c24_v3. Qed.
Print Assumptions C24_v3_retained_on_subscribe_partial.

Definition exs_fs : list (string * subopts) :=
  [("t"%string, SubOpts L1 false true RH_send_if_new); ("$share/x/t"%string, SubOpts L2 false false RH_send); ("+"%string, SubOpts L2 false false RH_none)].
Example C24_example : forall hash hash3,
  srun5 hash ex_cfg ex_s0 [] /\ Forall (fun e => valid_filter (fst e)) exs_fs /\
  (exists s' g', packet_step5 hash ex_pick 1001 20 (ISub 3 (Some 9) exs_fs) ex_s0 exs_g =
     Go s' g' [KPub (WPub5 false Q0 true "t" "old" (PProps None None [9] "")); KSuback 3 [1; 2; 2]]) /\
  srun3 hash3 ex_cfg ex3_s0 [] /\
  (exists s' g', packet_step3 hash3 1001 20 (YSub 3 [("t", L1); ("u", L2)]%string) ex3_s0 exs_g =
     Go3 s' g' [JPub (WPub3 false Q0 true "t" "old"); JPub (WPub3 false (Q2 1) true "u" "two"); JSuback 3 [L1; L2]]).
Proof.
  intros hash hash3. split; [apply ex_run0|]. split.
  { repeat (constructor; [unfold valid_filter; cbn; first [apply vl_plus|repeat (apply vl_lit; [split; reflexivity|])]; constructor|]). constructor. }
  split; [do 2 eexists; vm_compute; reflexivity|]. split; [apply ex3_run0|do 2 eexists; vm_compute; reflexivity].
Qed.

(** C24 as stated is false for MQTT 3: a retained message with a QoS above the
    granted one is not sent at all. *)
Theorem C24_v3_high_qos_dropped_refuted : forall hash,
  exists cfg l s g s' g' hr p m,
    srun3 hash cfg s l /\ z_disc s = false /\ g_cfg g = cfg /\ g_retain g = ret_run hr /\ retained hr "u" = Some m /\
    packet_step3 hash 1001 20 (YSub p [("u"%string, L1)]) s g = Go3 s' g' [JSuback p [L1]] /\ z_out s' = z_out s.
Proof.
  intros hash. exists ex_cfg, [], ex3_s0, exs_g. do 2 eexists. exists exs_ret, 3. eexists.
  split; [apply ex3_run0|]. split; [reflexivity|]. split; [reflexivity|]. split; [reflexivity|]. split; [reflexivity|].
  split; [vm_compute; reflexivity|reflexivity].
Qed.
Print Assumptions C24_v3_high_qos_dropped_refuted.

(** ** C25 *)

(** One SUBACK with the packet's identifier and one code per filter in order
    ([answer5]); the routing table is changed by the granted ones only, in order
    and with the granted QoS, and the session's subscriptions stay those of the
    table.  Identifier 0 ends the connection and changes nothing. *)
Theorem C25_suback : forall hash pick cfg s l now len p id fs g h hr s' g' out, cf_max_qos cfg <= 2 ->
  srun5 hash cfg s l -> is_disconnected5 s = false -> g_cfg g = cfg -> g_route g = rt_run h -> g_retain g = ret_run hr ->
  len <= cf_packet_server cfg -> Forall (fun e => valid_filter (fst e)) fs ->
  packet_step5 hash pick now len (ISub p id fs) s g = Go s' g' out ->
  (id = Some 0 /\ refused5 RC_protocol_error s s' g g' (answers out) /\ s_subs s' = s_subs s) \/
  (id <> Some 0 /\ exists codes, answers out = [KSuback p codes] /\ Forall2 (answer5 cfg id) fs codes /\
     g_route g' = rt_run (h ++ granted_ops (s_id s) fs codes) /\ g' = set_route (g_route g') g /\
     (agree5 h s -> agree5 (h ++ granted_ops (s_id s) fs codes) s')).
Proof. exact c25. Qed.
Print Assumptions C25_suback.

(** One UNSUBACK; the code says whether the subscription existed. *)
Theorem C25_unsuback : forall hash pick cfg s l now len p fs g h s' g' out,
  srun5 hash cfg s l -> is_disconnected5 s = false -> g_cfg g = cfg -> g_route g = rt_run h ->
  len <= cf_packet_server cfg ->
  packet_step5 hash pick now len (IUnsub p fs) s g = Go s' g' out ->
  exists codes, answers out = [KUnsuback p codes] /\ unsub_codes (keys (s_subs s)) [] fs codes /\
    g_route g' = rt_run (h ++ map (fun f => Unsub f (s_id s)) fs) /\ g' = set_route (g_route g') g /\
    (agree5 h s -> agree5 (h ++ map (fun f => Unsub f (s_id s)) fs) s') /\
    (forall f, aget f (s_subs s') = if existsb (String.eqb f) fs then None else aget f (s_subs s)).
Proof. exact c25_unsubscribe. Qed.
Print Assumptions C25_unsuback.

(** MQTT 3: every filter is granted the requested QoS, at most the server's; a
    shared filter ends the connection without SUBACK. *)
Theorem C25_v3_suback : forall hash cfg s l now len p fs g h hr s' g' out, cf_max_qos cfg <= 2 ->
  srun3 hash cfg s l -> z_disc s = false -> g_cfg g = cfg -> g_route g = rt_run h -> g_retain g = ret_run hr ->
  Forall (fun e => valid_filter (fst e)) fs ->
  packet_step3 hash now len (YSub p fs) s g = Go3 s' g' out ->
  exists codes, answers3 out = [JSuback p codes] /\
    Forall (fun e => plain (fst e)) fs /\
    Forall2 (fun e q => qos_num q = N.min (qos_num (snd e)) (cf_max_qos cfg)) fs codes /\
    g_route g' = rt_run (h ++ granted_ops (z_id s) fs (map qos_num codes)) /\ g' = set_route (g_route g') g /\
    (agree3 h s -> agree3 (h ++ granted_ops (z_id s) fs (map qos_num codes)) s').
Proof. exact c25_v3. Qed.
Print Assumptions C25_v3_suback.

Theorem C25_v3_shared_refused : forall hash s now len p fs g f q, In (f, q) fs -> ~ plain f ->
  forall s' g' out, packet_step3 hash now len (YSub p fs) s g <> Go3 s' g' out.
Proof. exact c25_v3_shared. Qed.
Print Assumptions C25_v3_shared_refused.

Theorem C25_v3_unsuback : forall hash cfg s l now len p fs g h s' g' out,
  srun3 hash cfg s l -> g_cfg g = cfg -> g_route g = rt_run h ->
  packet_step3 hash now len (YUnsub p fs) s g = Go3 s' g' out ->
  answers3 out = [JUnsuback p] /\
    g_route g' = rt_run (h ++ map (fun f => Unsub f (z_id s)) fs) /\ g' = set_route (g_route g') g /\
    (agree3 h s -> agree3 (h ++ map (fun f => Unsub f (z_id s)) fs) s') /\
    (forall f, aget f (z_subs s') = if existsb (String.eqb f) fs then None else aget f (z_subs s)).
Proof. exact c25_v3_unsubscribe. Qed.
Print Assumptions C25_v3_unsuback.

Definition exu_cfg : config := Config 1 15 10 1 256 10 65535 4294967295 268435460 1000 5 true false true true.
Example C25_example : forall hash,
  cf_max_qos exu_cfg <= 2 /\
  (exists s' g', packet_step5 hash ex_pick 1001 20 (ISub 3 None exs_fs) ex_s0 (Glob exu_cfg (rt_run []) ret_empty [7]) =
     Go s' g' [KSuback 3 [1; RC_shared_not_supported; 1]] /\
     keys (s_subs s') = ["t"; "+"]%string /\
     packet_step5 hash ex_pick 1002 20 (IUnsub 4 ["t"; "x"; "t"]%string) s' g' <> Crash /\
     exists s2 g2, packet_step5 hash ex_pick 1002 20 (IUnsub 4 ["t"; "x"; "t"]%string) s' g' =
       Go s2 g2 [KUnsuback 4 [RC_success; RC_no_subscription_existed; RC_no_subscription_existed]]) /\
  ~ plain "$share/x/t".
Proof.
  intros hash. split; [vm_compute; discriminate|]. split.
  - do 2 eexists. split; [vm_compute; reflexivity|]. split; [vm_compute; reflexivity|]. split; [vm_compute; discriminate|].
    do 2 eexists. vm_compute. reflexivity.
  - discriminate.
Qed.

(** ** C46 *)

(** If the publisher used no topic alias, the receiver's matching subscriptions
    have no identifier and the packet sent uses no alias, it is not larger than
    the receiver's Maximum Packet Size. *)
Theorem C46_maximum_packet_size_partial : forall hash pick cfg h l w s s' g out c y now r,
  published5 hash pick cfg h l w s s' g out -> handed (s_bcast s) (s_bcast s') c [y] ->
  pp_alias (w5_props w) = None ->
  (forall f sub, In f (nm_filters y) -> aget f (s_subs r) = Some sub -> sd_id sub = None) ->
  exists r' o, passes5 now cfg y r r' o /\ forall p w', o = Some p -> carries p w' -> fits (s_maxpkt r) w'.
Proof. exact c46_v5. Qed.
Print Assumptions C46_maximum_packet_size_partial.

(** The same for a v3 publisher, unless the added byte makes the length field longer. *)
Theorem C46_v3_publisher_partial : forall hash cfg h l w s s' g out c y ys now r,
  published3 hash cfg h l w s s' g out -> handed (z_bcast s) (z_bcast s') c ys -> In y ys ->
  (forall f sub, In f (nm_filters y) -> aget f (s_subs r) = Some sub -> sd_id sub = None) ->
  (forall q, var_len (rem_len3 q (w3_topic w) (w3_payload w) + 1) = var_len (rem_len3 q (w3_topic w) (w3_payload w))) ->
  rem_len3 (qp_qos (w3_qp w)) (w3_topic w) (w3_payload w) < 268435455 ->
  exists r' o, passes5 now cfg y r r' o /\ forall p w', o = Some p -> carries p w' -> fits (s_maxpkt r) w'.
Proof. exact (fun hash => c46_v3 (fun _ => 0) hash (fun _ _ => 0)). Qed.
Print Assumptions C46_v3_publisher_partial.

Example C46_example : forall hash3,
  published5 (fun _ => 0) ex_pick ex_cfg ex_h [] exr_w ex_s0 exr_s' ex_g [KPuback 6 0] /\
  handed (s_bcast ex_s0) (s_bcast exr_s') 9 [exr_y] /\ pp_alias (w5_props exr_w) = None /\
  (exists r' p, passes5 1002 ex_cfg exr_y (exd_r (exd_sub false false None) 13) r' (Some p)) /\
  handle_normal5 1002 ex_cfg exr_y (exd_r (exd_sub false false None) 12) = (exd_r (exd_sub false false None) 12, None) /\
  published3 hash3 ex_cfg exd_h3 [] (ex3_w false) ex3_s0 (exd_s3 hash3) exd_g3 [JPubrec 5].
Proof.
  intros hash3. split; [apply exr_published|]. split; [vm_compute; reflexivity|]. split; [reflexivity|].
  split; [do 2 eexists; eapply (pa5_pass _ _ _ _ _ (Pub5 "t" L1 false "hello" pprops_default)); [vm_compute; reflexivity|vm_compute; split; reflexivity|reflexivity]|].
  split; [vm_compute; reflexivity|]. apply exd_published3; [reflexivity|]; eexists; vm_compute; reflexivity.
Qed.

(** C46 as stated is false: the size checked is that of the publisher's packet,
    which here has an alias instead of the topic; the copy has the topic and a
    subscription identifier. *)
Definition exm_topic : string := "a/rather/long/topic/name/for/an/alias".
Definition exm_w1 : wpub5 := WPub5 false (Q1 5) false exm_topic "x" (PProps None (Some 3) [] "").
Definition exm_w2 : wpub5 := WPub5 false Q0 false "" "x" (PProps None (Some 3) [] "").
Definition exm_h : list rop := [Sub exm_topic 9 L0].
Definition exm_g : glob := Glob ex_cfg (rt_run exm_h) ret_empty [9].
Definition exm_s1 (hash : wpub5 -> N) : sess5 :=
  match packet_step5 hash ex_pick 1001 60 (IPub exm_w1) ex_s0 exm_g with Go s _ _ => s | _ => ex_s0 end.
Definition exm_r : sess5 :=
  Sess5 9 "you" true false false (Some 1) 1 (out5_new 10 256 15 0) [] [(exm_topic, exd_sub false false (Some 42))] [] [] 0 None 60 true 0 10 20 true.
Theorem C46_maximum_packet_size_refuted : forall hash,
  exists pick cfg h l w s s' g out c y k now r r' q w' n,
    published5 hash pick cfg h l w s s' g out /\ handed (s_bcast s) (s_bcast s') c (k ++ [y]) /\
    handle_normal5 now cfg y r = (r', Some (q, Some (KPub w'))) /\ enc_len5 w' = Some n /\ s_maxpkt r < n.
Proof.
  intros hash. exists ex_pick, ex_cfg, exm_h, [(VPkt 1001 60 (IPub exm_w1) exm_g, [KPuback 5 0])], exm_w2, (exm_s1 hash).
  eexists. exists exm_g, [], 9. eexists. exists [], 1003, exm_r. do 4 eexists.
  split.
  { exists 1002, 10. eexists. split; [|split; [vm_compute; reflexivity|split; [repeat split; vm_compute; discriminate|vm_compute; reflexivity]]].
    apply (sr_snoc hash ex_cfg ex_s0 [] _ _ _ (ex_run0 hash)).
    apply (st_pkt hash ex_cfg ex_pick ex_s0 1001 60 (IPub exm_w1) exm_g (exm_s1 hash) exm_g [KPuback 5 0]); try reflexivity.
    - split; [split; reflexivity|discriminate].
    - split; [reflexivity|]. exists exm_h. reflexivity. }
  split; [vm_compute; reflexivity|]. split; [vm_compute; reflexivity|]. split; [vm_compute; reflexivity|reflexivity].
Qed.
Print Assumptions C46_maximum_packet_size_refuted.

(** Also for a v3 publisher without any identifier or alias: 129 bytes become
    131, where the server counts 130. *)
Definition exm3_pay : string := "0123456789012345678901234567890123456789012345678901234567890123456789012345678901234567890123456789012345678901234567890123".
Definition exm3_w : wpub3 := WPub3 false Q0 false "t" exm3_pay.
Definition exm3_g : glob := Glob ex_cfg (rt_run [Sub "t" 9 L0]) ret_empty [9].
Theorem C46_v3_length_field_refuted : forall hash,
  exists cfg h w s s' g out c y now r r' q w' n,
    published3 hash cfg h [] w s s' g out /\ handed (z_bcast s) (z_bcast s') c [y] /\
    handle_normal5 now cfg y r = (r', Some (q, Some (KPub w'))) /\ w5_props w' = pprops_default /\
    enc_len5 w' = Some n /\ s_maxpkt r < n.
Proof.
  intros hash. exists ex_cfg, [Sub "t" 9 L0], exm3_w, ex3_s0. eexists. exists exm3_g, [], 9. eexists.
  exists 1002, (exd_r (exd_sub false false None) 130). do 4 eexists.
  split.
  { exists 1001, 129. eexists. split; [apply ex3_run0|]. split; [reflexivity|]. split; [repeat split; vm_compute; discriminate|vm_compute; reflexivity]. }
  split; [vm_compute; reflexivity|]. split; [vm_compute; reflexivity|]. split; [reflexivity|]. split; [vm_compute; reflexivity|reflexivity].
Qed.
Print Assumptions C46_v3_length_field_refuted.

(** ** C49 *)

(** A PUBLISH that is accepted and is not taken for a QoS 2 repetition hands one
    message with its topic and payload to every reachable client with a matching
    plain subscription (the publisher itself: without No Local).  A QoS 2 PUBLISH
    marked as a repetition is acknowledged but not forwarded:
    C18_lost_first_transmission_refuted. *)
Theorem C49_acknowledged_is_handed_over_partial : forall hash pick cfg h l w s s' g out T c f q,
  published5 hash pick cfg h l w s s' g out -> is_disconnected5 s' = false ->
  (forall p, w5_qp w = Q2 p -> opener l p = None /\ w5_dup w = false) ->
  topic_for (cf_alias_max cfg) l w = Some T -> through pick h s T c f q -> reachable g (s_bcast s) c ->
  exists y, handed (s_bcast s) (s_bcast s') c [y] /\ nm_topic y = T /\ nm_payload y = w5_payload w /\
    nm_qos y = qp_qos (w5_qp w) /\ In f (nm_filters y).
Proof. exact c22_one. Qed.
Print Assumptions C49_acknowledged_is_handed_over_partial.

Theorem C49_v3_acknowledged_is_handed_over_partial : forall hash cfg h l w s s' g out c f q,
  published3 hash cfg h l w s s' g out -> (forall p, w3_qp w = Q2 p -> w3_dup w = false) ->
  plain_sub h (w3_topic w) c f q -> reachable g (z_bcast s) c ->
  exists xs y, handed (z_bcast s) (z_bcast s') c xs /\ In y xs /\
    nm_topic y = w3_topic w /\ nm_payload y = w3_payload w /\ nm_qos y = qp_qos (w3_qp w) /\
    nm_filters y = [f] /\ nm_sqos y = q.
Proof. exact c49_v3. Qed.
Print Assumptions C49_v3_acknowledged_is_handed_over_partial.

Example C49_example : forall hash hash3,
  published5 hash ex_pick ex_cfg ex_h [] (ex_w false) ex_s0 (ex_s1 hash) ex_g (ex_out hash) /\
  is_disconnected5 (ex_s1 hash) = false /\ through ex_pick ex_h ex_s0 "t" 9 "t" L1 /\ reachable ex_g (s_bcast ex_s0) 9 /\
  published3 hash3 ex_cfg exd_h3 [] (ex3_w false) ex3_s0 (exd_s3 hash3) exd_g3 [JPubrec 5] /\
  plain_sub exd_h3 "t" 9 "t" L1 /\ reachable exd_g3 (z_bcast ex3_s0) 9.
Proof.
  intros hash hash3. split; [apply exd_published|]. split; [reflexivity|]. split; [apply exd_through|]. split; [left; now left|].
  split; [apply exd_published3; [reflexivity|]; eexists; vm_compute; reflexivity|].
  split; [split; [reflexivity|]; split; [apply exd_matches|reflexivity]|left; now left].
Qed.

(** ** C50 *)

(** No packet makes a handler panic, unless it (un)subscribes to shared filters
    after the index defect of shared groups was triggered ([safe_calls]). *)
Theorem C50_no_panic_partial : forall hash pick cfg s l now len x g h hr, cf_max_qos cfg <= 2 ->
  srun5 hash cfg s l -> is_disconnected5 s = false -> g_cfg g = cfg -> g_route g = rt_run h -> g_retain g = ret_run hr ->
  wf_in5 x -> safe_calls h (filters5 x) (leaving5 (s_id s) x) ->
  packet_step5 hash pick now len x s g <> Crash.
Proof. exact c50_no_panic. Qed.
Print Assumptions C50_no_panic_partial.

Theorem C50_v3_no_panic_partial : forall hash cfg s l now len x g h hr, cf_max_qos cfg <= 2 ->
  srun3 hash cfg s l -> z_disc s = false -> g_cfg g = cfg -> g_route g = rt_run h -> g_retain g = ret_run hr ->
  wf_in3 x -> safe_calls h (filters3 x) (leaving3 (z_id s) x) ->
  packet_step3 hash now len x s g <> Crash3.
Proof. exact c50_v3_no_panic. Qed.
Print Assumptions C50_v3_no_panic_partial.

Example C50_example : forall hash,
  cf_max_qos ex_cfg <= 2 /\ srun5 hash ex_cfg ex_s0 [] /\ is_disconnected5 ex_s0 = false /\
  wf_in5 (ISub 3 None exs_fs) /\ safe_calls ex_share (filters5 (ISub 3 None exs_fs)) (leaving5 7 (ISub 3 None exs_fs)) /\
  safe_calls ex_stale (filters5 (IUnsub 3 ["t"%string])) (leaving5 7 (IUnsub 3 ["t"%string])).
Proof.
  intros hash. split; [vm_compute; discriminate|]. split; [apply ex_run0|]. split; [reflexivity|]. split.
  { repeat (constructor; [unfold valid_filter; cbn; first [apply vl_plus|repeat (apply vl_lit; [split; reflexivity|])]; constructor|]). constructor. }
  split; [right; cbn; exact ex_share_safe|left; repeat constructor].
Qed.

(** C50 as stated is false: three packets of client 7 (SUBSCRIBE, UNSUBSCRIBE,
    SUBSCRIBE to the same shared filter) while client 1 is in the group. *)
Definition exc_f : string := "$share/g/a".
Definition exc_sub : in5 := ISub 3 None [(exc_f, SubOpts L1 false false RH_send)].
Definition exc_g (h : list rop) : glob := Glob ex_cfg (rt_run h) ret_empty [7].
Definition exc_1 (hash : wpub5 -> N) : sess5 * glob :=
  match packet_step5 hash ex_pick 1001 20 exc_sub ex_s0 (exc_g [Sub exc_f 1 L1]) with Go s g _ => (s, g) | _ => (ex_s0, ex_g) end.
Definition exc_2 (hash : wpub5 -> N) : sess5 * glob :=
  match packet_step5 hash ex_pick 1002 20 (IUnsub 4 [exc_f]) (fst (exc_1 hash)) (snd (exc_1 hash)) with Go s g _ => (s, g) | _ => (ex_s0, ex_g) end.
Theorem C50_no_panic_refuted : forall hash,
  exists cfg pick s0 s1 s2 g0 g1 g2 o1 o2 x1 x2 x3,
    srun5 hash cfg s0 [] /\ wf_in5 x1 /\ wf_in5 x2 /\ wf_in5 x3 /\ g_route g0 = rt_run [Sub exc_f 1 L1] /\
    is_disconnected5 s2 = false /\
    packet_step5 hash pick 1001 20 x1 s0 g0 = Go s1 g1 o1 /\
    packet_step5 hash pick 1002 20 x2 s1 g1 = Go s2 g2 o2 /\
    packet_step5 hash pick 1003 20 x3 s2 g2 = Crash.
Proof.
  intros hash. exists ex_cfg, ex_pick, ex_s0, (fst (exc_1 hash)), (fst (exc_2 hash)), (exc_g [Sub exc_f 1 L1]),
    (snd (exc_1 hash)), (snd (exc_2 hash)). do 2 eexists. exists exc_sub, (IUnsub 4 [exc_f]), exc_sub.
  assert (V : valid_filter exc_f) by (unfold valid_filter; cbn; repeat (apply vl_lit; [split; reflexivity|]); constructor).
  split; [apply ex_run0|]. split; [constructor; [exact V|constructor]|]. split; [constructor; [exact V|constructor]|].
  split; [constructor; [exact V|constructor]|]. split; [reflexivity|]. split; [vm_compute; reflexivity|].
  split; [vm_compute; reflexivity|]. split; vm_compute; reflexivity.
Qed.
Print Assumptions C50_no_panic_refuted.
