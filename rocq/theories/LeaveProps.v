(** C50 and C84 for share groups that nobody has left.

    The table of share groups goes wrong when the member in the last place of a group leaves it (C03, C04, C50).
    As long as nobody has left a group, it is right.  Then a published message reaches one member of every share
    group whose filter matches, with that member's QoS; and the server does not panic, not even in the step in
    which somebody leaves. *)
From Coq Require Import List Bool NArith String Lia.
From Verif Require Import Base BaseLemmas TopicModel TopicSpec MsgModel OutModel OutSpec RouteModel RouteSpec GlobModel Sess5Model Sess3Model ConnModel BrokerModel DelivSpec InSpec BrokerSpec LifeSpec SubsSpec LinkSpec RecvSpec RecordSpec RunProofs BrokerFacts
  AccSpec EndSpec EndProofs GetSpec ShareSpec LeaveSpec LeaveProofs LeaveRun BrokerProps LifeProps EndProps PanicProps ShareProps.
Import ListNotations.
Local Open Scope N_scope.
Local Open Scope list_scope.

Section Props.
  Variables (hash5 : wpub5 -> N) (hash3 : wpub3 -> N) (pick : draw -> broker -> string -> string -> N).

  (** Missing: histories in which a member left a share group (C03_shared_members_refuted) or a session was given up
      half-way ([lossless], C64_dead_member_refuted); messages of MQTT 3 clients, which never go to share groups
      (C64_v3_refuted). *)
  Theorem C84_stayed_partial : forall c h1 b1 j s len w b2 out, cf_max_qos c <= 2 ->
    brun hash5 hash3 pick c h1 b1 -> (forall p, In p h1 -> proper p) -> (forall p, In p h1 -> lossless p) -> stayed h1 b1 ->
    sess_at b1 j = Some (A5 s) -> wf_in5 (IPub w) -> len <= cf_packet_server c ->
    bstep hash5 hash3 pick (EPacket5 j len (IPub w)) b1 = BOk b2 out -> (forall code reason, ~ In (OPkt5 j (KDisconnect code reason)) out) ->
    exists l, life5 j h1 l /\ forall T gr inner,
      topic_for (cf_alias_max c) l w = Some T -> (forall p, w5_qp w = Q2 p -> opener l p = None /\ w5_dup w = false) ->
      shared_info (share_filter gr inner) = Some (gr, inner) -> topic_matches inner T ->
      (exists k d ms q, held b1 k = Some (d, ms) /\ aget (share_filter gr inner) ms = Some q) ->
      exists k d ms q, held b1 k = Some (d, ms) /\ aget (share_filter gr inner) ms = Some q /\
        (forall d' y, In y (AccSpec.queued j d' b1 b2) -> In (share_filter gr inner) (nm_filters y) -> d' = d) /\
        arrives5 hash5 hash3 pick c h1 b1 j len w b2 out d T (share_filter gr inner) q.
  Proof. exact (stayed_share hash5 hash3 pick). Qed.

  (** Missing: histories in which a member left a share group (C50_broker_no_panic_refuted) or a session was given up
      half-way; an UNSUBSCRIBE that names a shared filter twice (C50_twice_no_panic_refuted). *)
  Theorem C50_stayed_no_panic_partial : forall c h b e, cf_max_qos c <= 2 -> brun hash5 hash3 pick c h b ->
    (forall p, In p h -> proper p) -> (forall p, In p h -> lossless p) -> stayed h b ->
    (forall k w, In w (asked_will k h) -> valid_topic_name (will_topic w)) -> proper (Past b e []) -> leaves_once e ->
    bstep hash5 hash3 pick e b <> BPanic.
  Proof. exact (stayed_no_panic hash5 hash3 pick). Qed.
End Props.
Print Assumptions C84_stayed_partial.
Print Assumptions C50_stayed_no_panic_partial.

(** ** Cases that meet the hypotheses *)
Definition still (b b' : broker) : bool :=
  forallb (fun kt => match held b (fst kt) with
    | Some (d, ms) => forallb (fun fq => match shared_info (fst fq) with
        | None => true
        | Some _ => existsb (fun kt' => match held b' (fst kt') with Some (d', ms') => (d' =? d) && (match aget (fst fq) ms' with Some _ => true | None => false end) | None => false end) (b_tasks b')
        end) ms
    | None => true end) (b_tasks b).
Lemma still_stays b b' : still b b' = true -> ~ left_group b b'.
Proof.
  intros S (k & d & ms & f & q & HK & AG & NP & H). unfold still in S. rewrite forallb_forall in S.
  assert (T : exists t, In (k, t) (b_tasks b)). { unfold held in HK. destruct (aget k (b_tasks b)) as [t|] eqn:A; [|discriminate]. exists t. now apply aget_Some_in. }
  destruct T as (t & IT). specialize (S _ IT). cbn [fst] in S. rewrite HK in S. rewrite forallb_forall in S. specialize (S (f, q) (aget_Some_in _ _ _ AG)). cbn [fst] in S.
  unfold plain in NP. destruct (shared_info f); [|contradiction]. apply existsb_exists in S. destruct S as ((k' & t') & _ & S). cbn [fst] in S. destruct (held b' k') as [[d' ms']|] eqn:HK'; [|discriminate].
  apply andb_prop in S. destruct S as (E & X). apply N.eqb_eq in E. subst d'. rewrite (H _ _ HK') in X. discriminate.
Qed.
Definition rid (d : client_id) (f : string) (b : broker) : bool :=
  forallb (fun kt => match held b (fst kt) with Some (d', ms) => negb (d' =? d) || (match aget f ms with Some _ => false | None => true end) | None => true end) (b_tasks b).
Lemma rid_left d f b : rid d f b = true -> forall k ms, held b k = Some (d, ms) -> aget f ms = None.
Proof.
  intros S k ms HK. unfold rid in S. rewrite forallb_forall in S.
  assert (T : exists t, In (k, t) (b_tasks b)). { unfold held in HK. destruct (aget k (b_tasks b)) as [t|] eqn:A; [|discriminate]. exists t. now apply aget_Some_in. }
  destruct T as (t & IT). specialize (S _ IT). cbn [fst] in S. rewrite HK, N.eqb_refl in S. cbn in S. destruct (aget f ms); [discriminate|reflexivity].
Qed.
Ltac stayed_of := repeat (split; [apply still_stays; vm_compute; reflexivity|]); exact Logic.I.

(** The history of C84_group's case; nobody has left the group. *)
Example stayed_group_case : exists h1 b1, x_run h1 b1 /\ (forall p, In p h1 -> proper p) /\ (forall p, In p h1 -> lossless p) /\ stayed h1 b1 /\
  shared_info (share_filter "g" "t") = Some ("g", "t")%string /\ (exists ms, held b1 2 = Some (2, ms) /\ aget (share_filter "g" "t") ms = Some L1) /\
  exists b2 out h b, gone_through x_h5 x_h3 x_pick config_default h1 b1 (x_pub 1 "t") b2 out h b 1 0 /\
  out = [OPkt5 1 (KPuback 7 0)] /\ (exists s, sess_at b1 1 = Some (A5 s)) /\ (exists r, sess_at b 0 = Some (A5 r) /\ s_id r = 0) /\
  (exists y, AccSpec.queued 1 0 b1 b2 = [y] /\ nm_filters y = [share_filter "g" "t"]) /\ AccSpec.queued 1 2 b1 b2 = [].
Proof.
  run_of m_evs. match goal with |- (forall p, In p ?h1 -> proper p) /\ _ /\ stayed _ ?b1 /\ _ =>
    assert (R : BrokerSpec.brun x_h5 x_h3 x_pick config_default h1 b1) by (apply (trace_new x_h5 x_h3 x_pick config_default m_evs); vm_compute; reflexivity);
    assert (P1 : forall p, In p h1 -> proper p) by proper_of end.
  split; [exact P1|]. split; [lossless_of|]. split; [stayed_of|]. split; [reflexivity|]. split; [eexists; split; reflexivity|]. gone_of [EFlush 1 0; ENormal 0; EPacket5 0 4 (IPuback 1)].
  split; [eapply G1; reflexivity|]. split; [reflexivity|]. split; [eexists; reflexivity|]. split; [eexists; split; reflexivity|]. split; [|reflexivity]. eexists. split; reflexivity.
Qed.

(** Three clients are in a group; the last one leaves it, with an UNSUBSCRIBE or by ending its session. *)
Definition x_three : list bev :=
  [ETick 100000; x_a true] ++ x_up 0 ++ [x_c5 "b" true 60 None None] ++ x_up 1 ++ [x_c5 "c" true 60 None None] ++ x_up 2 ++ [x_sub 0 "$share/g/a"; x_sub 1 "$share/g/a"; x_sub 2 "$share/g/a"; EClose 1; EEnd 1 true].
Example C50_stayed_case : exists h b, x_run h b /\ (forall p, In p h -> proper p) /\ (forall p, In p h -> lossless p) /\ stayed h b /\ (forall k w, In w (asked_will k h) -> valid_topic_name (will_topic w)) /\
  leaves_once (x_unsub 2 "$share/g/a") /\
  (exists b', x_step (x_unsub 2 "$share/g/a") b = BOk b' [OPkt5 2 (KUnsuback 2 [0])] /\ left_group b b') /\ (exists b', x_step (EDone 1) b = BOk b' [] /\ left_group b b').
Proof.
  run_of x_three. split; [proper_of|]. split; [lossless_of|]. split; [stayed_of|]. split.
  { intros k w. unfold asked_will. cbn [flat_map]. unfold connect_will. cbn. rewrite ?app_nil_r. intros I.
    repeat match goal with H : context[if ?x then _ else _] |- _ => destruct x; cbn in H end; contradiction. }
  split. { intros f [|g l1] l2 E NP I; [destruct I|]. destruct l1; discriminate. }
  split; (eexists; split; [vm_compute; reflexivity|]).
  - exists 2, 2. eexists. exists "$share/g/a"%string, L1. split; [vm_compute; reflexivity|]. split; [vm_compute; reflexivity|]. split; [vm_compute; discriminate|]. apply rid_left. vm_compute. reflexivity.
  - exists 1, 1. eexists. exists "$share/g/a"%string, L1. split; [vm_compute; reflexivity|]. split; [vm_compute; reflexivity|]. split; [vm_compute; discriminate|]. apply rid_left. vm_compute. reflexivity.
Qed.

(** ** One packet is enough
    Nobody has left the group; the member in its last place sends an UNSUBSCRIBE that names the filter twice. *)
Definition x_twice : bev := EPacket5 2 10 (IUnsub 2 ["$share/g/a"%string; "$share/g/a"%string]).
Theorem C50_twice_no_panic_refuted : exists h b, x_run h b /\ (forall p, In p h -> proper p) /\ (forall p, In p h -> lossless p) /\ stayed h b /\ proper (Past b x_twice []) /\ x_step x_twice b = BPanic.
Proof. run_of x_three. split; [proper_of|]. split; [lossless_of|]. split; [stayed_of|]. split; [repeat constructor|]. vm_compute. reflexivity. Qed.
Print Assumptions C50_twice_no_panic_refuted.
