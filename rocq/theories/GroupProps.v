(** C64: a message for a shared subscription goes to exactly one member of the group.
    [published5 hash pick cfg h l w s s' g out]: session [s], with history [l], published [w]
    when the routing table was the result of the calls [h]; [pick] is the random choice;
    [member], [got]: GroupSpec; the other words: DelivProps. *)
From Coq Require Import List Bool String NArith.
From Verif Require Import Base BaseLemmas TopicModel TopicSpec MsgModel RouteModel RouteSpec RetainModel PendingModel OutModel OutSpec GlobModel Sess5Model Sess3Model ConnModel RegModel BrokerModel
  DelivSpec InSpec RecvSpec BrokerSpec BrokerFacts LifeSpec GroupSpec GroupProofs InProps DelivProps BrokerProps LifeProps.
Import ListNotations.
Local Open Scope N_scope.

(** C64: never two, and only current members. *)
Theorem C64_at_most_one : forall hash pick cfg h l w s s' g out f c c',
  published5 hash pick cfg h l w s s' g out -> ~ plain f ->
  got (s_bcast s) (s_bcast s') f c -> got (s_bcast s) (s_bcast s') f c' -> c = c'.
Proof. exact group_one. Qed.
Theorem C64_members_only : forall hash pick cfg h l w s s' g out f c,
  published5 hash pick cfg h l w s s' g out -> ~ plain f -> got (s_bcast s) (s_bcast s') f c -> member h f c.
Proof. exact group_member. Qed.

(** C64: a member gets a copy, whatever the choice, if every member can be reached.  Missing:
    members that cannot ([C64_dead_member_refuted]), messages of MQTT 3 clients
    ([C64_v3_refuted]) and tables in which a last member left (C03). *)
Theorem C64_one_gets_it_partial : forall hash pick cfg h l w s s' g out T gr inner,
  published5 hash pick cfg h l w s s' g out -> is_disconnected5 s' = false ->
  (forall p, w5_qp w = Q2 p -> opener l p = None /\ w5_dup w = false) ->
  topic_for (cf_alias_max cfg) l w = Some T ->
  shared_info (share_filter gr inner) = Some (gr, inner) -> topic_matches inner T -> ~ last_member_leaves h ->
  (exists c, member h (share_filter gr inner) c) -> (forall c, member h (share_filter gr inner) c -> reachable g (s_bcast s) c) ->
  exists c y, member h (share_filter gr inner) c /\ handed (s_bcast s) (s_bcast s') c [y] /\ In (share_filter gr inner) (nm_filters y) /\
    nm_topic y = T /\ nm_payload y = w5_payload w.
Proof. exact group_exactly. Qed.

(** Two members, one of them with a plain subscription too. *)
Definition exg_h : list rop := [Sub "$share/g/t" 8 L1; Sub "$share/g/t" 9 L1; Sub "t" 8 L0].
Definition exg_g : glob := Glob ex_cfg (rt_run exg_h) tnode_new [7; 8; 9].
Definition exg_w : wpub5 := WPub5 false (Q1 6) false "t" "hello" pprops_default.
Definition exg_s (n : N) : sess5 :=
  match packet_step5 (fun _ => 0) (fun _ _ => n) 1001 20 (IPub exg_w) ex_s0 exg_g with Go s _ _ => s | _ => ex_s0 end.
Example C64_case : forall n, n = 0 \/ n = 1 ->
  published5 (fun _ => 0) (fun _ _ => n) ex_cfg exg_h [] exg_w ex_s0 (exg_s n) exg_g [KPuback 6 0] /\ is_disconnected5 (exg_s n) = false /\
  topic_for (cf_alias_max ex_cfg) [] exg_w = Some "t"%string /\ shared_info (share_filter "g" "t") = Some ("g", "t")%string /\ topic_matches "t" "t" /\
  ~ last_member_leaves exg_h /\
  member exg_h "$share/g/t" 8 /\ member exg_h "$share/g/t" 9 /\
  (forall c, member exg_h "$share/g/t" c -> reachable exg_g (s_bcast ex_s0) c) /\
  got (s_bcast ex_s0) (s_bcast (exg_s n)) "$share/g/t" (8 + n) /\ got (s_bcast ex_s0) (s_bcast (exg_s n)) "t" 8.
Proof.
  intros n N. split.
  { exists 1001, 20. destruct N as [-> | ->]; eexists; (split; [apply ex_run0|split; [reflexivity|split; [repeat split; vm_compute; discriminate|vm_compute; reflexivity]]]). }
  split; [destruct N as [-> | ->]; reflexivity|]. split; [reflexivity|]. split; [reflexivity|]. split; [apply exd_matches|]. split.
  { intros (h1 & f & c & h2 & l & E & _). unfold exg_h in E. destruct h1 as [|? [|? [|? [|? h1]]]]; discriminate E. }
  split; [exists L1; reflexivity|]. split; [exists L1; reflexivity|]. split.
  { intros c (q & C). left. unfold exg_g, g_live. cbn in C.
    destruct c as [|c]; [discriminate C|]. destruct (Pos.eqb_spec 9 c) as [<-|]; [cbn; auto|]. destruct (Pos.eqb_spec 8 c) as [<-|]; [cbn; auto|discriminate C]. }
  split; destruct N as [-> | ->]; eexists _, _; (split; [vm_compute; reflexivity|]); (split; [left; reflexivity|vm_compute; auto]).
Qed.

(** C64 is false of MQTT 3 publishers: the only subscriber, reachable, gets nothing. *)
Theorem C64_v3_refuted : forall hash, exists cfg h l w s s' g out,
  published3 hash cfg h l w s s' g out /\ topic_matches "t" (w3_topic w) /\ member h "$share/g/t" 9 /\ reachable g (z_bcast s) 9 /\
  forall c, handed (z_bcast s) (z_bcast s') c [].
Proof.
  intros hash. exists ex_cfg, [Sub "$share/g/t" 9 L1], [], (ex3_w false), ex3_s0. do 3 eexists.
  split; [apply exd_published3; [reflexivity|]; eexists; vm_compute; reflexivity|]. split; [apply exd_matches|]. split; [exists L1; reflexivity|].
  split; [left; cbn; auto|]. intros c. unfold handed, queue_of. cbn. reflexivity.
Qed.

(** C64 is false where a member's session was given up half-way (C28): client "a" was a member,
    left and came back, and the new connection broke before CONNACK; "a" stays in the group,
    and a message chosen for "a" is acknowledged with success and lost (0 is the id of "a") although "b" is there.  [x_pick] chooses the first member. *)
Definition x_group : list bev :=
  ([ETick 100000; x_a true] ++ x_up 0 ++ [x_c5 "b" true 60 None None] ++ x_up 1 ++ [x_sub 0 "$share/g/t"; x_sub 1 "$share/g/t"; x_c5 "c" true 60 None None] ++ x_up 2 ++
   x_down 0 ++ [x_a false; EPut 3; EControl 0; EFail 3])%list.
Theorem C64_dead_member_refuted : exists h b b' s, x_run h b /\ (forall p, In p h -> proper p) /\
  (exists s1, aget 1 (b_tasks b) = Some (TOnline (A5 s1)) /\ keys (s_subs s1) = ["$share/g/t"%string]) /\
  exec x_h5 x_h3 x_pick [x_pub 2 "t"; EFlush 2 0] b = Some (b', [OPkt5 2 (KPuback 7 0)]) /\ aget 2 (b_tasks b') = Some (TOnline (A5 s)) /\ s_bcast s = [] /\
  forall c ch, aget c (b_chans b') = Some ch -> ch_norm ch = [].
Proof.
  assert (X : exists h b, x_run h b /\ (forall p, In p h -> proper p) /\
    (exists s1, aget 1 (b_tasks b) = Some (TOnline (A5 s1)) /\ keys (s_subs s1) = ["$share/g/t"%string]) /\ exists b' s,
    exec x_h5 x_h3 x_pick [x_pub 2 "t"; EFlush 2 0] b = Some (b', [OPkt5 2 (KPuback 7 0)]) /\ aget 2 (b_tasks b') = Some (TOnline (A5 s)) /\ s_bcast s = [] /\
    forall c ch, In (c, ch) (b_chans b') -> ch_norm ch = []).
  { run_of x_group. split; [proper_of|]. split; [eexists; split; vm_compute; reflexivity|]. eexists _, _. split; [vm_compute; reflexivity|].
    split; [vm_compute; reflexivity|]. split; [reflexivity|]. intros c ch I. vm_compute in I.
    repeat (destruct I as [I|I]; [injection I as _ <-; reflexivity|]). destruct I. }
  destruct X as (h & b & R & P & M & b' & s & S & T & E & C). exists h, b, b', s. repeat (split; [assumption|]).
  intros c ch I. apply (C c ch). now apply aget_Some_in.
Qed.

(** The choice may be another one each time: here it goes with the clock, and of two messages
    one is for "a" (id 0) and the other for "b" (id 1). *)
Definition x_turns : draw -> broker -> string -> string -> N := fun _ b _ _ => b_now b.
Definition x_two : list bev :=
  ([ETick 100000; x_a true] ++ x_up 0 ++ [x_c5 "b" true 60 None None] ++ x_up 1 ++ [x_sub 0 "$share/g/t"; x_sub 1 "$share/g/t"; x_c5 "c" true 60 None None] ++ x_up 2 ++
   [x_pub 2 "t"; ETick 1; x_pub 2 "t"])%list.
Example C64_both_get_one : exists h b s, brun x_h5 x_h3 x_turns config_default h b /\ sess_at b 2 = Some (A5 s) /\
  List.length (queue_of (s_bcast s) 0) = 1%nat /\ List.length (queue_of (s_bcast s) 1) = 1%nat.
Proof.
  destruct (trace x_h5 x_h3 x_turns x_two [] (broker_new config_default)) as [[h b]|] eqn:E; [|vm_compute in E; discriminate E].
  exists h, b. pose proof (trace_new x_h5 x_h3 x_turns config_default x_two h b E) as R. vm_compute in E. injection E as E1 E2.
  eexists. split; [exact R|]. rewrite <- E2. split; [reflexivity|]. split; reflexivity.
Qed.

Print Assumptions C64_at_most_one.
Print Assumptions C64_members_only.
Print Assumptions C64_one_gets_it_partial.
Print Assumptions C64_v3_refuted.
Print Assumptions C64_dead_member_refuted.
