(** Property theorems C65 and C66: publishers and subscribers that run at the
    same time. *)
From Coq Require Import List Bool String Ascii NArith.
From Verif Require Import Base TopicModel TopicSpec MsgModel RouteModel RouteSpec RetainModel RetainSpec
  RaceModel RaceSpec RaceRun RaceLast.
Import ListNotations.
Local Open Scope string_scope.
Local Open Scope list_scope.

(** C65, whoever gets the message is entitled to it: in every interleaving, a
    client is given the message because of a subscription that matches the topic
    and that it held, with that QoS, at a moment after the publish had begun. *)
Theorem C65_only_current : forall ts tr w i b x f c q, Forall fresh ts -> races ts tr w ->
  nth_error ts i = Some (TPub b x) -> valid_topic_name (rc_topic x) -> gave tr i f c q ->
  plain f /\ topic_matches f (rc_topic x) /\
  exists before after, tr = before ++ after /\ ~ idle before i /\ current (route_calls before) f c = Some q.
Proof. intros ts tr w i b x f c q F R. exact (race_gave ts F tr w i f c q b x R). Qed.
Print Assumptions C65_only_current.

(** C65, the same for every set of subscribers read, shared groups included: it
    is one that a lookup at that very moment returns (so C01 to C03 apply). *)
Theorem C65_reads_are_lookups : forall ts before i ct after w, Forall fresh ts ->
  races ts (before ++ (i, VRead ct) :: after) w ->
  exists b x, nth_error ts i = Some (TPub b x) /\
    (valid_topic_name (rc_topic x) -> In ct (rt_get_matches (rt_run (route_calls before)) (rc_topic x))).
Proof. intros ts t1 i ct t2 w F R. exact (race_read ts F _ w t1 i ct t2 R eq_refl). Qed.
Print Assumptions C65_reads_are_lookups.

(** C65, nobody is left out: a client that holds one matching plain subscription
    from before the publish begins until it is done is given the message. *)
Theorem C65_holders_get_it_partial : forall ts before during w i b x f c, Forall fresh ts ->
  races ts (before ++ during) w -> published w i -> nth_error ts i = Some (TPub b x) ->
  valid_topic_name (rc_topic x) -> plain f -> topic_matches f (rc_topic x) -> idle before i ->
  (forall d1 d2, during = d1 ++ d2 -> current (route_calls (before ++ d1)) f c <> None) ->
  exists q, gave (before ++ during) i f c q.
Proof. intros ts a z w i b x f c F R P B V PL M. exact (race_no_miss ts F _ w i b x f c a z R P B V PL M eq_refl). Qed.
Print Assumptions C65_holders_get_it_partial.

(** C65, each matching filter counts once. *)
Theorem C65_filter_once : forall ts tr w i b x, Forall fresh ts -> races ts tr w -> published w i ->
  nth_error ts i = Some (TPub b x) -> valid_topic_name (rc_topic x) -> NoDup (map c_filter (reads_by i tr)).
Proof. intros ts tr w i b x F. exact (race_once ts F tr w i b x). Qed.
Print Assumptions C65_filter_once.

(** C65, a publish during which the routing table does not change does what the
    atomic lookup of RouteModel says. *)
Theorem C65_undisturbed : forall ts before during w i b x, Forall fresh ts -> races ts (before ++ during) w ->
  published w i -> nth_error ts i = Some (TPub b x) -> idle before i -> route_calls during = [] ->
  reads_by i (before ++ during) = rt_get_matches (rt_run (route_calls before)) (rc_topic x).
Proof. intros ts a z w i b x F R P B. exact (race_alone ts F _ w i b x a z R P B eq_refl). Qed.
Print Assumptions C65_undisturbed.

(** C65, a publish panics only if somebody's matching subscription is dropped
    while the publish is under way. *)
Theorem C65_no_panic_partial : forall ts before during i after w b x, Forall fresh ts ->
  races ts ((before ++ during) ++ (i, VPanic) :: after) w ->
  nth_error ts i = Some (TPub b x) -> valid_topic_name (rc_topic x) -> idle before i ->
  exists j f c, In (j, VRoute (Unsub f c)) during /\ topic_matches (bare f) (rc_topic x).
Proof. intros ts a z i t2 w b x F R B V. exact (race_panic ts F _ w (a ++ z) i t2 b x a z R eq_refl B V eq_refl). Qed.
Print Assumptions C65_no_panic_partial.

Definition rx (payload : string) : rcontent := RContent "p" L1 "a/b" payload None 10.
Ltac tm := split; [repeat (constructor; try discriminate)|intros [r H]; discriminate H].
Ltac play_of ts s :=
  let r := eval vm_compute in (play s [] (world_new ts)) in
  match r with Some (?tr, ?w) => exists tr, w; split; [apply (play_new ts s); vm_compute; reflexivity|] end.

(** A publish with three subscribers and an unsubscribe in the middle: the task
    reads "a/b" (client 1), then client 2 leaves "a/+", then it reads "a/+"
    (client 3 only). *)
Definition rx_tasks : list task :=
  [TSub "a/b" 1 L1 false; TSub "a/+" 2 L2 false; TSub "a/+" 3 L0 false; TPub false (rx "m"); TUnsub "a/+" 2].
Example C65_example : exists tr w, races rx_tasks tr w /\ Forall fresh rx_tasks /\ published w 3 /\
  map (fun ct => (c_filter ct, c_clients ct)) (reads_by 3 tr) = [(Some "a/b", [(1%N, L1)]); (Some "a/+", [(3%N, L0)])] /\
  gave tr 3 "a/b" 1 L1 /\ valid_topic_name "a/b".
Proof.
  play_of rx_tasks [0; 1; 2; 3; 3; 3; 4; 3]%nat. split; [repeat constructor|]. split; [eexists; vm_compute; reflexivity|].
  split; [vm_compute; reflexivity|]. split; [|split; reflexivity].
  eexists. split; [do 5 right; left; reflexivity|]. split; [reflexivity|left; reflexivity].
Qed.

(** The hypotheses of [C65_holders_get_it_partial] in that run: client 1, after
    the three subscriptions. *)
Example C65_holder : exists before during w, races rx_tasks (before ++ during) w /\ published w 3 /\ idle before 3 /\
  plain "a/b" /\ topic_matches "a/b" "a/b" /\ List.length during = 5%nat /\
  forall d1 d2, during = d1 ++ d2 -> current (route_calls (before ++ d1)) "a/b" 1 <> None.
Proof.
  let r := eval vm_compute in (play [0; 1; 2; 3; 3; 3; 4; 3]%nat [] (world_new rx_tasks)) in
  match r with Some (?a :: ?b :: ?c :: ?tr, ?w) => exists [a; b; c], tr, w end.
  split; [apply (play_new rx_tasks [0; 1; 2; 3; 3; 3; 4; 3]%nat); vm_compute; reflexivity|].
  split; [eexists; reflexivity|]. split; [intros e [H|[H|[H|[]]]]; discriminate H|]. split; [reflexivity|].
  split; [tm|]. split; [reflexivity|].
  intros d1 d2 E. do 6 (destruct d1 as [|? d1]; [vm_compute; discriminate|cbn in E; try (injection E as <- E)]). discriminate E.
Qed.

(** C65 in full is false: the publish panics (the connection's task dies) when
    the last subscriber of a matching filter leaves between the lookup and the
    reading of that filter's subscribers. *)
Ltac now_play ts s :=
  let r := eval vm_compute in (play s [] (world_new ts)) in
  match r with Some (?tr, ?w) => exists ts, tr, w; split; [repeat constructor|split; [apply (play_new ts s); vm_compute; reflexivity|]] end.

Theorem C65_no_panic_refuted : exists ts tr w, Forall fresh ts /\ races ts tr w /\
  exists i x, nth_error ts i = Some (TPub false x) /\ valid_topic_name (rc_topic x) /\ In (i, VPanic) tr /\ panicked w i.
Proof.
  now_play [TSub "a/b" 1 L1 false; TPub false (rx "m"); TUnsub "a/b" 1] [0; 1; 1; 2; 1]%nat.
  exists 1%nat, (rx "m"). split; [reflexivity|]. split; [split; reflexivity|]. split; [do 4 right; left; reflexivity|reflexivity].
Qed.
Print Assumptions C65_no_panic_refuted.

(** C65 in full is false: after such a panic the publish is over, and another
    client, which never touched its subscription, has been given nothing. *)
Theorem C65_holders_get_it_refuted : exists ts tr w, Forall fresh ts /\ races ts tr w /\
  exists i x c before during, nth_error ts i = Some (TPub false x) /\ valid_topic_name (rc_topic x) /\
  race_step i w = None /\ tr = before ++ during /\ idle before i /\ topic_matches "a/+" (rc_topic x) /\
  (forall d1 d2, during = d1 ++ d2 -> current (route_calls (before ++ d1)) "a/+" c = Some L1) /\
  (forall f q, ~ gave tr i f c q).
Proof.
  now_play [TSub "a/b" 1 L1 false; TSub "a/+" 2 L1 false; TPub false (rx "m"); TUnsub "a/b" 1] [0; 1; 2; 2; 3; 2]%nat.
  match goal with |- exists i x c before during, _ /\ _ /\ _ /\ ?a :: ?b :: ?tr = _ /\ _ => exists 2%nat, (rx "m"), 2%N, [a; b], tr end.
  split; [reflexivity|]. split; [split; reflexivity|]. split; [vm_compute; reflexivity|]. split; [reflexivity|].
  split; [intros e [H|[H|[]]]; discriminate H|]. split; [tm|]. split.
  - intros d1 d2 E. do 5 (destruct d1 as [|? d1]; [vm_compute; reflexivity|cbn in E; try (injection E as <- E)]). discriminate E.
  - intros f q (ct & I & _). do 6 (destruct I as [I|I]; [discriminate I|]). destruct I.
Qed.
Print Assumptions C65_holders_get_it_refuted.

(** C65 in full is false: a client that changes from one matching filter to
    another, new one first, so that it is covered at every moment, can miss a
    message although nothing panics. *)
Theorem C65_covered_refuted : exists ts tr w, Forall fresh ts /\ races ts tr w /\
  exists i x c before during, nth_error ts i = Some (TPub false x) /\ valid_topic_name (rc_topic x) /\
  published w i /\ tr = before ++ during /\ idle before i /\
  topic_matches "a/b" (rc_topic x) /\ topic_matches "a/+" (rc_topic x) /\
  (forall d1 d2, during = d1 ++ d2 ->
     current (route_calls (before ++ d1)) "a/b" c = Some L1 \/ current (route_calls (before ++ d1)) "a/+" c = Some L1) /\
  (forall f q, ~ gave tr i f c q).
Proof.
  now_play [TSub "a/b" 1 L1 false; TSub "a/b" 9 L1 false; TPub false (rx "m"); TSub "a/+" 1 L1 false; TUnsub "a/b" 1] [0; 1; 2; 2; 3; 4; 2]%nat.
  match goal with |- exists i x c before during, _ /\ _ /\ _ /\ ?a :: ?b :: ?tr = _ /\ _ => exists 2%nat, (rx "m"), 1%N, [a; b], tr end.
  split; [reflexivity|]. split; [split; reflexivity|]. split; [eexists; reflexivity|]. split; [reflexivity|].
  split; [intros e [H|[H|[]]]; discriminate H|].
  split; [tm|]. split; [tm|]. split.
  - intros d1 d2 E. do 6 (destruct d1 as [|? d1]; [vm_compute; tauto|cbn in E; try (injection E as <- E)]). discriminate E.
  - intros f q (ct & I & _ & C). do 6 (destruct I as [I|I]; [discriminate I|]). destruct I as [I|[]]. injection I as <-.
    destruct C as [C|[]]. discriminate C.
Qed.
Print Assumptions C65_covered_refuted.

(** C66: a client that subscribes while a retained message is being published
    does not fall between the two: it is given the message by the publisher or
    finds it among the retained ones.  (It stays subscribed, and the message is
    not replaced.) *)
Theorem C66_never_missed : forall ts tr w i s x f c q, Forall fresh ts -> races ts tr w ->
  nth_error ts i = Some (TPub true x) -> nth_error ts s = Some (TSub f c q true) ->
  rc_payload x <> "" -> valid_topic_name (rc_topic x) -> valid_filter f -> plain f -> topic_matches f (rc_topic x) ->
  published w i -> nth_error (w_tasks w) s = Some TEnd ->
  (forall u v, tr = u ++ v -> In (s, VRoute (Sub f c q)) u -> current (route_calls u) f c <> None) ->
  (forall u v, tr = u ++ v -> In (i, VKeep (Some (RIns x))) u -> retained (retain_calls u) (rc_topic x) = Some x) ->
  (exists q', gave tr i f c q') \/ (exists l, In (s, VRet l) tr /\ In x l).
Proof. intros ts tr w i s x f c q F. exact (race_retained ts F tr w i s x f c q). Qed.
Print Assumptions C66_never_missed.

(** Both ways happen: the subscriber comes after the lookup, or before it. *)
Example C66_late : exists ts tr w, Forall fresh ts /\ races ts tr w /\
  nth_error ts 0 = Some (TPub true (rx "m")) /\ nth_error ts 1 = Some (TSub "a/+" 1 L1 true) /\ valid_filter "a/+" /\
  published w 0 /\ nth_error (w_tasks w) 1 = Some TEnd /\ In (1%nat, VRet [rx "m"]) tr /\ reads_by 0 tr = [] /\
  (forall u v, tr = u ++ v -> In (1%nat, VRoute (Sub "a/+" 1 L1)) u -> current (route_calls u) "a/+" 1 <> None) /\
  (forall u v, tr = u ++ v -> In (0%nat, VKeep (Some (RIns (rx "m")))) u -> retained (retain_calls u) "a/b" = Some (rx "m")).
Proof.
  now_play [TPub true (rx "m"); TSub "a/+" 1 L1 true] [0; 0; 1; 1]%nat.
  split; [reflexivity|]. split; [reflexivity|]. split; [repeat constructor; try (left; reflexivity); intros H; discriminate H|].
  split; [eexists; reflexivity|]. split; [reflexivity|]. split; [do 3 right; left; reflexivity|]. split; [reflexivity|]. split.
  - intros u v E I. do 3 (destruct u as [|? u]; [repeat (destruct I as [I|I]; [discriminate I|]); destruct I|cbn in E; injection E as <- E]).
    destruct u as [|? u]; [vm_compute; discriminate|]. cbn in E. injection E as <- E.
    destruct u as [|? u]; [vm_compute; discriminate|]. discriminate E.
  - intros u v E I. destruct u as [|? u]; [destruct I|]. cbn in E. injection E as <- E. clear I.
    do 4 (destruct u as [|? u]; [vm_compute; reflexivity|cbn in E; try (injection E as <- E)]). discriminate E.
Qed.

(** C66 "exactly once" is false: it may be given the message twice. *)
Theorem C66_once_refuted : exists ts tr w, Forall fresh ts /\ races ts tr w /\
  exists x, nth_error ts 0 = Some (TPub true x) /\ nth_error ts 1 = Some (TSub "a/+" 1 L1 true) /\
  published w 0 /\ gave tr 0 "a/+" 1 L1 /\ In (1%nat, VRet [x]) tr.
Proof.
  now_play [TPub true (rx "m"); TSub "a/+" 1 L1 true] [1; 0; 0; 0; 1]%nat.
  exists (rx "m"). split; [reflexivity|]. split; [reflexivity|]. split; [eexists; reflexivity|]. split.
  - eexists. split; [do 3 right; left; reflexivity|]. split; [reflexivity|left; reflexivity].
  - do 4 right. left. reflexivity.
Qed.
Print Assumptions C66_once_refuted.

(** C66 "the retained message is the one handed out last" is false: with two
    publishers the subscriber is given "new" first and "old" last, while "new"
    stays retained for everybody who subscribes later. *)
Theorem C66_last_is_retained_refuted : exists ts tr w, Forall fresh ts /\ races ts tr w /\
  exists older newer, nth_error ts 1 = Some (TPub true older) /\ nth_error ts 2 = Some (TPub true newer) /\
  rc_topic older = rc_topic newer /\ rc_payload older <> rc_payload newer /\ published w 1 /\ published w 2 /\
  retained (retain_calls tr) (rc_topic newer) = Some newer /\
  exists t1 ct t2 ct' t3, tr = t1 ++ (2%nat, VRead ct) :: t2 ++ (1%nat, VRead ct') :: t3 /\
    In (7%N, L1) (c_clients ct) /\ In (7%N, L1) (c_clients ct').
Proof.
  now_play [TSub "a/b" 7 L1 false; TPub true (rx "old"); TPub true (rx "new")] [0; 1; 2; 2; 2; 1; 1]%nat.
  exists (rx "old"), (rx "new"). split; [reflexivity|]. split; [reflexivity|]. split; [reflexivity|]. split; [intros H; discriminate H|].
  split; [eexists; reflexivity|]. split; [eexists; reflexivity|]. split; [reflexivity|].
  match goal with |- exists t1 ct t2 ct' t3, ?a :: ?b :: ?c :: ?d :: (_, VRead ?x) :: ?e :: (_, VRead ?y) :: _ = _ /\ _ => exists [a; b; c; d], x, [e], y, [] end.
  split; [reflexivity|]. split; left; reflexivity.
Qed.
Print Assumptions C66_last_is_retained_refuted.
