(** Property theorems C01 - C05 (routing table). *)
From Coq Require Import List Bool String Ascii NArith.
From Verif Require Import Base TopicModel TopicSpec RouteModel RouteSpec RouteInv.
Import ListNotations.
Local Open Scope string_scope.

(** C01: for every history of subscribe/unsubscribe calls and every topic name,
    the lookup returns exactly the current plain subscriptions whose filter
    matches, each with its latest QoS; no filter and no client of a filter twice. *)
Theorem C01_route_lookup_exact : forall h topic, valid_topic_name topic ->
  (forall f c q, routes_to (rt_run h) topic f c q <->
     plain f /\ topic_matches f topic /\ current h f c = Some q) /\
  NoDup (map c_filter (rt_get_matches (rt_run h) topic)) /\
  (forall ct, In ct (rt_get_matches (rt_run h) topic) -> NoDup (map fst (c_clients ct))).
Proof. exact route_plain_lemma. Qed.
Print Assumptions C01_route_lookup_exact.

Definition ex_hist : list rop :=
  [Sub "a/+" 1 L1; Sub "a/#" 2 L2; Sub "$share/g/a/b" 3 L0; Sub "#" 1 L0; Sub "a/b" 4 L2;
   Unsub "a/b" 4; Sub "a/+" 1 L2; Sub "+/b/c" 5 L1].
Example C01_example :
  valid_topic_name "a/b" /\
  routes_to (rt_run ex_hist) "a/b" "a/+" 1 L2 /\ ~ routes_to (rt_run ex_hist) "a/b" "a/b" 4 L2 /\
  map (fun ct => (c_filter ct, c_clients ct)) (rt_get_matches (rt_run ex_hist) "a/b") =
    [(Some "a/b", []); (Some "a/#", [(2%N, L2)]); (Some "a/+", [(1%N, L2)]); (Some "#", [(1%N, L0)])].
Proof.
  assert (H : valid_topic_name "a/b") by (split; reflexivity).
  split; [exact H|]. split; [|split].
  - eexists. split; [right; right; left; reflexivity|]. split; [reflexivity|]. left; reflexivity.
  - intros R. apply (C01_route_lookup_exact ex_hist "a/b" H) in R. destruct R as (_ & _ & R). vm_compute in R.
    discriminate.
  - vm_compute. reflexivity.
Qed.

(** C02 (routing half): nothing returned for a '$' topic starts with a wildcard,
    whether it is reached as a plain or as a shared subscription. *)
Theorem C02_dollar_topics_hidden : forall h topic ct f, valid_topic_name topic ->
  begins_with_dollar topic -> In ct (rt_get_matches (rt_run h) topic) -> c_filter ct = Some f ->
  ~ begins_with_wildcard f.
Proof. exact route_dollar_lemma. Qed.
Print Assumptions C02_dollar_topics_hidden.

Example C02_example :
  let h := [Sub "#" 1 L0; Sub "+/x" 2 L0; Sub "$SYS/#" 3 L1; Sub "$share/g/#" 4 L1] in
  begins_with_dollar "$SYS/x" /\
  map c_filter (rt_get_matches (rt_run h) "$SYS/x") = [Some "$SYS/#"] /\
  map c_filter (rt_get_matches (rt_run h) "SYS/x") = [Some "#"; Some "+/x"].
Proof. split; [eexists; reflexivity|]. split; vm_compute; reflexivity. Qed.

(** C03, for every history: whatever number the selection uses, it yields one
    client, and that client currently subscribes to this group's filter. *)
Theorem C03_shared_pick_is_current_member : forall h topic inner g s n, valid_topic_name topic ->
  offers_group (rt_run h) topic inner g s ->
  topic_matches inner topic /\ NoDup (map fst (sh_items s)) /\
  (forall c q, In (c, q) (sh_items s) -> exists q', current h (share_filter g inner) c = Some q') /\
  exists c q q', sh_get_by_number s n = Some (c, q) /\ In (c, q) (sh_items s) /\
    current h (share_filter g inner) c = Some q'.
Proof. exact shared_pick_lemma. Qed.
Print Assumptions C03_shared_pick_is_current_member.

(** C03, exact membership and QoS, for histories in which the member in the last
    place never leaves a group of two or more.  Without that hypothesis it is
    false: [C03_shared_members_refuted]. *)
Theorem C03_shared_members_exact_partial : forall h topic g inner c q, ~ last_member_leaves h ->
  valid_topic_name topic -> shared_info (share_filter g inner) = Some (g, inner) ->
  topic_matches inner topic ->
  ((exists s, offers_group (rt_run h) topic inner g s /\ In (c, q) (sh_items s)) <->
   current h (share_filter g inner) c = Some q).
Proof. exact shared_exact_lemma. Qed.
Print Assumptions C03_shared_members_exact_partial.

Definition ex_share : list rop :=
  [Sub "$share/g/a" 1 L1; Sub "$share/g/a" 2 L2; Sub "$share/g/a" 3 L0; Unsub "$share/g/a" 1].
Lemma ex_share_safe : ~ last_member_leaves ex_share.
Proof.
  intros (h1 & f & c & h2 & l & E & _ & Hm & Hl). unfold ex_share in E.
  do 4 (destruct h1 as [|? h1]; [cbn in E; try discriminate E; injection E; intros; subst; cbn in Hm;
    destruct l as [|? [|? [|? [|? l]]]]; cbn in Hm; congruence
    | cbn in E; injection E as <- E]).
  destruct h1; discriminate E.
Qed.
Example C03_example :
  ~ last_member_leaves ex_share /\
  (exists s, offers_group (rt_run ex_share) "a" "a" "g" s /\ sh_items s = [(3%N, L0); (2%N, L2)] /\
     sh_get_by_number s 7 = Some (2%N, L2)) /\
  shared_info (share_filter "g" "a") = Some ("g", "a").
Proof.
  split; [apply ex_share_safe|]. split; [|reflexivity].
  eexists. split; [|split].
  - eexists. split; [left; vm_compute; reflexivity|]. split; [reflexivity|]. left. reflexivity.
  - reflexivity.
  - vm_compute. reflexivity.
Qed.

(** C03 as stated is false: 1 and 2 join, 2 (in the last place) leaves, 3 joins,
    2 joins again.  2 holds a subscription but is in no place of the group, and
    the QoS it asked for was given to client 3. *)
Definition ex_stale : list rop :=
  [Sub "$share/g/a" 1 L1; Sub "$share/g/a" 2 L1; Unsub "$share/g/a" 2;
   Sub "$share/g/a" 3 L0; Sub "$share/g/a" 2 L2].
Theorem C03_shared_members_refuted : exists h topic g inner,
  valid_topic_name topic /\ shared_info (share_filter g inner) = Some (g, inner) /\
  topic_matches inner topic /\
  exists s, offers_group (rt_run h) topic inner g s /\
    (exists c q, current h (share_filter g inner) c = Some q /\ forall q', ~ In (c, q') (sh_items s)) /\
    (exists c q q', current h (share_filter g inner) c = Some q /\ In (c, q') (sh_items s) /\ q <> q').
Proof.
  exists ex_stale, "a", "g", "a". split; [split; reflexivity|]. split; [reflexivity|].
  split; [split; [constructor 4; [discriminate|discriminate|constructor] | intros [r Hr]; discriminate]|].
  eexists. split; [|split].
  - eexists. split; [left; vm_compute; reflexivity|]. split; [reflexivity|]. left. reflexivity.
  - exists 2%N, L2. split; [reflexivity|]. intros q'. cbn. intros [H|[H|[]]]; congruence.
  - exists 3%N, L0, L2. split; [reflexivity|]. split; [cbn; auto|congruence].
Qed.
Print Assumptions C03_shared_members_refuted.

(** C04: no step of a history panics unless the trigger of the refutation below
    occurred before; steps on plain filters never panic. *)
Theorem C04_no_panic_partial : forall h, ~ last_member_leaves h ->
  forall h1 o h2, h = (h1 ++ o :: h2)%list -> snd (rt_step (rt_run h1) o) = false.
Proof. exact (fun h H => proj2 (rexact_run h H)). Qed.
Print Assumptions C04_no_panic_partial.

Theorem C04_plain_no_panic : forall h o, plain (match o with Sub f _ _ | Unsub f _ => f end) ->
  snd (rt_step (rt_run h) o) = false.
Proof. exact route_plain_no_panic_lemma. Qed.
Print Assumptions C04_plain_no_panic.

Example C04_example : ~ last_member_leaves ex_share /\ plain "a/+" /\
  snd (rt_step (rt_run ex_stale) (Unsub "a/+" 9)) = false.
Proof. split; [apply ex_share_safe|]. split; reflexivity. Qed.

(** C04 as stated is false: two clients join a group, the second leaves, then
    subscribes again (or unsubscribes again): an index is out of range. *)
Theorem C04_no_panic_refuted :
  (exists h o, snd (rt_step (rt_run h) o) = true /\ exists f c q, o = Sub f c q) /\
  (exists h o, snd (rt_step (rt_run h) o) = true /\ exists f c, o = Unsub f c).
Proof.
  split.
  - exists [Sub "$share/g/a" 1 L1; Sub "$share/g/a" 2 L1; Unsub "$share/g/a" 2], (Sub "$share/g/a" 2 L1).
    split; [vm_compute; reflexivity|]. do 3 eexists. reflexivity.
  - exists [Sub "$share/g/a" 1 L1; Sub "$share/g/a" 2 L1; Sub "$share/g/a" 3 L1;
            Unsub "$share/g/a" 3], (Unsub "$share/g/a" 3).
    split; [vm_compute; reflexivity|]. do 2 eexists. reflexivity.
Qed.
Print Assumptions C04_no_panic_refuted.

(** C05: every entry returned is non-empty and carries its filter; once nobody
    subscribes to anything, the table is empty. *)
Theorem C05_no_garbage : forall h,
  (forall topic ct, valid_topic_name topic -> In ct (rt_get_matches (rt_run h) topic) ->
     exists f, c_filter ct = Some f /\ content_is_empty ct = false) /\
  ((forall f c, current h f c = None) -> rt_run h = rt_empty).
Proof. exact (fun h => conj (fun topic ct => lookup_has_filter h topic ct) (route_empty_lemma h)). Qed.
Print Assumptions C05_no_garbage.

Definition ex_gone : list rop :=
  [Sub "a/b" 1 L1; Sub "$share/g/a" 2 L1; Sub "a/b/#" 3 L1; Unsub "a/b" 1; Unsub "a/b/#" 3;
   Unsub "$share/g/a" 2].
Example C05_example : (forall f c, current ex_gone f c = None) /\ rt_run (firstn 3 ex_gone) <> rt_empty.
Proof.
  split; [|vm_compute; discriminate].
  intros f c. unfold current, ex_gone. cbn [fold_left].
  destruct (String.eqb "$share/g/a" f && N.eqb 2 c), (String.eqb "a/b/#" f && N.eqb 3 c),
    (String.eqb "a/b" f && N.eqb 1 c); reflexivity.
Qed.
