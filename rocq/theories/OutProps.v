(** C08 - C15: outgoing QoS 1/2 messages, for MQTT 5 and MQTT 3.

    A run is any list of operations on the outgoing side of a session (a message
    arrives, [handle_pendings] runs, an acknowledgement arrives, the client
    reconnects), with any clock readings above 0; [snd (run5 ...)] is the log of
    what happened.  Vocabulary: OutSpec.v.

    Several theorems carry the hypothesis [no_reuse log]: no message was queued
    under an identifier still held by an unfinished one.  C10 says when that is
    guaranteed and shows that it can fail after 65535 arrivals of which some were
    dropped; C08_window_refuted shows what goes wrong then.  These theorems are
    named _partial. *)
From Coq Require Import List Bool NArith Lia String.
From Verif Require Import Base MsgModel PendingModel AliasModel OutModel OutSpec OutProofs OutInv OutLemmas OutFacts.
Import List ListNotations.
Local Open Scope N_scope.
Local Open Scope list_scope.

(** ** Example runs that meet the hypotheses *)
Definition ex_pub (q : qos) (e : option N) (s : string) : pub5 := Pub5 "a/b" q false s (PProps e None [] "").
(** Receive Maximum 2, queue limit 4, resend timeout 5 s, no aliases. *)
Definition ex_ops : list op5 :=
  [O5Msg 100 (ex_pub L1 None "x"); O5Flush 100; O5Msg 101 (ex_pub L2 (Some 60) "y"); O5Flush 101;
   O5Msg 102 (ex_pub L1 (Some 3) "z"); O5Flush 102; O5Ack AckPubrec 103 2; O5Flush 105;
   O5Ack AckPuback 106 1; O5Flush 106; O5Resume 7 0; O5Flush 107; O5Ack AckPubcomp 108 2;
   O5Msg 108 (ex_pub L1 None "w"); O5Flush 108; O5Ack AckPuback 109 77].
Definition ex_log := snd (run5 2 4 5 0 ex_ops).
Definition ex_pub3 (q : qos) (s : string) : pub3 := Pub3 "a/b" q false s.
Definition ex_ops3 : list op3 :=
  [O3Msg 100 (ex_pub3 L1 "x"); O3Flush 100; O3Msg 101 (ex_pub3 L2 "y"); O3Flush 101;
   O3Msg 102 (ex_pub3 L1 "z"); O3Flush 102; O3Ack AckPubrec 103 2; O3Flush 105;
   O3Ack AckPuback 106 1; O3Flush 106; O3Resume; O3Flush 107; O3Ack AckPubcomp 108 2].
Definition ex_log3 := snd (run3 2 4 5 ex_ops3).

(** ** C10 Packet identifiers *)
Theorem C10_pid_unique_partial rm max timeout amax ops :
  Forall op5_ok ops ->
  let o := fst (run5 rm max timeout amax ops) in
  let log := snd (run5 rm max timeout amax ops) in
  (max <= 65535 /\ nothing_dropped log) \/ recent_enough log ->
  no_reuse log /\ NoDup (held (o5_q o)).
Proof.
  intros ok o log H. assert (K : no_reuse log).
  { destruct H as [[H1 H2]|H]; [now apply c10_nodrop_v5|now apply c10_recent_v5]. }
  split; [exact K|now apply c10_nodup_v5].
Qed.
Print Assumptions C10_pid_unique_partial.

Theorem C10_pid_unique_v3_partial rm max timeout ops :
  Forall op3_ok ops ->
  let o := fst (run3 rm max timeout ops) in
  let log := snd (run3 rm max timeout ops) in
  (max <= 65535 /\ nothing_dropped log) \/ recent_enough log ->
  no_reuse log /\ NoDup (held (o3_q o)).
Proof.
  intros ok o log H. assert (K : no_reuse log).
  { destruct H as [[H1 H2]|H]; [now apply c10_nodrop_v3|now apply c10_recent_v3]. }
  split; [exact K|now apply c10_nodup_v3].
Qed.
Print Assumptions C10_pid_unique_v3_partial.

Theorem C10_pid_nonzero rm max timeout amax ops p :
  Forall op5_ok ops -> In p (arrivals (snd (run5 rm max timeout amax ops))) -> 1 <= p <= 65535.
Proof. intros ok. now apply c10_range_v5. Qed.
Print Assumptions C10_pid_nonzero.
Theorem C10_pid_nonzero_v3 rm max timeout ops p :
  Forall op3_ok ops -> In p (arrivals (snd (run3 rm max timeout ops))) -> 1 <= p <= 65535.
Proof. intros ok. now apply c10_range_v3. Qed.
Print Assumptions C10_pid_nonzero_v3.

Lemma ex_ok : Forall op5_ok ex_ops.
Proof. repeat constructor; discriminate. Qed.
Lemma ex_ok3 : Forall op3_ok ex_ops3.
Proof. repeat constructor; discriminate. Qed.
Example C10_pid_unique_partial_example : 4 <= 65535 /\ nothing_dropped ex_log /\ no_reuse ex_log /\
  held (o5_q (fst (run5 2 4 5 0 (firstn 5 ex_ops)))) = [1; 2; 3].
Proof.
  assert (H : nothing_dropped ex_log) by (intros t p m Hi; vm_compute in Hi; repeat destruct Hi as [Hi|Hi]; try discriminate; exact Hi).
  split; [lia|]. split; [exact H|]. split; [|reflexivity].
  apply (C10_pid_unique_partial 2 4 5 0 ex_ops ex_ok). left. split; [lia|exact H].
Qed.
Example C10_pid_unique_v3_partial_example : nothing_dropped ex_log3 /\ no_reuse ex_log3 /\
  held (o3_q (fst (run3 2 4 5 (firstn 5 ex_ops3)))) = [1; 2; 3].
Proof.
  assert (H : nothing_dropped ex_log3) by (intros t p m Hi; vm_compute in Hi; repeat destruct Hi as [Hi|Hi]; try discriminate; exact Hi).
  split; [exact H|]. split; [|reflexivity].
  apply (C10_pid_unique_v3_partial 2 4 5 ex_ops3 ex_ok3). left. split; [lia|exact H].
Qed.
Example C10_pid_nonzero_example : arrivals ex_log = [1; 2; 3; 4] /\ arrivals ex_log3 = [1; 2; 3].
Proof. split; reflexivity. Qed.

(** The full statement is false: a dropped message still consumes an identifier,
    so two queued messages can carry the same one. *)
Definition wrap_ops (n : nat) (last : list op5) : list op5 :=
  O5Msg 1000 (ex_pub L1 None "a") :: O5Msg 1000 (ex_pub L1 None "b") :: O5Flush 1000 ::
  repeat (O5Msg 1000 (ex_pub L1 None "dropped")) n ++ last.
Lemma wrap_ops_ok n last : Forall op5_ok last -> Forall op5_ok (wrap_ops n last).
Proof.
  intros H. unfold wrap_ops. constructor; [split; [reflexivity|discriminate]|]. constructor; [split; [reflexivity|discriminate]|].
  constructor; [reflexivity|]. apply Forall_app. split; [|exact H].
  apply Forall_forall. intros x Hx. apply repeat_spec in Hx. subst. split; [reflexivity|discriminate].
Qed.
Lemma not_nodup (l l' : list N) : l = l' -> ~ NoDup l' -> ~ NoDup l.
Proof. now intros ->. Qed.
Theorem C10_pid_unique_refuted : exists rm max timeout amax ops,
  max <= 65535 /\ Forall op5_ok ops /\ ~ NoDup (held (o5_q (fst (run5 rm max timeout amax ops)))).
Proof.
  exists 2, 2, 5, 0, (wrap_ops (N.to_nat 65534) [O5Ack AckPuback 1000 1; O5Msg 1000 (ex_pub L1 None "c")]).
  split; [lia|]. split; [apply wrap_ops_ok; repeat constructor; discriminate|].
  rewrite run5_fst. apply (not_nodup _ [2; 2]); [vm_cast_no_check (eq_refl [2; 2])|].
  intros H. inversion H as [|? ? H1 _]; subst. apply H1. now left.
Qed.
Print Assumptions C10_pid_unique_refuted.

(** ** C08 In-flight window *)
Theorem C08_window_partial rm max timeout amax ops :
  Forall op5_ok ops ->
  let log := snd (run5 rm max timeout amax ops) in
  no_reuse log -> N.of_nat (List.length (outstanding wpid5 log)) <= receive_max log.
Proof. intros ok log. exact (c08_v5 rm max timeout amax ops ok). Qed.
Print Assumptions C08_window_partial.
Theorem C08_window_v3_partial rm max timeout ops :
  Forall op3_ok ops ->
  let log := snd (run3 rm max timeout ops) in
  no_reuse log -> N.of_nat (List.length (outstanding wpid3 log)) <= receive_max log.
Proof. intros ok log. exact (c08_v3 rm max timeout ops ok). Qed.
Print Assumptions C08_window_v3_partial.
(** The limit is reached: two messages are outstanding, a third waits. *)
Example C08_window_partial_example :
  Forall op5_ok ex_ops /\ no_reuse ex_log /\
  outstanding wpid5 (snd (run5 2 4 5 0 (firstn 6 ex_ops))) = [2; 1] /\
  receive_max (snd (run5 2 4 5 0 (firstn 6 ex_ops))) = 2.
Proof. split; [exact ex_ok|]. split; [apply C10_pid_unique_partial_example|]. split; reflexivity. Qed.
Example C08_window_v3_partial_example :
  Forall op3_ok ex_ops3 /\ no_reuse ex_log3 /\
  outstanding wpid3 (snd (run3 2 4 5 (firstn 6 ex_ops3))) = [2; 1].
Proof. split; [exact ex_ok3|]. split; [apply C10_pid_unique_v3_partial_example|]. reflexivity. Qed.

(** Without [no_reuse] the window can be exceeded: a waiting message "c" that
    shares identifier 2 with the transmitted "b" expires, and its expiry removes
    "b" from the queue instead. *)
Theorem C08_window_refuted : exists rm max timeout amax ops,
  max <= 65535 /\ Forall op5_ok ops /\
  let log := snd (run5 rm max timeout amax ops) in
  receive_max log < N.of_nat (List.length (outstanding wpid5 log)).
Proof.
  exists 2, 2, 5, 0, (wrap_ops (N.to_nat 65534) [O5Ack AckPuback 1000 1; O5Msg 1000 (ex_pub L1 (Some 1) "c");
    O5Flush 1001; O5Flush 1001; O5Msg 1001 (ex_pub L1 None "d"); O5Msg 1001 (ex_pub L1 None "e"); O5Flush 1001]).
  split; [lia|]. split; [apply wrap_ops_ok; repeat constructor; discriminate|].
  cbn zeta. rewrite run5_snd. apply N.ltb_lt. vm_cast_no_check (eq_refl true).
Qed.
Print Assumptions C08_window_refuted.

(** ** C09 Order of first transmissions *)
Theorem C09_order_partial rm max timeout amax ops :
  Forall op5_ok ops ->
  let log := snd (run5 rm max timeout amax ops) in
  no_reuse log ->
  in_order carries5 (first_sent wpid5 w5_dup log) (queued log) /\
  (no_expiry_event log -> no_early_ack wpid5 w5_dup carries5 lifetime5 timeout log ->
   exists sent_ones waiting, queued log = sent_ones ++ waiting /\
     Forall2 (transmits carries5) (first_sent wpid5 w5_dup log) sent_ones).
Proof. intros ok log H. split; [now apply c09_v5|now apply c09_all_v5]. Qed.
Print Assumptions C09_order_partial.
Theorem C09_order_v3_partial rm max timeout ops :
  Forall op3_ok ops ->
  let log := snd (run3 rm max timeout ops) in
  no_reuse log ->
  in_order carries3 (first_sent wpid3 w3_dup log) (queued log) /\
  (no_expiry_event log -> no_early_ack wpid3 w3_dup carries3 lifetime3 timeout log ->
   exists sent_ones waiting, queued log = sent_ones ++ waiting /\
     Forall2 (transmits carries3) (first_sent wpid3 w3_dup log) sent_ones).
Proof. intros ok log H. split; [now apply c09_v3|now apply c09_all_v3]. Qed.
Print Assumptions C09_order_v3_partial.
Example C09_order_partial_example :
  map (fun x => snd (fst x)) (first_sent wpid5 w5_dup ex_log) = [1; 2; 4] /\
  map (fun x => snd (fst x)) (queued ex_log) = [1; 2; 3; 4].
Proof. split; reflexivity. Qed.
Example C09_order_v3_partial_example :
  map (fun x => snd (fst x)) (first_sent wpid3 w3_dup ex_log3) = [1; 2; 3] /\ no_expiry_event ex_log3.
Proof. split; [reflexivity|]. intros t p Hi; vm_compute in Hi; repeat destruct Hi as [Hi|Hi]; try discriminate; exact Hi. Qed.

(** ** C11 Retransmission discipline: every identifier follows the automaton
    [lstep] of OutSpec.v along the whole log. *)
Theorem C11_retransmission_partial rm max timeout amax ops :
  Forall op5_ok ops ->
  let log := snd (run5 rm max timeout amax ops) in
  no_reuse log -> forall p, exists st, life wpid5 w5_dup carries5 lifetime5 timeout p log st.
Proof. intros ok log. exact (c11_v5 rm max timeout amax ops ok). Qed.
Print Assumptions C11_retransmission_partial.
Theorem C11_retransmission_v3_partial rm max timeout ops :
  Forall op3_ok ops ->
  let log := snd (run3 rm max timeout ops) in
  no_reuse log -> forall p, exists st, life wpid3 w3_dup carries3 lifetime3 timeout p log st.
Proof. intros ok log. exact (c11_v3 rm max timeout ops ok). Qed.
Print Assumptions C11_retransmission_v3_partial.
(** The example transmits message 1 at 100 (DUP=0) and again at 105 (DUP=1), and
    PUBREL 2 after PUBREC. *)
Example C11_retransmission_partial_example :
  map (fun e => match e with
                | ESent t (SPub w) => Some (t, wpid5 w, Some (w5_dup w))
                | ESent t (SRel p) => Some (t, Some p, None)
                | _ => None end)
      (filter (fun e => match e with ESent _ _ => true | _ => false end) ex_log) =
  [Some (100, Some 1, Some false); Some (101, Some 2, Some false); Some (105, Some 1, Some true);
   Some (107, Some 2, None); Some (108, Some 4, Some false)].
Proof. reflexivity. Qed.

(** ** C12 Bounded queue *)
Theorem C12_queue_bounded rm max timeout amax ops :
  Forall op5_ok ops -> N.of_nat (List.length (pq (o5_q (fst (run5 rm max timeout amax ops))))) <= max.
Proof. intros ok. now apply c12_bound_v5. Qed.
Print Assumptions C12_queue_bounded.
Theorem C12_queue_bounded_v3 rm max timeout ops :
  Forall op3_ok ops -> N.of_nat (List.length (pq (o3_q (fst (run3 rm max timeout ops))))) <= max.
Proof. intros ok. now apply c12_bound_v3. Qed.
Print Assumptions C12_queue_bounded_v3.
(** A message is dropped exactly when the queue, without finished entries at its
    front, is full; the queue is not touched otherwise. *)
Theorem C12_drop_when_full now x o o' dropped :
  out5_push now x o = (o', dropped) ->
  (dropped = true <-> pq_max (o5_q o) <= N.of_nat (List.length (drop_done (pq (o5_q o))))) /\
  (dropped = true -> pq (o5_q o') = drop_done (pq (o5_q o)) /\ held (o5_q o') = held (o5_q o)) /\
  (dropped = false -> held (o5_q o') = held (o5_q o) ++ [o5_next o]).
Proof. apply c12_push_v5. Qed.
Print Assumptions C12_drop_when_full.
Theorem C12_drop_when_full_v3 now x o o' dropped :
  out3_push now x o = (o', dropped) ->
  (dropped = true <-> pq_max (o3_q o) <= N.of_nat (List.length (drop_done (pq (o3_q o))))) /\
  (dropped = true -> pq (o3_q o') = drop_done (pq (o3_q o)) /\ held (o3_q o') = held (o3_q o)) /\
  (dropped = false -> held (o3_q o') = held (o3_q o) ++ [o3_next o]).
Proof. apply c12_push_v3. Qed.
Print Assumptions C12_drop_when_full_v3.
(** In terms of the history: at a drop, the limit's worth of messages has been
    queued since (and including) one that is still unfinished. *)
Theorem C12_drop_history rm max timeout amax ops :
  Forall op5_ok ops -> 0 < max ->
  let log := snd (run5 rm max timeout amax ops) in
  no_reuse log ->
  forall l1 t p m l2, log = l1 ++ EFull t p m :: l2 ->
  exists a t0 p0 m0 b, l1 = a ++ EQueued t0 p0 m0 :: b /\ active p0 l1 = true /\
    max <= 1 + N.of_nat (List.length (queued b)).
Proof. intros ok Hm log H. exact (c12_drop_v5 rm max timeout amax ops ok H Hm). Qed.
Print Assumptions C12_drop_history.
Example C12_example : exists now x o o', out5_push now x o = (o', true) /\ held (o5_q o') = [1; 2].
Proof.
  exists 1, (ex_pub L1 None "c"), (fst (run5 2 2 5 0 [O5Msg 1 (ex_pub L1 None "a"); O5Msg 1 (ex_pub L1 None "b")])).
  eexists. split; reflexivity.
Qed.
Example C12_drop_history_example :
  let ops := [O5Msg 1 (ex_pub L1 None "a"); O5Msg 1 (ex_pub L1 None "b"); O5Msg 1 (ex_pub L1 None "c")] in
  Forall op5_ok ops /\ recent_enough (snd (run5 2 2 5 0 ops)) /\
  In (EFull 1 3 (ex_pub L1 None "c")) (snd (run5 2 2 5 0 ops)).
Proof.
  split; [repeat constructor; discriminate|]. split; [|cbn; tauto].
  intros l1 t p m l2 t' p' m' l3 E _.
  assert (L : (List.length l2 <= 4)%nat).
  { apply (f_equal (@List.length _)) in E. cbn in E. rewrite app_length in E. cbn in E. rewrite app_length in E. lia. }
  assert (K : (List.length (arrivals l2) <= List.length l2)%nat).
  { clear. induction l2 as [|[] l2 IH]; cbn; unfold arrivals in *; cbn in *; lia. }
  lia.
Qed.

(** ** C13 Acknowledgements *)
Theorem C13_ack_local k now p o o' ok :
  out5_on_queue (ack_queue k now p) o = (o', ok) ->
  (ok = false -> o' = o) /\
  (ok = true -> exists a x b x', pq (o5_q o) = a ++ x :: b /\ pq (o5_q o') = a ++ x' :: b /\
     match k with
     | AckPuback => (exists t l m d, x = PNew t l p m d) /\ x' = PDone
     | AckPubrec => (exists t l m d, x = PNew t l p m d) /\ x' = PRec now p
     | AckPubcomp => (exists l, x = PRec l p) /\ x' = PDone
     end).
Proof. apply c13_local_v5. Qed.
Print Assumptions C13_ack_local.
Theorem C13_ack_local_v3 k now p o o' ok :
  out3_on_queue (ack_queue k now p) o = (o', ok) ->
  (ok = false -> o' = o) /\
  (ok = true -> exists a x b x', pq (o3_q o) = a ++ x :: b /\ pq (o3_q o') = a ++ x' :: b /\
     match k with
     | AckPuback => (exists t l m d, x = PNew t l p m d) /\ x' = PDone
     | AckPubrec => (exists t l m d, x = PNew t l p m d) /\ x' = PRec now p
     | AckPubcomp => (exists l, x = PRec l p) /\ x' = PDone
     end).
Proof. apply c13_local_v3. Qed.
Print Assumptions C13_ack_local_v3.
(** An acknowledgement that names a message transmitted on this connection, at
    the right stage, is accepted. *)
Theorem C13_ack_accepted rm max timeout amax ops k now p st :
  Forall op5_ok ops ->
  let o := fst (run5 rm max timeout amax ops) in
  let log := snd (run5 rm max timeout amax ops) in
  no_reuse log -> In p (outstanding wpid5 log) -> life wpid5 w5_dup carries5 lifetime5 timeout p log st ->
  match k with
  | AckPuback | AckPubrec => exists t0 m l, st = InFlight t0 m l
  | AckPubcomp => exists l, st = Released l
  end -> snd (out5_on_queue (ack_queue k now p) o) = true.
Proof. intros ok o log. exact (c13_accept_v5 rm max timeout amax ops ok k now p st). Qed.
Print Assumptions C13_ack_accepted.
Theorem C13_ack_accepted_v3 rm max timeout ops k now p st :
  Forall op3_ok ops ->
  let o := fst (run3 rm max timeout ops) in
  let log := snd (run3 rm max timeout ops) in
  no_reuse log -> In p (outstanding wpid3 log) -> life wpid3 w3_dup carries3 lifetime3 timeout p log st ->
  match k with
  | AckPuback | AckPubrec => exists t0 m l, st = InFlight t0 m l
  | AckPubcomp => exists l, st = Released l
  end -> snd (out3_on_queue (ack_queue k now p) o) = true.
Proof. intros ok o log. exact (c13_accept_v3 rm max timeout ops ok k now p st). Qed.
Print Assumptions C13_ack_accepted_v3.
(** One that names no unfinished message is refused. *)
Theorem C13_ack_unknown rm max timeout amax ops k now p :
  Forall op5_ok ops ->
  let o := fst (run5 rm max timeout amax ops) in
  let log := snd (run5 rm max timeout amax ops) in
  no_reuse log -> active p log = false -> out5_on_queue (ack_queue k now p) o = (o, false).
Proof. intros ok o log. exact (c13_unknown_v5 rm max timeout amax ops ok k now p). Qed.
Print Assumptions C13_ack_unknown.
Theorem C13_ack_unknown_v3 rm max timeout ops k now p :
  Forall op3_ok ops ->
  let o := fst (run3 rm max timeout ops) in
  let log := snd (run3 rm max timeout ops) in
  no_reuse log -> active p log = false -> out3_on_queue (ack_queue k now p) o = (o, false).
Proof. intros ok o log. exact (c13_unknown_v3 rm max timeout ops ok k now p). Qed.
Print Assumptions C13_ack_unknown_v3.
Example C13_example :
  let r := run5 2 4 5 0 (firstn 6 ex_ops) in
  In 2 (outstanding wpid5 (snd r)) /\ snd (out5_on_queue (ack_queue AckPubrec 103 2) (fst r)) = true /\
  active 77 (snd r) = false /\ snd (out5_on_queue (ack_queue AckPuback 103 77) (fst r)) = false.
Proof. vm_compute. tauto. Qed.

(** ** C14 Message expiry *)
Theorem C14_expiry_partial rm max timeout amax ops l1 t w p l2 :
  Forall op5_ok ops ->
  let log := snd (run5 rm max timeout amax ops) in
  no_reuse log -> log = l1 ++ ESent t (SPub w) :: l2 -> wpid5 w = Some p -> w5_dup w = false ->
  exists t0 m, life wpid5 w5_dup carries5 lifetime5 timeout p l1 (Waiting t0 m) /\ In (EQueued t0 p m) l1 /\
    carries5 t0 t m w /\
    (forall v, lifetime5 m = Some v -> v < 2 ^ 32 ->
       t - t0 < v /\ pp_expiry (w5_props w) = Some (v - (t - t0))) /\
    (lifetime5 m = None -> pp_expiry (w5_props w) = None).
Proof. intros ok log. exact (c14_v5 rm max timeout amax ops ok l1 t w p l2). Qed.
Print Assumptions C14_expiry_partial.
(** In the example message 3 (3 s, queued at 102) is never sent and message 2
    (60 s, queued at 101) would announce what is left. *)
Example C14_expiry_partial_example :
  In (EExpired 106 3) ex_log /\
  exists w, In (ESent 103 (SPub w)) (snd (run5 1 4 5 0 [O5Msg 101 (ex_pub L1 (Some 60) "y"); O5Flush 103])) /\
            pp_expiry (w5_props w) = Some 58.
Proof. split; [vm_compute; tauto|]. eexists. split; [cbn; right; right; left; reflexivity|reflexivity]. Qed.

(** ** C15 Resumed sessions *)
Theorem C15_resume_partial rm max timeout amax ops rm' amax' now :
  Forall op5_ok ops -> no_reuse (snd (run5 rm max timeout amax ops)) -> timeout <= now -> 0 < now ->
  let before := fst (run5 rm max timeout amax ops) in
  let resumed := fst (run5 rm max timeout amax (ops ++ [O5Resume rm' amax'])) in
  held (o5_q resumed) = held (o5_q before) /\
  exists n sent gone,
    snd (run5 rm max timeout amax (ops ++ [O5Resume rm' amax'; O5Flush now])) =
      snd (run5 rm max timeout amax ops) ++ [EConn rm'] ++ map (ESent now) sent ++ map (EExpired now) gone /\
    map (sent_pid wpid5) sent =
      map Some (filter (fun p => negb (existsb (N.eqb p) gone)) (firstn n (held (o5_q before)))) /\
    incl gone (firstn n (held (o5_q before))) /\
    (0 < rm' -> held (o5_q before) <> [] -> (0 < n)%nat) /\ N.of_nat n <= rm' /\
    (max <= rm' -> n = List.length (held (o5_q before))).
Proof. exact (c15_v5 rm max timeout amax ops rm' amax' now). Qed.
Print Assumptions C15_resume_partial.
Theorem C15_resume_v3_partial rm max timeout ops now :
  Forall op3_ok ops -> no_reuse (snd (run3 rm max timeout ops)) -> timeout <= now -> 0 < now ->
  let before := fst (run3 rm max timeout ops) in
  let resumed := fst (run3 rm max timeout (ops ++ [O3Resume])) in
  held (o3_q resumed) = held (o3_q before) /\
  exists n sent,
    snd (run3 rm max timeout (ops ++ [O3Resume; O3Flush now])) =
      snd (run3 rm max timeout ops) ++ [EConn rm] ++ map (ESent now) sent /\
    map (sent_pid wpid3) sent = map Some (firstn n (held (o3_q before))) /\
    (0 < rm -> held (o3_q before) <> [] -> (0 < n)%nat) /\ N.of_nat n <= rm /\
    (max <= rm -> n = List.length (held (o3_q before))).
Proof. exact (c15_v3 rm max timeout ops now). Qed.
Print Assumptions C15_resume_v3_partial.
Example C15_resume_partial_example :
  let r := run5 2 4 5 0 (firstn 6 ex_ops) in
  no_reuse (snd r) /\ held (o5_q (fst r)) = [1; 2; 3].
Proof.
  split; [|reflexivity]. apply (C10_pid_unique_partial 2 4 5 0 (firstn 6 ex_ops)); [repeat constructor; discriminate|].
  left. split; [lia|]. intros t p m Hi; vm_compute in Hi; repeat destruct Hi as [Hi|Hi]; try discriminate; exact Hi.
Qed.
Example C15_resume_v3_partial_example :
  let r := run3 2 4 5 (firstn 6 ex_ops3) in
  no_reuse (snd r) /\ held (o3_q (fst r)) = [1; 2; 3].
Proof.
  split; [|reflexivity]. apply (C10_pid_unique_v3_partial 2 4 5 (firstn 6 ex_ops3)); [repeat constructor; discriminate|].
  left. split; [lia|]. intros t p m Hi; vm_compute in Hi; repeat destruct Hi as [Hi|Hi]; try discriminate; exact Hi.
Qed.
