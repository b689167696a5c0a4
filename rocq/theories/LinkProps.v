(** C08 - C15 for whole sessions: MQTT 5 ([srun5]) and MQTT 3 ([srun3]).

    OutProps states these properties for the outgoing side of a session on its
    own.  Here they are stated for runs of the whole session: packets of the
    client, messages of other clients, flushes, reconnections, in any order
    (InSpec).  [logs5 cfg l log] says that [log] describes the run [l]: the
    transmissions in the log are the PUBLISH and PUBREL packets written, the
    acknowledgements are those that came, a PUBREC is answered by PUBREL with
    code 0 or 146 according to the log, and what is queued is what came in
    (LinkSpec).  [inflight5 cfg l] is read off the packets alone.

    [few_enough cfg log] excludes that packet identifiers come round while in use
    (C10); C10_pid_unique_refuted shows that this can happen.  Theorems that need
    it are named _partial.  [clocked5]: the clock is after 1970. *)
From Coq Require Import List Bool String NArith Lia.
From Verif Require Import Base BaseLemmas TopicModel TopicSpec MsgModel RouteModel RouteSpec RetainModel
  PendingModel AliasModel OutModel GlobModel Sess5Model Sess3Model ConnModel OutSpec DelivSpec InSpec InProps
  LinkSpec LinkProofs LinkProofs3 LinkFacts.
Import ListNotations.
Local Open Scope N_scope.
Local Open Scope list_scope.

(** ** Example runs *)
(** The events of a run, carried out. *)
Definition exec5 hash pick (cfg : config) (s : sess5) (e : sev5) : option (sess5 * list pkt5) :=
  match e with
  | VPkt now len x g =>
      if is_disconnected5 s then None
      else match packet_step5 hash pick now len x s g with Go s' _ out => Some (s', out) | _ => None end
  | VMsg now m => let '(s', r) := handle_normal5 now cfg m s in Some (s', match r with Some (_, Some k) => [k] | _ => [] end)
  | VFlush now => Some (pendings5 now s)
  | VTake now uuid p data =>
      match session_connect5 unit cfg now (RcPresent (snd (build_state5 s))) data (new_conn cfg uuid now p) with
      | Some (s', _) => Some (s', [])
      | None => None
      end
  | VSet => Some (with_connected true (with_last 0 (with_will None s)), [])
  | _ => None
  end.
Fixpoint execs5 hash pick cfg s l (es : list sev5) : option (sess5 * list (sev5 * list pkt5)) :=
  match es with
  | [] => Some (s, l)
  | e :: r => match exec5 hash pick cfg s e with
              | Some (s', out) => execs5 hash pick cfg s' (l ++ [(e, out)]) r
              | None => None
              end
  end.
Definition wf_ev5 (cfg : config) (e : sev5) : Prop := match e with VPkt _ _ x g => wf_in5 x /\ wf_glob cfg g | _ => True end.
Lemma exec5_step hash pick cfg s e s' out : wf_ev5 cfg e -> exec5 hash pick cfg s e = Some (s', out) -> sstep5 hash cfg s e s' out.
Proof.
  intros WF E. destruct e as [now len x g|now m|now m|b n|now| | |now uuid p data]; cbn [exec5] in E; try discriminate.
  - destruct (is_disconnected5 s) eqn:D; [discriminate|]. destruct (packet_step5 _ _ _ _ _ _ _) as [s1 g1 o1| |] eqn:P; [|discriminate..].
    injection E as <- <-. destruct WF. eapply st_pkt; eauto.
  - destruct (handle_normal5 now cfg m s) as (s1, r) eqn:P. injection E as <- <-. eapply st_msg; eauto.
  - injection E as E. eapply st_flush; eauto.
  - injection E as <- <-. apply st_set.
  - destruct (session_connect5 _ _ _ _ _ _) as [(s1, k)|] eqn:P; [|discriminate]. injection E as <- <-. eapply st_take; eauto.
Qed.
Lemma execs5_run hash pick cfg es : forall s l s' l', srun5 hash cfg s l -> Forall (wf_ev5 cfg) es ->
  execs5 hash pick cfg s l es = Some (s', l') -> srun5 hash cfg s' l'.
Proof.
  induction es as [|e es IH]; intros s l s' l' R F E; cbn [execs5] in E; [injection E as <- <-; exact R|].
  inversion F as [|? ? F1 F2]; subst. destruct (exec5 _ _ _ _ _) as [(s1, o1)|] eqn:X; [|discriminate].
  eapply IH; [|exact F2|exact E]. econstructor; [exact R|]. now apply (exec5_step hash pick).
Qed.

(** A client that allows two messages in flight subscribes to "t", is sent two
    messages of three, acknowledges one, answers a PUBREL that names no message,
    and connects again. *)
Definition lk_connect (clean : bool) : connect5 := Connect5 clean 60 "me" None None None (Some 100) (Some 2) None None None None None.
Definition lk_s0 : sess5 :=
  match session_connect5 unit ex_cfg 1000 (RcNew 7) None (new_conn ex_cfg "" 1000 (lk_connect true)) with
  | Some (s, _) => s
  | None => sess5_new ex_cfg 0
  end.
Definition lk_msg (q : qos) (t : string) : nmsg := NM5 (NMsg5 false q "t" t ["t"%string] L2 pprops_default 10).
Definition lk_evs : list sev5 :=
  [VPkt 1001 20 (ISub 1 None [("t"%string, SubOpts L2 false false RH_send)]) ex_g;
   VMsg 1002 (lk_msg L1 "x"); VMsg 1002 (lk_msg L2 "y"); VMsg 1002 (lk_msg L1 "z"); VFlush 1002;
   VPkt 1003 4 (IPuback 1) ex_g; VPkt 1004 4 (IPubrec 2) ex_g; VPkt 1004 4 (IPubrec 77) ex_g;
   VTake 2000 "" (lk_connect false) None; VSet; VFlush 2001].
Definition lk_run (n : nat) : sess5 * list (sev5 * list pkt5) :=
  match execs5 (fun _ => 0) ex_pick ex_cfg lk_s0 [] (firstn n lk_evs) with Some x => x | None => (lk_s0, []) end.
Lemma lk_wf : Forall (wf_ev5 ex_cfg) lk_evs.
Proof.
  repeat constructor; cbn; trivial; try (exists ex_h; reflexivity).
Qed.
Lemma lk_run0 : srun5 (fun _ => 0) ex_cfg lk_s0 [].
Proof.
  constructor. apply (si_new ex_cfg 1000 1000 "" (lk_connect true) None 7 lk_s0
    (match session_connect5 unit ex_cfg 1000 (RcNew 7) None (new_conn ex_cfg "" 1000 (lk_connect true)) with
     | Some (_, k) => k | None => connack_plain 0 None end)). reflexivity.
Qed.
Lemma lk_srun n : execs5 (fun _ => 0) ex_pick ex_cfg lk_s0 [] (firstn n lk_evs) <> None ->
  srun5 (fun _ => 0) ex_cfg (fst (lk_run n)) (snd (lk_run n)).
Proof.
  unfold lk_run. destruct (execs5 _ _ _ _ _ _) as [(s, l)|] eqn:E; [|congruence]. intros _.
  eapply execs5_run; [exact lk_run0| |exact E].
  pose proof lk_wf as F. rewrite <- (firstn_skipn n lk_evs) in F. now apply Forall_app in F.
Qed.
Definition lk_pub (q : qos) (t : string) : pub5 := Pub5 "t" q false t pprops_default.
Definition lk_wire (dup : bool) (x : qospid) (t : string) : wpub5 := WPub5 dup x false "t" t pprops_default.
(** Its log, event by event. *)
Definition lk_parts : list (list (oev pub5 wpub5)) :=
  [[]; [EQueued 1002 1 (lk_pub L1 "x")]; [EQueued 1002 2 (lk_pub L2 "y")]; [EQueued 1002 3 (lk_pub L1 "z")];
   [ESent 1002 (SPub (lk_wire false (Q1 1) "x")); ESent 1002 (SPub (lk_wire false (Q2 2) "y"))];
   [EAcked AckPuback 1003 1 true; ESent 1003 (SPub (lk_wire false (Q1 3) "z"))]; [EAcked AckPubrec 1004 2 true];
   [EAcked AckPubrec 1004 77 false]; [EConn 2]; [];
   [ESent 2001 (SRel 2); ESent 2001 (SPub (lk_wire true (Q1 3) "z"))]].
Definition lk_log : list (oev pub5 wpub5) := EConn 2 :: List.concat lk_parts.

Lemma logs5_parts cfg l parts : Forall2 (fun e p => logged5 cfg (fst e) (snd e) p) l parts -> forall l0 log0, logs5 cfg l0 log0 ->
  logs5 cfg (l0 ++ l) (log0 ++ List.concat parts).
Proof.
  induction 1 as [|(e, o) p l parts H F IH]; intros l0 log0 L; [now rewrite !app_nil_r|].
  cbn [List.concat]. replace (l0 ++ (e, o) :: l) with ((l0 ++ [(e, o)]) ++ l) by now rewrite <- app_assoc.
  rewrite app_assoc. apply IH. now constructor.
Qed.
Lemma lk_logs : logs5 ex_cfg (snd (lk_run 11)) lk_log.
Proof.
  change (logs5 ex_cfg ([] ++ snd (lk_run 11)) ([EConn 2] ++ List.concat lk_parts)). apply logs5_parts; [|constructor].
  set (l := snd (lk_run 11)). vm_compute in l. subst l. unfold lk_parts.
  constructor; [exists [], []; repeat split; constructor|].
  constructor; [exists [], [EQueued 1002 1 (lk_pub L1 "x")]; repeat split; repeat constructor|].
  constructor; [exists [], [EQueued 1002 2 (lk_pub L2 "y")]; repeat split; repeat constructor|].
  constructor; [exists [], [EQueued 1002 3 (lk_pub L1 "z")]; repeat split; repeat constructor|].
  constructor; [exists [], [ESent 1002 (SPub (lk_wire false (Q1 1) "x")); ESent 1002 (SPub (lk_wire false (Q2 2) "y"))]; repeat split; repeat constructor|].
  constructor; [exists [EAcked AckPuback 1003 1 true], [ESent 1003 (SPub (lk_wire false (Q1 3) "z"))]; split; [reflexivity|]; split;
    [exists true; repeat split|]; split; [reflexivity|]; repeat constructor|].
  constructor; [exists [EAcked AckPubrec 1004 2 true], []; split; [reflexivity|]; split;
    [exists true; split; [reflexivity|]; eexists; reflexivity|]; split; [reflexivity|]; repeat constructor|].
  constructor; [exists [EAcked AckPubrec 1004 77 false], []; split; [reflexivity|]; split;
    [exists false; split; [reflexivity|]; eexists; reflexivity|]; split; [reflexivity|]; repeat constructor|].
  constructor; [split; reflexivity|]. constructor; [split; reflexivity|].
  constructor; [exists [], [ESent 2001 (SRel 2); ESent 2001 (SPub (lk_wire true (Q1 3) "z"))]; repeat split; repeat constructor|].
  constructor.
Qed.
Lemma lk_clocked n : Forall clocked5 (snd (lk_run n)).
Proof.
  do 12 (destruct n as [|n]; [set (l := snd (lk_run _)); vm_compute in l; subst l; repeat constructor|]).
  change (lk_run (12 + n)) with (lk_run 11). set (l := snd (lk_run _)); vm_compute in l; subst l; repeat constructor.
Qed.
(** The run is a run, with at most two messages in flight and two after "y" was
    sent, and the log is its log. *)
Example lk_example : srun5 (fun _ => 0) ex_cfg (fst (lk_run 11)) (snd (lk_run 11)) /\ Forall clocked5 (snd (lk_run 11)) /\
  logs5 ex_cfg (snd (lk_run 11)) lk_log /\ few_enough ex_cfg lk_log /\ s_rmax (fst (lk_run 11)) = 2 /\
  map (fun n => inflight5 ex_cfg (snd (lk_run n))) [4; 5; 6; 7; 8; 9; 11]%nat = [[]; [2; 1]; [3; 2]; [3; 2]; [3; 2]; []; [3; 2]].
Proof.
  split; [apply lk_srun; vm_compute; discriminate|]. split; [apply lk_clocked|]. split; [apply lk_logs|]. split.
  - left. split; [vm_compute; discriminate|]. intros t p m I. cbn in I. repeat destruct I as [I|I]; try discriminate; exact I.
  - split; reflexivity.
Qed.

(** ** C08: never more messages in flight than the client's Receive Maximum
    (for MQTT 3, the configured number). *)
Theorem C08_session_window_partial : forall hash cfg s l, srun5 hash cfg s l -> Forall clocked5 l ->
  exists log, logs5 cfg l log /\ receive_max log = s_rmax s /\
    (few_enough cfg log -> N.of_nat (List.length (inflight5 cfg l)) <= s_rmax s).
Proof. exact s08. Qed.
Print Assumptions C08_session_window_partial.
Theorem C08_v3_session_window_partial : forall hash cfg s l, srun3 hash cfg s l -> Forall clocked3 l ->
  exists log, logs3 cfg l log /\
    (few_enough cfg log -> N.of_nat (List.length (inflight3 cfg l)) <= cf_inflight_client cfg).
Proof. exact t08. Qed.
Print Assumptions C08_v3_session_window_partial.
(** The number itself is the one of the last CONNECT. *)
Theorem C08_session_receive_maximum : forall hash cfg s t uuid p data s' out,
  sstep5 hash cfg s (VTake t uuid p data) s' out -> s_rmax s' = rmax5 cfg p.
Proof. exact s08_take. Qed.
Print Assumptions C08_session_receive_maximum.

(** ** C09: first transmissions in the order of arrival. *)
Theorem C09_session_order_partial : forall hash cfg s l, srun5 hash cfg s l -> Forall clocked5 l ->
  exists log, logs5 cfg l log /\
    (few_enough cfg log -> in_order carries5 (first_sent wpid5 w5_dup log) (queued log) /\
      (no_expiry_event log -> no_early_ack wpid5 w5_dup carries5 lifetime5 (cf_inflight_timeout cfg) log ->
       exists sent_ones waiting, queued log = sent_ones ++ waiting /\
         Forall2 (transmits carries5) (first_sent wpid5 w5_dup log) sent_ones)).
Proof. exact s09. Qed.
Print Assumptions C09_session_order_partial.
Theorem C09_v3_session_order_partial : forall hash cfg s l, srun3 hash cfg s l -> Forall clocked3 l ->
  exists log, logs3 cfg l log /\
    (few_enough cfg log -> in_order carries3 (first_sent wpid3 w3_dup log) (queued log) /\
      (no_expiry_event log -> no_early_ack wpid3 w3_dup carries3 lifetime3 (cf_inflight_timeout cfg) log ->
       exists sent_ones waiting, queued log = sent_ones ++ waiting /\
         Forall2 (transmits carries3) (first_sent wpid3 w3_dup log) sent_ones)).
Proof. exact t09. Qed.
Print Assumptions C09_v3_session_order_partial.

(** ** C10: packet identifiers are not 0 and not used twice at a time. *)
Theorem C10_session_pid_partial : forall hash cfg s l, srun5 hash cfg s l -> Forall clocked5 l ->
  exists log, logs5 cfg l log /\ (forall p, In p (arrivals log) -> 1 <= p <= 65535) /\
    (few_enough cfg log -> no_reuse log).
Proof. exact s10. Qed.
Print Assumptions C10_session_pid_partial.
Theorem C10_v3_session_pid_partial : forall hash cfg s l, srun3 hash cfg s l -> Forall clocked3 l ->
  exists log, logs3 cfg l log /\ (forall p, In p (arrivals log) -> 1 <= p <= 65535) /\
    (few_enough cfg log -> no_reuse log).
Proof. exact t10. Qed.
Print Assumptions C10_v3_session_pid_partial.

(** ** C11: retransmissions. *)
Theorem C11_session_retransmission_partial : forall hash cfg s l, srun5 hash cfg s l -> Forall clocked5 l ->
  exists log, logs5 cfg l log /\
    (few_enough cfg log -> forall p, exists st, life wpid5 w5_dup carries5 lifetime5 (cf_inflight_timeout cfg) p log st).
Proof. exact s11. Qed.
Print Assumptions C11_session_retransmission_partial.
Theorem C11_v3_session_retransmission_partial : forall hash cfg s l, srun3 hash cfg s l -> Forall clocked3 l ->
  exists log, logs3 cfg l log /\
    (few_enough cfg log -> forall p, exists st, life wpid3 w3_dup carries3 lifetime3 (cf_inflight_timeout cfg) p log st).
Proof. exact t11. Qed.
Print Assumptions C11_v3_session_retransmission_partial.

(** ** C12: the queue is bounded, and a message is dropped only when it is full. *)
Theorem C12_session_queue_bounded : forall hash cfg s l, srun5 hash cfg s l -> Forall clocked5 l ->
  N.of_nat (List.length (pq (o5_q (s_out s)))) <= cf_max_pending cfg.
Proof. exact s12_bound. Qed.
Print Assumptions C12_session_queue_bounded.
Theorem C12_v3_session_queue_bounded : forall hash cfg s l, srun3 hash cfg s l -> Forall clocked3 l ->
  N.of_nat (List.length (pq (o3_q (z_out s)))) <= cf_max_pending cfg.
Proof. exact t12_bound. Qed.
Print Assumptions C12_v3_session_queue_bounded.
Theorem C12_session_drop_history : forall hash cfg s l, srun5 hash cfg s l -> Forall clocked5 l -> 0 < cf_max_pending cfg ->
  exists log, logs5 cfg l log /\
    (few_enough cfg log -> forall l1 t p m l2, log = l1 ++ EFull t p m :: l2 ->
     exists a t0 p0 m0 b, l1 = a ++ EQueued t0 p0 m0 :: b /\ active p0 l1 = true /\
       cf_max_pending cfg <= 1 + N.of_nat (List.length (queued b))).
Proof. exact s12_drop. Qed.
Print Assumptions C12_session_drop_history.
Theorem C12_v3_session_drop_history : forall hash cfg s l, srun3 hash cfg s l -> Forall clocked3 l -> 0 < cf_max_pending cfg ->
  exists log, logs3 cfg l log /\
    (few_enough cfg log -> forall l1 t p m l2, log = l1 ++ EFull t p m :: l2 ->
     exists a t0 p0 m0 b, l1 = a ++ EQueued t0 p0 m0 :: b /\ active p0 l1 = true /\
       cf_max_pending cfg <= 1 + N.of_nat (List.length (queued b))).
Proof. exact t12_drop. Qed.
Print Assumptions C12_v3_session_drop_history.

(** ** C13: acknowledgements.  [ok] says whether the acknowledgement was taken. *)
Theorem C13_session_acks_partial : forall hash cfg s l, srun5 hash cfg s l -> Forall clocked5 l ->
  exists log, logs5 cfg l log /\
    (few_enough cfg log -> forall now len x g s' out k p, 0 < now -> ack5 cfg len x = Some (k, p) ->
      sstep5 hash cfg s (VPkt now len x g) s' out ->
      exists evs ok, logged5 cfg (VPkt now len x g) out evs /\ In (EAcked k now p ok) evs /\
        (active p log = false -> ok = false) /\
        (In p (inflight5 cfg l) -> forall st, life wpid5 w5_dup carries5 lifetime5 (cf_inflight_timeout cfg) p log st ->
          match k with
          | AckPuback | AckPubrec => exists t0 m l, st = InFlight t0 m l
          | AckPubcomp => exists l, st = Released l
          end -> ok = true) /\
        (forall p', x = IPubrec p' -> exists r, out = KPubrel p' (answer_code ok) :: r)).
Proof. exact s13. Qed.
Print Assumptions C13_session_acks_partial.
Theorem C13_v3_session_acks_partial : forall hash cfg s l, srun3 hash cfg s l -> Forall clocked3 l ->
  exists log, logs3 cfg l log /\
    (few_enough cfg log -> forall now len x g s' out k p, 0 < now -> ack3 cfg len x = Some (k, p) ->
      sstep3 hash cfg s (UPkt now len x g) s' out ->
      exists evs ok, logged3 cfg (UPkt now len x g) out evs /\ In (EAcked k now p ok) evs /\
        (active p log = false -> ok = false) /\
        (In p (inflight3 cfg l) -> forall st, life wpid3 w3_dup carries3 lifetime3 (cf_inflight_timeout cfg) p log st ->
          match k with
          | AckPuback | AckPubrec => exists t0 m l, st = InFlight t0 m l
          | AckPubcomp => exists l, st = Released l
          end -> ok = true) /\
        (forall p', x = YPubrec p' -> exists r, out = JPubrel p' :: r)).
Proof. exact t13. Qed.
Print Assumptions C13_v3_session_acks_partial.

(** ** C14: message expiry. *)
Theorem C14_session_expiry_partial : forall hash cfg s l, srun5 hash cfg s l -> Forall clocked5 l ->
  exists log, logs5 cfg l log /\
    (few_enough cfg log -> forall l1 t w p l2, log = l1 ++ ESent t (SPub w) :: l2 -> wpid5 w = Some p -> w5_dup w = false ->
     exists t0 m, life wpid5 w5_dup carries5 lifetime5 (cf_inflight_timeout cfg) p l1 (Waiting t0 m) /\ In (EQueued t0 p m) l1 /\
       carries5 t0 t m w /\
       (forall v, lifetime5 m = Some v -> v < 2 ^ 32 -> t - t0 < v /\ pp_expiry (w5_props w) = Some (v - (t - t0))) /\
       (lifetime5 m = None -> pp_expiry (w5_props w) = None)).
Proof. exact s14. Qed.
Print Assumptions C14_session_expiry_partial.

(** ** C15: a client that comes back is sent what it had not acknowledged, in order. *)
Theorem C15_session_resume_partial : forall hash cfg s l, srun5 hash cfg s l -> Forall clocked5 l ->
  exists log, logs5 cfg l log /\
    (few_enough cfg log -> forall t uuid p data now out, resumes5 hash cfg s t uuid p data now out ->
      0 < now -> cf_inflight_timeout cfg <= now ->
      exists n gone, map (sent_pid wpid5) (flat_map wire5 out) =
          map Some (filter (fun q => negb (existsb (N.eqb q) gone)) (firstn n (held (o5_q (s_out s))))) /\
        incl gone (firstn n (held (o5_q (s_out s)))) /\
        (0 < rmax5 cfg p -> held (o5_q (s_out s)) <> [] -> (0 < n)%nat) /\ N.of_nat n <= rmax5 cfg p /\
        (cf_max_pending cfg <= rmax5 cfg p -> n = List.length (held (o5_q (s_out s))))).
Proof. exact s15. Qed.
Print Assumptions C15_session_resume_partial.
Theorem C15_v3_session_resume_partial : forall hash cfg s l, srun3 hash cfg s l -> Forall clocked3 l ->
  exists log, logs3 cfg l log /\
    (few_enough cfg log -> forall t s0 now out, resumes3 hash cfg s t s0 now out ->
      0 < now -> cf_inflight_timeout cfg <= now ->
      exists n, map (sent_pid wpid3) (flat_map wire3 out) = map Some (firstn n (held (o3_q (z_out s)))) /\
        (0 < cf_inflight_client cfg -> held (o3_q (z_out s)) <> [] -> (0 < n)%nat) /\ N.of_nat n <= cf_inflight_client cfg /\
        (cf_max_pending cfg <= cf_inflight_client cfg -> n = List.length (held (o3_q (z_out s))))).
Proof. exact t15. Qed.
Print Assumptions C15_v3_session_resume_partial.
(** In the example the client comes back holding 2 (released) and 3. *)
Example C15_session_example : held (o5_q (s_out (fst (lk_run 8)))) = [2; 3] /\
  exists out, resumes5 (fun _ => 0) ex_cfg (fst (lk_run 8)) 2000 "" (lk_connect false) None 2001 out /\
    map (sent_pid wpid5) (flat_map wire5 out) = [Some 2; Some 3].
Proof.
  split; [reflexivity|]. eexists. split; [|shelve]. split; [reflexivity|].
  exists (fst (lk_run 9)), (fst (lk_run 10)), (fst (lk_run 11)).
  split; [apply (exec5_step _ ex_pick); [exact I|vm_compute; reflexivity]|]. split; [apply (exec5_step _ ex_pick); [exact I|vm_compute; reflexivity]|].
  apply (exec5_step _ ex_pick); [exact I|vm_compute; reflexivity]. Unshelve. reflexivity.
Qed.

(** ** MQTT 3 example runs *)
Definition exec3 hash (cfg : config) (s : sess3) (e : sev3) : option (sess3 * list pkt3) :=
  match e with
  | UPkt now len x g =>
      if z_disc s then None
      else match packet_step3 hash now len x s g with Go3 s' _ out => Some (s', out) | Stop3 s' _ => Some (s', []) | Crash3 => None end
  | UMsg now m => let '(s', r) := handle_normal3 now m s in Some (s', match r with Some (_, Some k) => [k] | _ => [] end)
  | UFlush now => Some (pendings3 now s)
  | UTake now s0 present =>
      match session_connect3 now (RcPresent3 (snd (build_state3 s))) s0 with
      | (s', Connack3 present' _) => if Bool.eqb present present' then Some (s', []) else None
      end
  | _ => None
  end.
Fixpoint execs3 hash cfg s l (es : list sev3) : option (sess3 * list (sev3 * list pkt3)) :=
  match es with
  | [] => Some (s, l)
  | e :: r => match exec3 hash cfg s e with
              | Some (s', out) => execs3 hash cfg s' (l ++ [(e, out)]) r
              | None => None
              end
  end.
Definition wf_ev3 (cfg : config) (e : sev3) : Prop :=
  match e with UPkt _ _ x g => wf_in3 x /\ wf_glob cfg g | UTake _ s0 _ => prepared3 cfg s0 | _ => True end.
Lemma exec3_step hash cfg s e s' out : wf_ev3 cfg e -> exec3 hash cfg s e = Some (s', out) -> sstep3 hash cfg s e s' out.
Proof.
  intros WF E. destruct e as [now len x g|now m|now m|b n|now| |now s0 present]; cbn [exec3] in E; try discriminate.
  - destruct (z_disc s) eqn:D; [discriminate|]. destruct WF. destruct (packet_step3 _ _ _ _ _ _) as [s1 g1 o1|s1 g1|] eqn:P; [| |discriminate].
    + injection E as <- <-. eapply st3_pkt; eauto.
    + injection E as <- <-. eapply st3_end; eauto.
  - destruct (handle_normal3 now m s) as (s1, r) eqn:P. injection E as <- <-. eapply st3_msg; eauto.
  - injection E as E. eapply st3_flush; eauto.
  - destruct (session_connect3 _ _ _) as (s1, [pr code]) eqn:P. destruct (Bool.eqb present pr) eqn:B; [|discriminate].
    apply eqb_prop in B. subst pr. injection E as <- <-. eapply st3_take; eauto.
Qed.
Lemma execs3_run hash cfg es : forall s l s' l', srun3 hash cfg s l -> Forall (wf_ev3 cfg) es ->
  execs3 hash cfg s l es = Some (s', l') -> srun3 hash cfg s' l'.
Proof.
  induction es as [|e es IH]; intros s l s' l' R F E; cbn [execs3] in E; [injection E as <- <-; exact R|].
  inversion F as [|? ? F1 F2]; subst. destruct (exec3 _ _ _ _) as [(s1, o1)|] eqn:X; [|discriminate].
  eapply IH; [|exact F2|exact E]. econstructor; [exact R|]. now apply exec3_step.
Qed.
(** The retained message of "t", QoS 1, is there. *)
Definition lk3_g : glob := Glob ex_cfg (rt_run ex_h) (fst (ret_insert ret_empty (RContent "he" L1 "t" "x" None 10))) [9].
Definition lk3_c : connect3 := Connect3 false false 60 "me" None None None.
Definition lk3_p (now : N) : sess3 := 
  Sess3 max_client_id "me" false false false None now (z_out (sess3_new ex_cfg now)) [] [] [] 0 None 60 false.
Definition lk3_s0 : sess3 := fst (session_connect3 1000 (RcNew3 7) (lk3_p 1000)).
Lemma lk3_run0 hash : srun3 hash ex_cfg lk3_s0 [].
Proof.
  constructor. apply (si3_new ex_cfg 1000 (lk3_p 1000) 7 lk3_s0 (Connack3 false 0)); [|reflexivity].
  exists ""%string, 1000, lk3_c. reflexivity.
Qed.
(** Subscribe and be sent the retained message (QoS 1) and another (QoS 2);
    PUBREC for the second, and come back. *)
Definition lk3_evs : list sev3 :=
  [UPkt 1001 20 (YSub 1 [("t"%string, L2)]) lk3_g; UMsg 1002 (lk_msg L2 "y"); UFlush 1002; UPkt 1003 4 (YPubrec 2) lk3_g;
   UTake 2000 (lk3_p 2000) true; UFlush 2001].
Definition lk3_outs : list (list pkt3) :=
  [[JPub (WPub3 false (Q1 1) true "t" "x"); JSuback 1 [L2]]; []; [JPub (WPub3 false (Q2 2) false "t" "y")]; [JPubrel 2]; [];
   [JPub (WPub3 true (Q1 1) true "t" "x"); JPubrel 2]].
Lemma lk3_wf : Forall (wf_ev3 ex_cfg) lk3_evs.
Proof.
  repeat constructor; cbn; trivial; try (exists ex_h; reflexivity). exists ""%string, 2000, lk3_c. reflexivity.
Qed.
Example lk3_example : forall hash, exists s, srun3 hash ex_cfg s (combine lk3_evs lk3_outs) /\ Forall clocked3 (combine lk3_evs lk3_outs) /\
  inflight3 ex_cfg (combine lk3_evs lk3_outs) = [2; 1].
Proof.
  intros hash. eexists. split; [|split; [repeat constructor|reflexivity]].
  eapply execs3_run; [apply lk3_run0|exact lk3_wf|]. vm_compute. reflexivity.
Qed.

(** ** C11 fails for MQTT 3 when SUBSCRIBE ends the connection: the retained
    messages of the filters before the bad one are taken for sent, so a client
    that comes back is sent, with DUP=1, a message that was never written. *)
Theorem C11_v3_dup_refuted : forall hash, exists cfg s l e w,
  srun3 hash cfg s (l ++ [(e, [JPub w])]) /\ Forall clocked3 (l ++ [(e, [JPub w])]) /\ Forall (fun x => snd x = []) l /\ w3_dup w = true.
Proof.
  intros hash.
  exists ex_cfg, (match execs3 hash ex_cfg lk3_s0 [] [UPkt 1001 20 (YSub 1 [("t"%string, L1); ("$share/x/t"%string, L1)]) lk3_g;
      UTake 2000 (lk3_p 2000) true; UFlush 2001] with Some (s, _) => s | None => lk3_s0 end),
    [(UPkt 1001 20 (YSub 1 [("t"%string, L1); ("$share/x/t"%string, L1)]) lk3_g, []); (UTake 2000 (lk3_p 2000) true, [])],
    (UFlush 2001), (WPub3 true (Q1 1) true "t" "x").
  split; [|repeat split; repeat constructor].
  eapply execs3_run with (es := [UPkt 1001 20 (YSub 1 [("t"%string, L1); ("$share/x/t"%string, L1)]) lk3_g;
      UTake 2000 (lk3_p 2000) true; UFlush 2001]); [apply lk3_run0| |vm_compute; reflexivity].
  repeat constructor; cbn; trivial; try (exists ex_h; reflexivity); try discriminate. exists ""%string, 2000, lk3_c. reflexivity.
Qed.
Print Assumptions C11_v3_dup_refuted.
