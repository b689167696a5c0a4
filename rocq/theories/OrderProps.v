(** C09, C13, C14 and C15 without the assumption that packet identifiers are used once at a
    time (the [no_reuse] and [few_enough] of OutProps, LinkProps and LifeProps): for single
    queues ([run5], [run3]), for sessions ([srun5], [srun3]) and for sessions of a run of the
    whole broker ([brun]).  The vocabulary is in OrderSpec. *)
From Coq Require Import List Bool NArith String Lia Permutation.
From Verif Require Import Base BaseLemmas MsgModel PendingModel OutModel OutSpec OutProps GlobModel Sess5Model Sess3Model ConnModel InSpec InProps LinkSpec LinkProps RegModel BrokerModel
  BrokerSpec LifeSpec BrokerFacts BrokerProps LifeProps OrderSpec OrderProofs OrderLast OrderFacts.
Import ListNotations.
Local Open Scope N_scope.
Local Open Scope list_scope.

(** ** C09: order of first transmissions *)

(** In order, while the clock does not go back; none skipped, if messages have no expiry
    interval and the client acknowledges only what it was sent. *)
Theorem C09_order rm max timeout amax ops : Forall op5_ok ops ->
  let log := snd (run5 rm max timeout amax ops) in
  (steady log -> in_order (timely carries5 lifetime5) (first_sent wpid5 w5_dup log) (queued log)) /\
  (lasting lifetime5 log -> honest wpid5 w5_dup log ->
   exists sent_ones waiting, queued log = sent_ones ++ waiting /\ Forall2 (transmits carries5) (first_sent wpid5 w5_dup log) sent_ones).
Proof. intros ok. exact (all_orderly5 _ _ (run5_all rm max timeout amax ops ok)). Qed.
Print Assumptions C09_order.
(** MQTT 3 has no expiry intervals, and the clock does not matter. *)
Theorem C09_order_v3 rm max timeout ops : Forall op3_ok ops ->
  let log := snd (run3 rm max timeout ops) in
  in_order carries3 (first_sent wpid3 w3_dup log) (queued log) /\
  (honest wpid3 w3_dup log ->
   exists sent_ones waiting, queued log = sent_ones ++ waiting /\ Forall2 (transmits carries3) (first_sent wpid3 w3_dup log) sent_ones).
Proof. intros ok. exact (all_orderly3 _ _ (run3_all rm max timeout ops ok)). Qed.
Print Assumptions C09_order_v3.
Theorem C09_session_order : forall hash cfg s l, srun5 hash cfg s l -> Forall clocked5 l ->
  exists log, logs5 cfg l log /\ orderly5 log.
Proof. intros hash cfg s l R C. destruct (sess5_all hash cfg s l R C) as (log & L & A). exact (ex_intro _ log (conj L (all_orderly5 _ _ A))). Qed.
Print Assumptions C09_session_order.
Theorem C09_v3_session_order : forall hash cfg s l, srun3 hash cfg s l -> Forall clocked3 l ->
  exists log, logs3 cfg l log /\ orderly3 log.
Proof. intros hash cfg s l R C. destruct (sess3_all hash cfg s l R C) as (log & L & A). exact (ex_intro _ log (conj L (all_orderly3 _ _ A))). Qed.
Print Assumptions C09_v3_session_order.

(** Three messages are queued; the first two are transmitted, in order, the third has to
    wait for a place in the window. *)
Definition o_ops : list op5 :=
  [O5Msg 100 (ex_pub L1 None "x"); O5Msg 101 (ex_pub L2 None "y"); O5Flush 102; O5Msg 103 (ex_pub L1 None "z"); O5Flush 104; O5Ack AckPuback 105 1].
Definition o_log := snd (run5 2 4 5 0 o_ops).
Example C09_case : Forall op5_ok o_ops /\ steady o_log /\ lasting lifetime5 o_log /\ honest wpid5 w5_dup o_log /\
  map (fun s => snd (fst s)) (first_sent wpid5 w5_dup o_log) = [1; 2] /\ map (fun q => snd (fst q)) (queued o_log) = [1; 2; 3].
Proof.
  split; [repeat constructor; discriminate|]. split.
  { apply up_steady. vm_compute. repeat constructor; discriminate. }
  split; [intros t p m Hi; vm_compute in Hi; repeat destruct Hi as [Hi|Hi]; try contradiction; injection Hi as <- <- <-; reflexivity|].
  split; [apply honest_by; vm_compute; repeat constructor|]. split; reflexivity.
Qed.

(** ** C14: expiry *)

(** Every first transmission is that of a queued message of its own, comes before that
    message expires and announces what is left of its interval. *)
Theorem C14_expiry rm max timeout amax ops : Forall op5_ok ops ->
  let log := snd (run5 rm max timeout amax ops) in
  exists matched rest, Permutation (queued log) (matched ++ rest) /\ Forall2 announced (first_sent wpid5 w5_dup log) matched.
Proof. intros ok. exact (all_announced _ _ (run5_all rm max timeout amax ops ok)). Qed.
Print Assumptions C14_expiry.
(** Every PUBLISH with an identifier, repeated or not, carries a message queued before. *)
Theorem C14_sources rm max timeout amax ops : Forall op5_ok ops -> sourced5 (snd (run5 rm max timeout amax ops)).
Proof. intros ok. exact (a_srcs _ _ _ _ _ _ _ (run5_all rm max timeout amax ops ok)). Qed.
Print Assumptions C14_sources.
Theorem C14_session_expiry : forall hash cfg s l, srun5 hash cfg s l -> Forall clocked5 l ->
  exists log, logs5 cfg l log /\ sourced5 log /\
    exists matched rest, Permutation (queued log) (matched ++ rest) /\ Forall2 announced (first_sent wpid5 w5_dup log) matched.
Proof. intros hash cfg s l R C. destruct (sess5_all hash cfg s l R C) as (log & L & A). exact (ex_intro _ log (conj L (conj (a_srcs _ _ _ _ _ _ _ A) (all_announced _ _ A)))). Qed.
Print Assumptions C14_session_expiry.
Example C14_case : let log := snd (run5 1 4 5 0 [O5Msg 101 (ex_pub L1 (Some 60) "y"); O5Msg 101 (ex_pub L1 (Some 3) "z"); O5Flush 103; O5Ack AckPuback 104 1; O5Flush 109]) in
  map (fun s => (fst (fst s), snd (fst s), pp_expiry (w5_props (snd s)))) (first_sent wpid5 w5_dup log) = [(103, 1, Some 58)] /\
  map (fun q => snd (fst q)) (queued log) = [1; 2] /\ In (EExpired 109 2) log.
Proof. vm_compute. tauto. Qed.

(** ** C15: resumed sessions *)

(** What a session has unfinished is kept when the client comes back, in order, and
    transmitted as the window allows, except what has expired. *)
Theorem C15_resume rm max timeout amax ops rm' amax' now :
  Forall op5_ok ops -> timeout <= now ->
  let before := fst (run5 rm max timeout amax ops) in
  let resumed := fst (run5 rm max timeout amax (ops ++ [O5Resume rm' amax'])) in
  unfinished (o5_q resumed) = unfinished (o5_q before) /\
  exists n out gone,
    snd (run5 rm max timeout amax (ops ++ [O5Resume rm' amax'; O5Flush now])) =
      snd (run5 rm max timeout amax ops) ++ [EConn rm'] ++ map (ESent now) out ++ map (EExpired now) gone /\
    Forall2 (sends wpid5 carries5 now) out (filter (fun x => negb (dead lifetime5 now x)) (firstn n (unfinished (o5_q before)))) /\
    incl gone (map fst (filter (dead lifetime5 now) (firstn n (unfinished (o5_q before))))) /\
    N.of_nat n <= rm' /\ (0 < rm' -> unfinished (o5_q before) <> [] -> (0 < n)%nat) /\
    (max <= rm' -> n = List.length (unfinished (o5_q before))).
Proof. exact (resume_v5 rm max timeout amax ops rm' amax' now). Qed.
Print Assumptions C15_resume.
Theorem C15_resume_v3 rm max timeout ops now :
  Forall op3_ok ops -> timeout <= now ->
  let before := fst (run3 rm max timeout ops) in
  let resumed := fst (run3 rm max timeout (ops ++ [O3Resume])) in
  unfinished (o3_q resumed) = unfinished (o3_q before) /\
  exists n out,
    snd (run3 rm max timeout (ops ++ [O3Resume; O3Flush now])) =
      snd (run3 rm max timeout ops) ++ [EConn rm] ++ map (ESent now) out /\
    Forall2 (sends wpid3 carries3 now) out (firstn n (unfinished (o3_q before))) /\
    N.of_nat n <= rm /\ (0 < rm -> unfinished (o3_q before) <> [] -> (0 < n)%nat) /\
    (max <= rm -> n = List.length (unfinished (o3_q before))).
Proof. exact (resume_v3 rm max timeout ops now). Qed.
Print Assumptions C15_resume_v3.
(** What is unfinished is what was queued and not acknowledged, when nothing can expire. *)
Theorem C15_unfinished rm max timeout amax ops : Forall op5_ok ops ->
  let r := run5 rm max timeout amax ops in
  lasting lifetime5 (snd r) -> unfinished (o5_q (fst r)) = ledger (snd r).
Proof. intros ok. exact (a_led _ _ _ _ _ _ _ (run5_all rm max timeout amax ops ok)). Qed.
Print Assumptions C15_unfinished.
Theorem C15_unfinished_v3 rm max timeout ops : Forall op3_ok ops ->
  let r := run3 rm max timeout ops in unfinished (o3_q (fst r)) = ledger (snd r).
Proof. intros ok. exact (a_led _ _ _ _ _ _ _ (run3_all rm max timeout ops ok) (fun _ _ _ _ => eq_refl)). Qed.
Print Assumptions C15_unfinished_v3.
Theorem C15_session_resume : forall hash cfg s l, srun5 hash cfg s l -> Forall clocked5 l ->
  forall t uuid p data now out, resumes5 hash cfg s t uuid p data now out -> cf_inflight_timeout cfg <= now ->
  exists n, Forall2 (sends wpid5 carries5 now) (flat_map wire5 out) (filter (fun x => negb (dead lifetime5 now x)) (firstn n (unfinished (o5_q (s_out s))))) /\
    N.of_nat n <= rmax5 cfg p /\ (0 < rmax5 cfg p -> unfinished (o5_q (s_out s)) <> [] -> (0 < n)%nat) /\
    (cf_max_pending cfg <= rmax5 cfg p -> n = List.length (unfinished (o5_q (s_out s)))).
Proof. exact sess5_resume. Qed.
Print Assumptions C15_session_resume.
Theorem C15_v3_session_resume : forall hash cfg s l, srun3 hash cfg s l -> Forall clocked3 l ->
  forall t s0 now out, resumes3 hash cfg s t s0 now out -> cf_inflight_timeout cfg <= now ->
  exists n, Forall2 (sends wpid3 carries3 now) (flat_map wire3 out) (firstn n (unfinished (o3_q (z_out s)))) /\
    N.of_nat n <= cf_inflight_client cfg /\ (0 < cf_inflight_client cfg -> unfinished (o3_q (z_out s)) <> [] -> (0 < n)%nat) /\
    (cf_max_pending cfg <= cf_inflight_client cfg -> n = List.length (unfinished (o3_q (z_out s)))).
Proof. exact sess3_resume. Qed.
Print Assumptions C15_v3_session_resume.
Theorem C15_session_unfinished : forall hash cfg s l, srun5 hash cfg s l -> Forall clocked5 l ->
  exists log, logs5 cfg l log /\ (lasting lifetime5 log -> unfinished (o5_q (s_out s)) = ledger log).
Proof. intros hash cfg s l R C. destruct (sess5_all hash cfg s l R C) as (log & L & A). exact (ex_intro _ log (conj L (a_led _ _ _ _ _ _ _ A))). Qed.
Print Assumptions C15_session_unfinished.
Theorem C15_v3_session_unfinished : forall hash cfg s l, srun3 hash cfg s l -> Forall clocked3 l ->
  exists log, logs3 cfg l log /\ unfinished (o3_q (z_out s)) = ledger log.
Proof. intros hash cfg s l R C. destruct (sess3_all hash cfg s l R C) as (log & L & A). exact (ex_intro _ log (conj L (a_led _ _ _ _ _ _ _ A (fun _ _ _ _ => eq_refl)))). Qed.
Print Assumptions C15_v3_session_unfinished.
(** Before the last step of [o_ops] three messages are unfinished, one of them received. *)
Example C15_case : let ops := firstn 5 o_ops ++ [O5Ack AckPubrec 105 2] in
  ledger (snd (run5 2 4 5 0 ops)) = [(1, Some (100, ex_pub L1 None "x")); (2, None); (3, Some (103, ex_pub L1 None "z"))] /\
  unfinished (o5_q (fst (run5 2 4 5 0 ops))) = ledger (snd (run5 2 4 5 0 ops)) /\
  map (sent_pid wpid5) (flat_map (fun e => match e with ESent 200 s => [s] | _ => [] end) (snd (run5 2 4 5 0 (ops ++ [O5Resume 2 0; O5Flush 200])))) = [Some 1; Some 2].
Proof. vm_compute. auto. Qed.
Example C15_session_case : unfinished (o5_q (s_out (fst (lk_run 8)))) <> [] /\
  exists out, resumes5 (fun _ => 0) ex_cfg (fst (lk_run 8)) 2000 "" (lk_connect false) None 2001 out.
Proof. split; [intros H; vm_compute in H; discriminate H|]. destruct C15_session_example as (_ & out & R & _). exists out. exact R. Qed.

(** ** C13: acknowledgements *)

(** An acknowledgement that names no unfinished message changes nothing, in every state. *)
Theorem C13_unheld k now p o : ~ In p (map fst (unfinished (o5_q o))) -> out5_on_queue (ack_queue k now p) o = (o, false).
Proof. exact (unheld5 k now p o). Qed.
Print Assumptions C13_unheld.
Theorem C13_unheld_v3 k now p o : ~ In p (map fst (unfinished (o3_q o))) -> out3_on_queue (ack_queue k now p) o = (o, false).
Proof. exact (unheld3 k now p o). Qed.
Print Assumptions C13_unheld_v3.
Example C13_unheld_case : ~ In 77 (map fst (unfinished (o5_q (fst (run5 2 4 5 0 o_ops))))) /\ unfinished (o5_q (fst (run5 2 4 5 0 o_ops))) <> [].
Proof. vm_compute. split; [intuition discriminate|discriminate]. Qed.

(** ** Sessions of a broker run *)
Section Props.
  Variables (hash5 : wpub5 -> N) (hash3 : wpub3 -> N) (pick : draw -> broker -> string -> string -> N).
  Local Notation brun := (brun hash5 hash3 pick).
  Local Notation usual h := ((forall p, In p h -> proper p) /\ (forall p, In p h -> after_1970 p)).
  (** The clock of a broker run does not go back, so the order needs no assumption. *)
  Theorem C09_broker_order : forall c h b k s, brun c h b -> usual h -> sess_at b k = Some (A5 s) ->
    exists l log, life5 k h l /\ logs5 c l log /\
      in_order (timely carries5 lifetime5) (first_sent wpid5 w5_dup log) (queued log) /\
      (lasting lifetime5 log -> honest wpid5 w5_dup log ->
       exists sent_ones waiting, queued log = sent_ones ++ waiting /\ Forall2 (transmits carries5) (first_sent wpid5 w5_dup log) sent_ones).
  Proof. intros c h b k s R (P & T) A. exact (broker5_order hash5 hash3 pick c h b k R P T s A). Qed.
  Theorem C09_v3_broker_order : forall c h b k s, brun c h b -> usual h -> sess_at b k = Some (A3 s) ->
    exists l log, life3 k h l /\ logs3 c l log /\ orderly3 log.
  Proof. intros c h b k s R (P & T) A. exact (broker3_order hash5 hash3 pick c h b k R P T s A). Qed.
  Theorem C14_broker_expiry : forall c h b k s, brun c h b -> usual h -> sess_at b k = Some (A5 s) ->
    exists l log, life5 k h l /\ logs5 c l log /\ sourced5 log /\
      exists matched rest, Permutation (queued log) (matched ++ rest) /\ Forall2 announced (first_sent wpid5 w5_dup log) matched.
  Proof. intros c h b k s R (P & T) A. exact (broker5_expiry hash5 hash3 pick c h b k R P T s A). Qed.
  Theorem C15_broker_unfinished : forall c h b k s, brun c h b -> usual h -> sess_at b k = Some (A5 s) ->
    exists l log, life5 k h l /\ logs5 c l log /\ (lasting lifetime5 log -> unfinished (o5_q (s_out s)) = ledger log).
  Proof. intros c h b k s R (P & T) A. exact (broker5_unfinished hash5 hash3 pick c h b k R P T s A). Qed.
  Theorem C15_v3_broker_unfinished : forall c h b k s, brun c h b -> usual h -> sess_at b k = Some (A3 s) ->
    exists l log, life3 k h l /\ logs3 c l log /\ unfinished (o3_q (z_out s)) = ledger log.
  Proof. intros c h b k s R (P & T) A. exact (broker3_unfinished hash5 hash3 pick c h b k R P T s A). Qed.
End Props.
(** A run that meets the hypotheses is [broker_window_case] in LifeProps. *)
Print Assumptions C09_broker_order.
Print Assumptions C09_v3_broker_order.
Print Assumptions C14_broker_expiry.
Print Assumptions C15_broker_unfinished.
Print Assumptions C15_v3_broker_unfinished.

(** ** C13 in full is false: a message that was never transmitted can be acknowledged away.

    Client "a" is away while two messages for it arrive, the first with an expiry interval of
    one second.  It comes back, with Receive Maximum 1, when that second is over.  The first
    message is discarded and the second moves to the front, but it is not transmitted in
    that round.  A PUBACK for its identifier is taken now, and the message is gone. *)
Definition x_pube (k : N) (e : option N) (m : string) : bev := EPacket5 k 10 (IPub (WPub5 false (Q1 7) false "t" m (PProps e None [] ""))).
Definition x_narrow : bev := EConnect5 0 "u" (Connect5 false 60 "a" None None None (Some 100) (Some 1) None None None None None) None.
Definition x_early : list bev := [ETick 100000; x_a true] ++ x_up 0 ++ [x_sub 0 "t"] ++ x_down 0 ++ [x_c5 "b" true 60 None None] ++ x_up 1 ++
  [x_pube 1 (Some 1) "one"; EFlush 1 0; x_pube 1 None "two"; EFlush 1 0; ENormal 0; ENormal 0; ETick 3000; x_narrow] ++ x_over 0 2 ++ x_up 2.
Theorem C13_not_in_flight_refuted : exists h b b' s s' m, x_run h b /\ (forall p, In p h -> proper p) /\ (forall p, In p h -> after_1970 p) /\
  sess_at b 2 = Some (A5 s) /\ unfinished (o5_q (s_out s)) = [(2, Some (100, m))] /\ p5_payload m = "two"%string /\
  (forall p k w, In p h -> ~ In (OPkt5 k (KPub w)) (w_out p)) /\
  x_step (EPacket5 2 4 (IPuback 2)) b = BOk b' [] /\ sess_at b' 2 = Some (A5 s') /\ unfinished (o5_q (s_out s')) = [].
Proof.
  assert (K : exists h b, x_run h b /\ (forall p, In p h -> proper p) /\ (forall p, In p h -> after_1970 p) /\ exists b' s s' m,
    sess_at b 2 = Some (A5 s) /\ unfinished (o5_q (s_out s)) = [(2, Some (100, m))] /\ p5_payload m = "two"%string /\
    (forall p k w, In p h -> ~ In (OPkt5 k (KPub w)) (w_out p)) /\
    x_step (EPacket5 2 4 (IPuback 2)) b = BOk b' [] /\ sess_at b' 2 = Some (A5 s') /\ unfinished (o5_q (s_out s')) = []).
  { run_of x_early. split; [proper_of|]. split; [after_of|]. do 4 eexists. split; [reflexivity|]. split; [reflexivity|]. split; [reflexivity|]. split; [|split; [vm_compute; reflexivity|split; reflexivity]].
    intros p k w. revert p. apply Forall_forall. repeat (apply Forall_cons; [cbn; intuition discriminate|]). apply Forall_nil. }
  destruct K as (h & b & R & P & T & b' & s & s' & m & K). exists h, b, b', s, s', m. auto.
Qed.
Print Assumptions C13_not_in_flight_refuted.
