(** C79: with a client that follows the standard, every message comes to its end.

    [met w3_qp client_new log cl] (CliSpec): beside the log of the session, a client that
    answers as the standard says has come to [cl].  [at_rest cl]: no packet is under way to it and
    no acknowledgement from it, so it owes no answer.  [all_ended] (StallSpec): every QoS 1 or 2
    message accepted into the session was acknowledged to the end (or, with [True], given up for
    its age).  So the exchange cannot come to rest with something unfinished: as long as
    something is, a packet is under way, and the client's answer keeps the exchange going.
    [delivered_once] (C76) says what the application of the client got by then. *)
From Coq Require Import List Bool NArith String Lia.
From Verif Require Import Base BaseLemmas TopicModel TopicSpec MsgModel PendingModel OutModel RouteModel RouteSpec RetainModel GlobModel Sess5Model Sess3Model ConnModel RegModel BrokerModel
  OutSpec DelivSpec InSpec LinkSpec BrokerSpec LifeSpec CliSpec StallSpec RunProofs DoneProofs BrokerProps LifeProps OrderProps StallProps.
Import ListNotations.
Local Open Scope N_scope.
Local Open Scope list_scope.

Section Props.
  Variables (hash5 : wpub5 -> N) (hash3 : wpub3 -> N) (pick : draw -> broker -> string -> string -> N).
  Local Notation brun := (brun hash5 hash3 pick).
  Local Notation usual c h := ((forall p, In p h -> proper p) /\ (forall p, In p h -> after_1970 p) /\ (forall p, In p h -> late c p)).

  (** Protocol 3. *)
  Theorem C79_done_v3 : forall c h b k s, brun c h b -> usual c h -> 0 < cf_inflight_client c -> aget k (b_tasks b) = Some (TOnline (A3 s)) ->
    exists l log, life3 k h l /\ logs3 c l log /\ (few_enough c log -> delivered_once w3_qp p3_qos carries3 True log /\
      forall cl, met w3_qp client_new log cl -> at_rest cl -> all_ended False log).
  Proof. intros c h b k s R (P & T & L). exact (done3 hash5 hash3 pick c h b k s R P T L). Qed.
  (** Protocol 5.  Missing: the case that the broker has just discarded an expired message, where
      the exchange does come to rest too early ([C77_stall_refuted]). *)
  Theorem C79_done_v5_partial : forall c h b k s q t0 uuid p data, brun c h b -> usual c h -> aget k (b_tasks b) = Some (TOnline (A5 s)) -> a_disc (A5 s) = false ->
    made_by h q k -> w_e q = EConnect5 t0 uuid p data -> 0 < rmax5 c p ->
    exists l log, life5 k h l /\ logs5 c l log /\ (few_enough c log -> delivered_once w5_qp p5_qos carries5 (expired_unsent log wpid5) log /\
      forall cl, met w5_qp client_new log cl -> at_rest cl -> all_ended True log \/ just_expired wpid5 log).
  Proof. intros c h b k s q t0 uuid p data R (P & T & L). exact (done5 hash5 hash3 pick c h b k s q t0 uuid p data R P T L). Qed.
End Props.
Print Assumptions C79_done_v3.
Print Assumptions C79_done_v5_partial.

(** ** A case that meets the hypotheses: a client of protocol 3 has got a message and its
    acknowledgement has reached the server; nothing is under way. *)
Definition y_evs : list bev := [ETick 100000; x_c3 false "c" true 60 None] ++ x_up 0 ++ [x_s3 0 "t"; x_c5 "p" true 60 None None] ++ x_up 1 ++
  [x_pub 1 "t"; EFlush 1 0; ENormal 0; EPacket3 0 4 (YPuback 1)].
Definition y_w : wpub3 := WPub3 false (Q1 1) false "t" "m".
Definition y_m : pub3 := Pub3 "t" L1 false "m".
Definition y_parts : list (list (oev pub3 wpub3)) := [[]; []; []; [EQueued 100 1 y_m]; [ESent 100 (SPub y_w)]; [EAcked AckPuback 100 1 true]].
Definition y_log : list (oev pub3 wpub3) := [EConn 10] ++ List.concat y_parts.
Lemma logs3_parts cfg l parts : Forall2 (fun e p => logged3 cfg (fst e) (snd e) p) l parts -> forall l0 log0, logs3 cfg l0 log0 ->
  logs3 cfg (l0 ++ l) (log0 ++ List.concat parts).
Proof.
  induction 1 as [|[e o] p l parts H F IH]; intros l0 log0 L; [cbn; now rewrite !app_nil_r|].
  cbn [List.concat]. replace (l0 ++ (e, o) :: l) with ((l0 ++ [(e, o)]) ++ l) by (rewrite <- app_assoc; reflexivity). rewrite app_assoc. apply IH. now apply lg3_step.
Qed.
Lemma y_met : met w3_qp client_new y_log (Client [] [] [] [y_w]).
Proof.
  change y_log with ((([] ++ [EConn 10]) ++ [EQueued 100 1 y_m]) ++ [ESent 100 (SPub y_w)] ++ [EAcked AckPuback 100 1 true] : list (oev pub3 wpub3)). rewrite app_assoc.
  eapply met_event with (c1 := Client [] [(AckPuback, 1)] [] [y_w]); [|exact (hd_acked w3_qp (Client [] [(AckPuback, 1)] [] [y_w]) AckPuback 100 1 true [] eq_refl)].
  refine (met_receive w3_qp _ _ (Client [SPub y_w] [] [] []) _ [] _ eq_refl).
  eapply met_event with (c1 := Client [] [] [] []); [|exact (hd_sent w3_qp (Client [] [] [] []) 100 _)].
  eapply met_event with (c1 := Client [] [] [] []); [|apply hd_queued; split; constructor].
  eapply met_event; [constructor|]. exact (hd_conn w3_qp client_new 10).
Qed.
Example done_case : exists h b, x_run h b /\ (forall p, In p h -> proper p) /\ (forall p, In p h -> after_1970 p) /\ (forall p, In p h -> late config_default p) /\
  (exists s, aget 0 (b_tasks b) = Some (TOnline (A3 s))) /\ (exists l, life3 0 h l /\ logs3 config_default l y_log) /\ few_enough config_default y_log /\
  In (EQueued 100 1 y_m) y_log /\ exists cl, met w3_qp client_new y_log cl /\ at_rest cl /\ c_app cl = [y_w].
Proof.
  run_of y_evs. split; [proper_of|]. split; [after_of|]. split; [late_of|]. split; [eexists; reflexivity|]. split; [|split; [|split; [cbn; auto|]]].
  - eexists. split.
    { repeat match goal with |- life3 0 (?p :: _) _ => let e := eval cbn in (w_e p) in
        match e with EJoin 0 => eapply lf3_new; [reflexivity|right; eexists; cbn; left; reflexivity|split; [right; left; reflexivity|reflexivity]|reflexivity]
        | EStart 0 => eapply lf3_step; [|apply d3_start; reflexivity] | EPacket3 0 ?n ?x => eapply lf3_step; [|apply (d3_pkt 0 p n x); reflexivity]
        | ENormal 0 => eapply lf3_step; [|eapply d3_send; [reflexivity|reflexivity|reflexivity]]
        | _ => eapply lf3_step; [|apply (d3_still _ _ []); [cbn; first [exact Logic.I|discriminate]|reflexivity|constructor]] end end. }
    cbn [app]. rewrite ?app_nil_r.
    repeat match goal with |- context[seconds ?x] => let v := eval vm_compute in (seconds x) in change (seconds x) with v end.
    repeat match goal with |- context[pkts3 0 ?x] => let v := eval vm_compute in (pkts3 0 x) in change (pkts3 0 x) with v end.
    repeat match goal with |- context[glob_of ?x] => let g := fresh "g" in set (g := glob_of x) end.
    match goal with |- logs3 ?c ?l ?log => change (logs3 c ([] ++ l) ([EConn 10] ++ List.concat y_parts)) end. apply logs3_parts; [|constructor]. unfold y_parts.
    constructor; [split; reflexivity|]. constructor; [exists [], []; repeat split; constructor|].
    constructor; [exists []; split; [exists [], []; repeat split; constructor|left; reflexivity]|].
    constructor; [exists [], [EQueued 100 1 y_m]; repeat split; repeat constructor|].
    constructor; [exists [], [ESent 100 (SPub y_w)]; repeat split; repeat constructor|].
    constructor; [exists []; split; [exists [EAcked AckPuback 100 1 true], []; split; [reflexivity|]; split; [exists true; split; [reflexivity|exact Logic.I]|]; split; [reflexivity|constructor]|left; reflexivity]|].
    constructor.
  - left. split; [vm_compute; discriminate|]. intros t p m J. cbn in J. repeat destruct J as [J|J]; try discriminate; exact J.
  - eexists. split; [exact y_met|]. split; [split; reflexivity|reflexivity].
Qed.
