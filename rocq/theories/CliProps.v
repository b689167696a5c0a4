(** C76: a client that follows the standard gives each QoS 2 message to its application once.

    [client], [receive], [met] (CliSpec): a correct client and a network that keeps the order and
    loses what is under way when a connection ends.  [delivered_once] (CliSpec): with QoS 2 the
    application gets the message at most once, and exactly once when the exchange is finished
    (the server took the PUBCOMP); with QoS 1 at least once when the server took the PUBACK.
    The log is that of the session (LinkSpec), on whichever connections; [life5] (LifeSpec) is
    what a session of a broker run has seen.

    [few_enough] excludes that identifiers come round while in use (C10), and [met] that packets
    of the last use of an identifier are still under way at the next one.  With MQTT 5, exactly
    once also needs that no message that was already transmitted is given up for its age
    ([expired_unsent]; C74_kept_refuted shows that this can happen): the client keeps its
    identifier stored and takes the next message under it for a repetition. *)
From Coq Require Import List Bool NArith String Lia.
From Verif Require Import Base BaseLemmas MsgModel RouteModel RetainModel PendingModel OutModel GlobModel Sess5Model Sess3Model ConnModel RegModel BrokerModel
  OutSpec InSpec InProps LinkSpec LinkProps BrokerSpec LifeSpec CliSpec CliFacts.
Import ListNotations.
Local Open Scope N_scope.
Local Open Scope list_scope.

Theorem C76_once_partial : forall hash cfg s l, srun5 hash cfg s l -> Forall clocked5 l ->
  exists log, logs5 cfg l log /\ (few_enough cfg log -> delivered_once w5_qp p5_qos carries5 (expired_unsent log wpid5) log).
Proof. exact sess_once5. Qed.
Print Assumptions C76_once_partial.
Theorem C76_v3_once_partial : forall hash cfg s l, srun3 hash cfg s l -> Forall clocked3 l ->
  exists log, logs3 cfg l log /\ (few_enough cfg log -> delivered_once w3_qp p3_qos carries3 True log).
Proof. exact sess_once3. Qed.
Print Assumptions C76_v3_once_partial.

(** The same for the sessions of a broker run. *)
Theorem C76_broker_once_partial : forall hash5 hash3 pick c h b k s, brun hash5 hash3 pick c h b ->
  (forall p, In p h -> proper p) -> (forall p, In p h -> after_1970 p) -> sess_at b k = Some (A5 s) ->
  exists l log, life5 k h l /\ logs5 c l log /\ (few_enough c log -> delivered_once w5_qp p5_qos carries5 (expired_unsent log wpid5) log).
Proof. exact broker_once5. Qed.
Print Assumptions C76_broker_once_partial.
Theorem C76_v3_broker_once_partial : forall hash5 hash3 pick c h b k s, brun hash5 hash3 pick c h b ->
  (forall p, In p h -> proper p) -> (forall p, In p h -> after_1970 p) -> sess_at b k = Some (A3 s) ->
  exists l log, life3 k h l /\ logs3 c l log /\ (few_enough c log -> delivered_once w3_qp p3_qos carries3 True log).
Proof. exact broker_once3. Qed.
Print Assumptions C76_v3_broker_once_partial.

(** A case: the client subscribes to "t" and is sent a QoS 2 message.  It gets the PUBLISH, but
    its PUBREC is lost with the connection.  On the next connection the PUBLISH comes again; the
    client answers it, and the exchange is finished.  The application got the message once. *)
Definition ck_evs : list sev5 :=
  [VPkt 1001 20 (ISub 1 None [("t"%string, SubOpts L2 false false RH_send)]) ex_g;
   VMsg 1002 (lk_msg L2 "y"); VFlush 1002; VTake 2000 "" (lk_connect false) None; VSet; VFlush 2001;
   VPkt 2002 4 (IPubrec 1) ex_g; VPkt 2003 4 (IPubcomp 1) ex_g].
Definition ck_run : sess5 * list (sev5 * list pkt5) :=
  match execs5 (fun _ => 0) ex_pick ex_cfg lk_s0 [] ck_evs with Some x => x | None => (lk_s0, []) end.
Definition ck_parts : list (list (oev pub5 wpub5)) :=
  [[]; [EQueued 1002 1 (lk_pub L2 "y")]; [ESent 1002 (SPub (lk_wire false (Q2 1) "y"))]; [EConn 2]; [];
   [ESent 2001 (SPub (lk_wire true (Q2 1) "y"))]; [EAcked AckPubrec 2002 1 true]; [EAcked AckPubcomp 2003 1 true]].
Definition ck_log : list (oev pub5 wpub5) := EConn 2 :: List.concat ck_parts.
Definition ck_post : list (oev pub5 wpub5) := List.concat (skipn 2 ck_parts).
Lemma ck_logs : logs5 ex_cfg (snd ck_run) ck_log.
Proof.
  change (logs5 ex_cfg ([] ++ snd ck_run) ([EConn 2] ++ List.concat ck_parts)). apply logs5_parts; [|constructor].
  set (l := snd ck_run). vm_compute in l. subst l. unfold ck_parts.
  constructor; [exists [], []; repeat split; constructor|].
  constructor; [exists [], [EQueued 1002 1 (lk_pub L2 "y")]; repeat split; repeat constructor|].
  constructor; [exists [], [ESent 1002 (SPub (lk_wire false (Q2 1) "y"))]; repeat split; repeat constructor|].
  constructor; [split; reflexivity|]. constructor; [split; reflexivity|].
  constructor; [exists [], [ESent 2001 (SPub (lk_wire true (Q2 1) "y"))]; repeat split; repeat constructor|].
  constructor; [exists [EAcked AckPubrec 2002 1 true], []; split; [reflexivity|]; split;
    [exists true; split; [reflexivity|]; eexists; reflexivity|]; split; [reflexivity|]; repeat constructor|].
  constructor; [exists [EAcked AckPubcomp 2003 1 true], []; split; [reflexivity|]; split;
    [exists true; split; [reflexivity|exact Logic.I]|]; split; [reflexivity|]; repeat constructor|].
  constructor.
Qed.
Lemma ck_wf : Forall (wf_ev5 ex_cfg) ck_evs.
Proof. repeat constructor; cbn; trivial; try (exists ex_h; reflexivity). Qed.

Lemma ck_met1 : met w5_qp client_new ([EConn 2] ++ [EQueued 1002 1 (lk_pub L2 "y")]) (Client [] [] [] []).
Proof.
  eapply met_event with (c1 := Client [] [] [] []).
  - change [EConn 2] with ([] ++ [EConn 2] : list (oev pub5 wpub5)). eapply met_event; [constructor|]. exact (hd_conn w5_qp client_new 2).
  - apply hd_queued. split; constructor.
Qed.
Lemma ck_met2 : met w5_qp (Client [] [] [] []) ck_post (Client [] [] [] [lk_wire false (Q2 1) "y"]).
Proof.
  change ck_post with (((([] ++ [ESent 1002 (SPub (lk_wire false (Q2 1) "y"))]) ++ [EConn 2]) ++ [ESent 2001 (SPub (lk_wire true (Q2 1) "y"))]) ++ [EAcked AckPubrec 2002 1 true] ++ [EAcked AckPubcomp 2003 1 true] : list (oev pub5 wpub5)).
  rewrite app_assoc.
  (* the PUBCOMP *)
  eapply met_event with (c1 := Client [] [(AckPubcomp, 1)] [] [lk_wire false (Q2 1) "y"]); [|exact (hd_acked w5_qp (Client [] [(AckPubcomp, 1)] [] [lk_wire false (Q2 1) "y"]) AckPubcomp 2003 1 true [] eq_refl)].
  (* the client gets PUBREL *)
  refine (met_receive w5_qp _ _ (Client [SRel 1] [] [1] [lk_wire false (Q2 1) "y"]) (SRel 1) [] _ eq_refl).
  eapply met_event with (c1 := Client [] [(AckPubrec, 1)] [1] [lk_wire false (Q2 1) "y"]); [|exact (hd_acked w5_qp (Client [] [(AckPubrec, 1)] [1] [lk_wire false (Q2 1) "y"]) AckPubrec 2002 1 true [] eq_refl)].
  (* and the repeated PUBLISH *)
  refine (met_receive w5_qp _ _ (Client [SPub (lk_wire true (Q2 1) "y")] [] [1] [lk_wire false (Q2 1) "y"]) _ [] _ eq_refl).
  eapply met_event with (c1 := Client [] [] [1] [lk_wire false (Q2 1) "y"]); [|exact (hd_sent w5_qp (Client [] [] [1] [lk_wire false (Q2 1) "y"]) 2001 _)].
  eapply met_event with (c1 := Client [] [(AckPubrec, 1)] [1] [lk_wire false (Q2 1) "y"]); [|exact (hd_conn w5_qp (Client [] [(AckPubrec, 1)] [1] [lk_wire false (Q2 1) "y"]) 2)].
  (* and before that the first PUBLISH *)
  refine (met_receive w5_qp _ _ (Client [SPub (lk_wire false (Q2 1) "y")] [] [] []) _ [] _ eq_refl).
  eapply met_event with (c1 := Client [] [] [] []); [constructor|exact (hd_sent w5_qp (Client [] [] [] []) 1002 _)].
Qed.
Example C76_once_case : srun5 (fun _ => 0) ex_cfg (fst ck_run) (snd ck_run) /\ Forall clocked5 (snd ck_run) /\
  logs5 ex_cfg (snd ck_run) ck_log /\ few_enough ex_cfg ck_log /\ expired_unsent ck_log wpid5 /\
  ck_log = [EConn 2] ++ EQueued 1002 1 (lk_pub L2 "y") :: ck_post ++ [] /\ (forall t' m', ~ In (EQueued t' 1 m') ck_post) /\
  In (EAcked AckPubcomp 2003 1 true) ck_post /\
  exists c1 c2, met w5_qp client_new ([EConn 2] ++ [EQueued 1002 1 (lk_pub L2 "y")]) c1 /\ met w5_qp c1 ck_post c2 /\
    got w5_qp 1 c1 = [] /\ got w5_qp 1 c2 = [lk_wire false (Q2 1) "y"].
Proof.
  split. { eapply (execs5_run (fun _ => 0) ex_pick ex_cfg ck_evs lk_s0 []); [exact lk_run0|exact ck_wf|]. vm_compute. reflexivity. }
  split. { set (l := snd ck_run). vm_compute in l. subst l. repeat constructor. }
  split; [exact ck_logs|]. split.
  { left. split; [vm_compute; discriminate|]. intros t p m I. cbn in I. repeat destruct I as [I|I]; try discriminate; exact I. }
  split. { intros l1 t p l2 t' w l3 l4 t0 m E1 E2. exfalso. assert (J : In (EExpired t p) ck_log) by (rewrite E1, E2; apply in_app_iff; right; right; apply in_elt).
    cbn in J. repeat destruct J as [J|J]; try discriminate; exact J. }
  split; [reflexivity|]. split. { intros t' m' J. cbn in J. repeat destruct J as [J|J]; try discriminate; exact J. }
  split; [cbn; auto 10|]. eexists _, _. split; [exact ck_met1|]. split; [exact ck_met2|]. split; reflexivity.
Qed.
