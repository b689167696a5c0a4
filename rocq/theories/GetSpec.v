(** From a PUBLISH to the application of a subscriber (C80): vocabulary. *)
From Coq Require Import List Bool NArith String.
From Verif Require Import Base MsgModel OutModel OutSpec GlobModel Sess5Model Sess3Model ConnModel BrokerModel BrokerSpec LifeSpec DelivSpec InSpec LinkSpec SubsSpec RecvSpec EndSpec CliSpec StallSpec.
Import ListNotations.
Local Open Scope N_scope.
Local Open Scope list_scope.

(** Message [m] was queued under identifier [p] at time [t], after the log [pre]; [post] is the
    log since.  A correct client that meets this log (CliSpec) gives [m] to its application as
    follows.  [mid] is what happens until the identifier is used for another message, and [d] what
    the application gets under it meanwhile: nothing but [m], with QoS 2 at most once.  When the
    server has taken the last acknowledgement: with QoS 2 exactly once, with QoS 1 at least once
    ([given]: a condition on the log).  If [sure]: when nothing is under way any more, the server
    has taken it. *)
Definition gets {M W} (wqp : W -> qospid) (mqos : M -> qos) (carries : N -> N -> M -> W -> Prop) (given sure : Prop)
    (pre : list (oev M W)) (t : N) (p : pid) (m : M) (post : list (oev M W)) : Prop :=
  forall c1 c2, met wqp client_new (pre ++ [EQueued t p m]) c1 -> met wqp c1 post c2 ->
    exists mid rest cm d, post = mid ++ rest /\ (forall t' m', ~ In (EQueued t' p m') mid) /\ (rest = [] \/ exists t' m' r, rest = EQueued t' p m' :: r) /\
      met wqp c1 mid cm /\ met wqp cm rest c2 /\ got wqp p cm = got wqp p c1 ++ d /\ Forall (fun w => exists t', carries t t' m w) d /\
      (mqos m = L2 -> (List.length d <= 1)%nat) /\
      (given -> (exists k t', In (EAcked k t' p true) mid /\ k <> AckPubrec) -> (mqos m = L2 -> List.length d = 1%nat) /\ (mqos m = L1 -> (1 <= List.length d)%nat)) /\
      (sure -> at_rest c2 -> exists k t', In (EAcked k t' p true) mid /\ k <> AckPubrec).

(** No clean start among these events. *)
Definition goes_on5 (l : list (sev5 * list pkt5)) : Prop := forall now uuid p data o, In (VTake now uuid p data, o) l -> co_clean p = false.
Definition goes_on3 (l : list (sev3 * list pkt3)) : Prop := forall now s0 present o, In (UTake now s0 present, o) l -> present = true.

(** What becomes of a message with QoS [Q] that is handed to a session, whose events are [lr],
    after the events [l1], for a filter granted with QoS [q].  The session drops it only for one of
    three reasons (as in EndSpec).  Else it is the message [m], and if that is to be sent with QoS 1
    or 2 and no clean start follows, then the log of the session has it, either as turned down
    because the queue was full, or as queued, and then the client's application gets it. *)
Definition finds5 (hash : wpub5 -> N) (c : config) (lr l1 l2 : list (sev5 * list pkt5)) (now : N) (y : nmsg) (T P : string) (Q : qos) (n : N) (f : string) (q : qos) : Prop :=
  exists r1 r2 res, srun5 hash c r1 l1 /\ passes5 now c y r1 r2 res /\
    (res = None -> subscribed5 l1 f = None \/ s_maxpkt r1 < n \/ qos_min Q q = L0 /\ ~ up5 r1) /\
    forall m, res = Some m -> p5_topic m = T /\ p5_payload m = P /\ (exists q', qos_leb q q' = true /\ p5_qos m = qos_min Q q') /\
      (p5_qos m <> L0 -> goes_on5 l2 -> exists log pre p post, logs5 c lr log /\ logs5 c l1 pre /\
         (log = pre ++ EFull now p m :: post \/
          log = pre ++ EQueued now p m :: post /\ (few_enough c log -> gets w5_qp p5_qos carries5 (expired_unsent log wpid5) False pre now p m post))).
(** [up]: the client is connected at the end. *)
Definition finds3 (hash : wpub3 -> N) (c : config) (up : Prop) (lr l1 l2 : list (sev3 * list pkt3)) (now : N) (y : nmsg) (T P : string) (Q : qos) (f : string) (q : qos) : Prop :=
  exists r1 r2 res, srun3 hash c r1 l1 /\ passes3 now y r1 r2 res /\
    (res = None -> (exists f', In f' (nm_filters y) /\ subscribed3 c l1 f' = None) \/ qos_min Q q = L0 /\ z_disc r1 = true) /\
    forall m, res = Some m -> p3_topic m = T /\ p3_payload m = P /\ (exists q', qos_leb q q' = true /\ p3_qos m = qos_min Q q') /\
      (p3_qos m <> L0 -> goes_on3 l2 -> exists log pre p post, logs3 c lr log /\ logs3 c l1 pre /\
         (log = pre ++ EFull now p m :: post \/
          log = pre ++ EQueued now p m :: post /\ (few_enough c log -> gets w3_qp p3_qos carries3 True up pre now p m post))).
(** The v3 client of session [r] is connected on [k]; the clock is always late enough (StallSpec)
    and the configured window is not 0. *)
Definition ready3 (c : config) (h : list past) (b : broker) (k : N) (r : sess3) : Prop :=
  aget k (b_tasks b) = Some (TOnline (A3 r)) /\ (forall p, In p h -> late c p) /\ 0 < cf_inflight_client c.
