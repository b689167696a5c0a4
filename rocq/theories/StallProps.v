(** C77: deliveries to a connected client do not stall.

    The broker has no timer for retransmissions: it transmits only when it serves the client
    for another reason.  So between two such moments something must be on its way to the
    client, whose acknowledgement makes the broker go on, as long as any QoS 1 or 2 message is
    unfinished.  [on_its_way] (StallSpec) is read off the log of the session ([logs5], LinkSpec);
    [life5 k h l]: the session of connection [k] has seen [l] (LifeSpec); [few_enough] excludes
    that packet identifiers come round while in use (C10). *)
From Coq Require Import List Bool NArith String Lia.
From Verif Require Import Base BaseLemmas TopicModel TopicSpec MsgModel PendingModel OutModel RouteModel RouteSpec RetainModel GlobModel Sess5Model Sess3Model ConnModel RegModel BrokerModel
  OutSpec DelivSpec InSpec LinkSpec BrokerSpec LifeSpec StallSpec RunProofs StallProofs BrokerProps LifeProps OrderProps.
Import ListNotations.
Local Open Scope N_scope.
Local Open Scope list_scope.

Section Props.
  Variables (hash5 : wpub5 -> N) (hash3 : wpub3 -> N) (pick : draw -> broker -> string -> string -> N).
  Local Notation brun := (brun hash5 hash3 pick).
  (** Proper packets, after 1970, and the clock is not in the first seconds of 1970 either. *)
  Local Notation usual c h := ((forall p, In p h -> proper p) /\ (forall p, In p h -> after_1970 p) /\ (forall p, In p h -> late c p)).

  (** Protocol 3: while a client is connected and a message is unfinished, one is on its way. *)
  Theorem C77_flow_v3 : forall c h b k s, brun c h b -> usual c h -> 0 < cf_inflight_client c -> aget k (b_tasks b) = Some (TOnline (A3 s)) ->
    exists l log, life3 k h l /\ logs3 c l log /\ (few_enough c log -> (exists p, active p log = true) ->
      exists p, on_its_way wpid3 w3_dup carries3 lifetime3 (cf_inflight_timeout c) p log).
  Proof. intros c h b k s R (P & T & L). exact (flow3 hash5 hash3 pick c h b k s R P T L). Qed.
  (** Protocol 5: likewise, if the Receive Maximum is not 0 and no DISCONNECT is being handled.
      Missing: the case that the broker has just discarded an expired message
      ([C77_stall_refuted]). *)
  Theorem C77_flow_v5_partial : forall c h b k s q t0 uuid p data, brun c h b -> usual c h -> aget k (b_tasks b) = Some (TOnline (A5 s)) -> a_disc (A5 s) = false ->
    made_by h q k -> w_e q = EConnect5 t0 uuid p data -> 0 < rmax5 c p ->
    exists l log, life5 k h l /\ logs5 c l log /\ (few_enough c log -> (exists p, active p log = true) ->
      (exists p, on_its_way wpid5 w5_dup carries5 lifetime5 (cf_inflight_timeout c) p log) \/ just_expired wpid5 log).
  Proof. intros c h b k s q t0 uuid p data R (P & T & L). exact (flow5 hash5 hash3 pick c h b k s q t0 uuid p data R P T L). Qed.
End Props.
Print Assumptions C77_flow_v3.
Print Assumptions C77_flow_v5_partial.

(** ** Cases that meet the hypotheses *)
Ltac late_of := apply Forall_forall; repeat (apply Forall_cons; [vm_compute; first [exact Logic.I | discriminate]|]); apply Forall_nil.
(** Both a client of protocol 5 (connection 2) and one of protocol 3 (connection 1) are
    connected and have a message in flight. *)
Example flow_case : exists h b, x_run h b /\ (forall p, In p h -> proper p) /\ (forall p, In p h -> after_1970 p) /\ (forall p, In p h -> late config_default p) /\
  (exists s q t0 uuid p data, aget 2 (b_tasks b) = Some (TOnline (A5 s)) /\ a_disc (A5 s) = false /\ made_by h q 2 /\ w_e q = EConnect5 t0 uuid p data /\
     0 < rmax5 config_default p /\ unacked5 config_default 2 h = [1]) /\
  (exists s, aget 1 (b_tasks b) = Some (TOnline (A3 s)) /\ unacked3 config_default 1 h = [1]) /\ 0 < cf_inflight_client config_default.
Proof.
  run_of x_sent. split; [proper_of|]. split; [after_of|]. split; [late_of|]. split; [|split].
  - do 6 eexists. split; [reflexivity|]. split; [reflexivity|]. split; [split; [do 14 right; left; reflexivity|reflexivity]|]. split; [reflexivity|]. split; reflexivity.
  - eexists. split; reflexivity.
  - reflexivity.
Qed.

(** ** The full statement is false for protocol 5: a message waits behind an expired one.

    [x_early] (OrderProps): client "a" comes back with Receive Maximum 1; of the two messages
    that wait for it the first has expired.  The broker discards it and stops there.  Thirty
    seconds later, nothing has been transmitted at all: nothing is there that the client could
    acknowledge.  Only when the client sends a packet for another reason does the broker
    transmit the second message. *)
Theorem C77_stall_refuted : exists h b s q t0 uuid p data b' w, x_run h b /\ (forall p, In p h -> proper p) /\ (forall p, In p h -> after_1970 p) /\ (forall p, In p h -> late config_default p) /\
  aget 2 (b_tasks b) = Some (TOnline (A5 s)) /\ a_disc (A5 s) = false /\ made_by h q 2 /\ w_e q = EConnect5 t0 uuid p data /\ rmax5 config_default p = 1 /\
  (forall p k w, In p h -> ~ In (OPkt5 k (KPub w)) (w_out p)) /\
  x_step (EPacket5 2 2 IPing) b = BOk b' [OPkt5 2 KPingresp; OPkt5 2 (KPub w)] /\ w5_payload w = "two"%string.
Proof.
  assert (K : exists h b, x_run h b /\ (forall p, In p h -> proper p) /\ (forall p, In p h -> after_1970 p) /\ (forall p, In p h -> late config_default p) /\ exists s q t0 uuid p data b' w,
    aget 2 (b_tasks b) = Some (TOnline (A5 s)) /\ a_disc (A5 s) = false /\ made_by h q 2 /\ w_e q = EConnect5 t0 uuid p data /\ rmax5 config_default p = 1 /\
    (forall p k w, In p h -> ~ In (OPkt5 k (KPub w)) (w_out p)) /\
    x_step (EPacket5 2 2 IPing) b = BOk b' [OPkt5 2 KPingresp; OPkt5 2 (KPub w)] /\ w5_payload w = "two"%string).
  { run_of (x_early ++ [ETick 30000]). split; [proper_of|]. split; [after_of|]. split; [late_of|]. do 8 eexists. split; [reflexivity|]. split; [reflexivity|].
    split; [split; [do 6 right; left; reflexivity|reflexivity]|]. split; [reflexivity|]. split; [reflexivity|].
    split; [|split; [vm_compute; reflexivity|reflexivity]].
    intros p k w. revert p. apply Forall_forall. repeat (apply Forall_cons; [cbn; intuition discriminate|]). apply Forall_nil. }
  destruct K as (h & b & R & P & T & L & s & q & t0 & u & p & d & b' & w & K). exists h, b, s, q, t0, u, p, d, b', w. auto.
Qed.
Print Assumptions C77_stall_refuted.
