(** Vocabulary for the properties of outgoing QoS 1/2 messages (C08 - C15).

    A run of the outgoing side of a session is a list of operations; it yields a
    log of observable events.  The specification is an automaton that follows one
    packet identifier through the log ([lstep]), plus a few functions of the log.
    Nothing here mentions the queue. *)
From Coq Require Import List Bool String NArith.
From Verif Require Import Base MsgModel OutModel.
Import ListNotations.
Local Open Scope N_scope.

Inductive ackkind := AckPuback | AckPubrec | AckPubcomp.

(** [M]: queued messages, [W]: PUBLISH packets on the wire. *)
Inductive oev (M W : Type) :=
| EConn (rm : N)                            (* a connection begins, with this in-flight limit *)
| EQueued (t : N) (p : pid) (m : M)         (* a QoS 1/2 message is queued under identifier p *)
| EFull (t : N) (p : pid) (m : M)           (* a QoS 1/2 message is dropped *)
| ESent (t : N) (s : sent W)                (* a PUBLISH or PUBREL is transmitted *)
| EAcked (k : ackkind) (t : N) (p : pid) (ok : bool)  (* an acknowledgement arrives; ok: it is accepted *)
| EExpired (t : N) (p : pid).               (* a queued message is discarded because it expired *)
Arguments EConn {M W}. Arguments EQueued {M W}. Arguments EFull {M W}. Arguments ESent {M W}.
Arguments EAcked {M W}. Arguments EExpired {M W}.

(** Life of the message that holds packet identifier [p]. [t0] is the time it was
    queued; the option is the time of the last transmission on this connection. *)
Inductive lstate (M : Type) :=
| Idle
| Waiting (t0 : N) (m : M)
| InFlight (t0 : N) (m : M) (last : option N)
| Released (last : option N).
Arguments Idle {M}. Arguments Waiting {M}. Arguments InFlight {M}. Arguments Released {M}.

Section Spec.
  Context {M W : Type}.
  Variable wpid : W -> option pid.                   (* packet identifier of a PUBLISH *)
  Variable wdup : W -> bool.                         (* its DUP flag *)
  Variable carries : N -> N -> M -> W -> Prop.       (* [w] is [m], queued at t0 and sent at t *)
  Variable lifetime : M -> option N.                 (* Message Expiry Interval *)

  Definition elapsed (t0 t : N) (m : M) : Prop := exists v, lifetime m = Some v /\ v <= t - t0.

  Definition sent_pid (s : sent W) : option pid := match s with SPub w => wpid w | SRel p => Some p end.

  (** The packet identifier an event is about. *)
  Definition about (e : oev M W) : option pid :=
    match e with
    | EConn _ => None
    | EQueued _ p _ => Some p
    | EFull _ _ _ => None
    | ESent _ (SPub w) => wpid w
    | ESent _ (SRel p) => Some p
    | EAcked _ _ p _ => Some p
    | EExpired _ p => Some p
    end.

  Inductive lstep (timeout : N) (p : pid) : lstate M -> oev M W -> lstate M -> Prop :=
  | ls_other st e : about e <> Some p -> (forall rm, e <> EConn rm) -> lstep timeout p st e st
  (* a new connection: nothing has been transmitted on it yet *)
  | ls_conn_idle rm : lstep timeout p Idle (EConn rm) Idle
  | ls_conn_wait rm t0 m : lstep timeout p (Waiting t0 m) (EConn rm) (Waiting t0 m)
  | ls_conn_sent rm t0 m l : lstep timeout p (InFlight t0 m l) (EConn rm) (InFlight t0 m None)
  | ls_conn_rel rm l : lstep timeout p (Released l) (EConn rm) (Released None)
  (* an identifier is taken only when free *)
  | ls_queue t m : lstep timeout p Idle (EQueued t p m) (Waiting t m)
  (* first transmission: DUP=0, not after the lifetime *)
  | ls_first t0 t m w : wpid w = Some p -> wdup w = false -> carries t0 t m w -> ~ elapsed t0 t m ->
      lstep timeout p (Waiting t0 m) (ESent t (SPub w)) (InFlight t0 m (Some t))
  (* first transmission on a later connection: DUP=1 *)
  | ls_resume t0 t m w : wpid w = Some p -> wdup w = true -> carries t0 t m w -> ~ elapsed t0 t m ->
      lstep timeout p (InFlight t0 m None) (ESent t (SPub w)) (InFlight t0 m (Some t))
  (* retransmission on the same connection: DUP=1, after the timeout *)
  | ls_again t0 t1 t m w : wpid w = Some p -> wdup w = true -> carries t0 t m w -> timeout + t1 <= t ->
      lstep timeout p (InFlight t0 m (Some t1)) (ESent t (SPub w)) (InFlight t0 m (Some t))
  (* PUBREL *)
  | ls_rel_first t : lstep timeout p (Released None) (ESent t (SRel p)) (Released (Some t))
  | ls_rel_again t1 t : timeout + t1 <= t ->
      lstep timeout p (Released (Some t1)) (ESent t (SRel p)) (Released (Some t))
  (* acknowledgements *)
  | ls_refused st k t : lstep timeout p st (EAcked k t p false) st
  | ls_puback t0 m l t : lstep timeout p (InFlight t0 m l) (EAcked AckPuback t p true) Idle
  | ls_puback_early t0 m t : lstep timeout p (Waiting t0 m) (EAcked AckPuback t p true) Idle
  | ls_pubrec t0 m l t : lstep timeout p (InFlight t0 m l) (EAcked AckPubrec t p true) (Released (Some t))
  | ls_pubrec_early t0 m t : lstep timeout p (Waiting t0 m) (EAcked AckPubrec t p true) (Released (Some t))
  | ls_pubcomp l t : lstep timeout p (Released l) (EAcked AckPubcomp t p true) Idle
  (* expiry: only a message not yet transmitted on this connection *)
  | ls_expire_wait t0 t m : elapsed t0 t m -> lstep timeout p (Waiting t0 m) (EExpired t p) Idle
  | ls_expire_resumed t0 t m : elapsed t0 t m ->
      lstep timeout p (InFlight t0 m None) (EExpired t p) Idle.

  (** The life of identifier [p] along a log.  That [life p log st] holds for some
      [st] says that every event of the log was allowed. *)
  Inductive life (timeout : N) (p : pid) : list (oev M W) -> lstate M -> Prop :=
  | life_nil : life timeout p [] Idle
  | life_snoc log st e st' : life timeout p log st -> lstep timeout p st e st' -> life timeout p (log ++ [e]) st'.

  (** Identifier [p] is held by an unfinished message after [log]. *)
  Definition active_step (p : pid) (b : bool) (e : oev M W) : bool :=
    match e with
    | EQueued _ q _ => if q =? p then true else b
    | EAcked AckPuback _ q true | EAcked AckPubcomp _ q true | EExpired _ q => if q =? p then false else b
    | _ => b
    end.
  Definition active (p : pid) (log : list (oev M W)) : bool := fold_left (active_step p) log false.

  (** No message is queued under an identifier that is still held. *)
  Definition no_reuse (log : list (oev M W)) : Prop :=
    forall l1 t p m l2, log = (l1 ++ EQueued t p m :: l2)%list -> active p l1 = false.

  (** Identifiers transmitted on the current connection and not acknowledged
      since by PUBACK or PUBCOMP, each once. *)
  Definition add_pid (p : pid) (l : list pid) : list pid := if existsb (N.eqb p) l then l else p :: l.
  Definition outstanding_step (l : list pid) (e : oev M W) : list pid :=
    match e with
    | EConn _ => []
    | ESent _ (SPub w) => match wpid w with Some p => add_pid p l | None => l end
    | ESent _ (SRel p) => add_pid p l
    | EAcked AckPuback _ p _ | EAcked AckPubcomp _ p _ => filter (fun q => negb (q =? p)) l
    | _ => l
    end.
  Definition outstanding (log : list (oev M W)) : list pid := fold_left outstanding_step log [].

  (** The in-flight limit of the current connection. *)
  Definition receive_max (log : list (oev M W)) : N :=
    fold_left (fun rm e => match e with EConn rm' => rm' | _ => rm end) log 0.

  (** Messages queued, and first transmissions (DUP=0), in order, with their times. *)
  Definition queued (log : list (oev M W)) : list (N * pid * M) :=
    flat_map (fun e => match e with EQueued t p m => [(t, p, m)] | _ => [] end) log.
  Definition first_sent (log : list (oev M W)) : list (N * pid * W) :=
    flat_map (fun e => match e with
                       | ESent t (SPub w) =>
                           if wdup w then [] else match wpid w with Some p => [(t, p, w)] | None => [] end
                       | _ => [] end) log.
  (** [w], sent at t, is the transmission of [m], queued at t0, under the same identifier. *)
  Definition transmits (s : N * pid * W) (q : N * pid * M) : Prop :=
    match s, q with (t, p, w), (t0, p', m) => p = p' /\ carries t0 t m w end.
  (** The transmissions are those of some of the queued messages, in the same order. *)
  Inductive in_order : list (N * pid * W) -> list (N * pid * M) -> Prop :=
  | ino_nil qs : in_order [] qs
  | ino_sent s ss q qs : transmits s q -> in_order ss qs -> in_order (s :: ss) (q :: qs)
  | ino_skip ss q qs : in_order ss qs -> in_order ss (q :: qs).
  Definition no_expiry_event (log : list (oev M W)) : Prop := forall t p, ~ In (EExpired t p) log.
  (** No acknowledgement is accepted for a message that was never transmitted. *)
  Definition no_early_ack (timeout : N) (log : list (oev M W)) : Prop :=
    forall l1 k t p l2 t0 m, log = (l1 ++ EAcked k t p true :: l2)%list -> ~ life timeout p l1 (Waiting t0 m).
  (** Identifiers given to arriving QoS 1/2 messages, queued or dropped, in order. *)
  Definition arrivals (log : list (oev M W)) : list pid :=
    flat_map (fun e => match e with EQueued _ p _ | EFull _ p _ => [p] | _ => [] end) log.
  (** Whenever a message is queued, fewer than 65535 messages have arrived since
      any message that is still unfinished (counting from that message). *)
  Definition recent_enough (log : list (oev M W)) : Prop :=
    forall l1 t p m l2 t' p' m' l3,
      log = (l1 ++ EQueued t p m :: l2 ++ EQueued t' p' m' :: l3)%list ->
      active p (l1 ++ EQueued t p m :: l2)%list = true ->
      1 + N.of_nat (List.length (arrivals l2)) < 65535.
  Definition nothing_dropped (log : list (oev M W)) : Prop := forall t p m, ~ In (EFull t p m) log.
End Spec.

Definition qp_pid (x : qospid) : option pid := match x with Q0 => None | Q1 p | Q2 p => Some p end.

(** ** The outgoing side of a v5 session as a machine *)
Inductive op5 :=
| O5Msg (now : N) (x : pub5)                     (* a message to be delivered with QoS 1 or 2 *)
| O5Zero (now : N) (topic : string) (retain : bool) (payload : string) (props : pprops)  (* with QoS 0 *)
| O5Flush (now : N)                              (* handle_pendings *)
| O5Ack (k : ackkind) (now : N) (p : pid)
| O5Resume (rm amax : N).                        (* the client reconnects *)

(** v5/packet/publish.rs:214-271: the three acknowledgement handlers. *)
Definition ack_queue {P} (k : ackkind) (now : N) (p : pid) (q : PendingModel.pendq P) :=
  match k with
  | AckPuback => PendingModel.pend_complete p L1 q
  | AckPubrec => PendingModel.pend_pubrec now p q
  | AckPubcomp => PendingModel.pend_complete p L2 q
  end.

(** Identifiers whose messages [handle_pendings] gives up at [now]: those held
    before and not after. *)
Definition held {P} (q : PendingModel.pendq P) : list pid :=
  flat_map (fun s => match s with
                     | PendingModel.PNew _ _ p _ _ => [p]
                     | PendingModel.PRec _ p => [p]
                     | PendingModel.PDone => []
                     end) (PendingModel.pq q).
Definition given_up {P} (q q' : PendingModel.pendq P) : list pid :=
  filter (fun p => negb (existsb (N.eqb p) (held q'))) (held q).

Definition step5 (o : out5) (op : op5) : out5 * list (oev pub5 wpub5) :=
  match op with
  | O5Msg now x =>
      let '(o', full) := out5_push now x o in
      (o', [if full then EFull now (o5_next o) x else EQueued now (o5_next o) x])
  | O5Zero now topic retain payload props =>
      let '(o', w) := out5_qos0 topic retain payload props o in (o', [ESent now (SPub w)])
  | O5Flush now =>
      let '(o', outs) := handle_pendings5 now o in
      (o', map (ESent now) outs ++ map (EExpired now) (given_up (o5_q o) (o5_q o')))
  | O5Ack k now p =>
      let '(o', ok) := out5_on_queue (ack_queue k now p) o in (o', [EAcked k now p ok])
  | O5Resume rm amax => (out5_resume rm amax o, [EConn rm])
  end.

Definition run5_step (s : out5 * list (oev pub5 wpub5)) (op : op5) :=
  let '(o, log) := s in let '(o', evs) := step5 o op in (o', log ++ evs)%list.
Definition run5 (rm max_packets timeout amax : N) (ops : list op5) : out5 * list (oev pub5 wpub5) :=
  fold_left run5_step ops (out5_new rm max_packets timeout amax, [EConn rm]).

(** Clock readings are positive (Unix time) and queued messages have QoS 1 or 2. *)
Definition op5_ok (op : op5) : Prop :=
  match op with
  | O5Msg now x => 0 < now /\ p5_qos x <> L0
  | O5Flush now => 0 < now
  | O5Ack _ now _ => 0 < now
  | _ => True
  end.

Definition wpid5 (w : wpub5) : option pid := qp_pid (w5_qp w).
(** The transmitted packet is the queued message: same payload, QoS, RETAIN,
    subscription identifiers and copied properties; its topic, or no topic and an
    alias; and the interval announced is the remaining one. *)
Definition carries5 (t0 t : N) (m : pub5) (w : wpub5) : Prop :=
  w5_payload w = p5_payload m /\ w5_retain w = p5_retain m /\ qp_qos (w5_qp w) = p5_qos m /\
  pp_subids (w5_props w) = pp_subids (p5_props m) /\ pp_other (w5_props w) = pp_other (p5_props m) /\
  (w5_topic w = p5_topic m \/ w5_topic w = EmptyString /\ pp_alias (w5_props w) <> None) /\
  pp_expiry (w5_props w) =
    match pp_expiry (p5_props m) with Some v => Some (v - (t - t0) mod 2 ^ 32) | None => None end.
Definition lifetime5 (m : pub5) : option N := pp_expiry (p5_props m).

(** ** The outgoing side of a v3 session *)
Inductive op3 :=
| O3Msg (now : N) (x : pub3)
| O3Zero (now : N) (w : wpub3)                                  (* with QoS 0 *)
| O3Flush (now : N)
| O3Ack (k : ackkind) (now : N) (p : pid)
| O3Resume.

Definition step3 (o : out3) (op : op3) : out3 * list (oev pub3 wpub3) :=
  match op with
  | O3Msg now x =>
      let '(o', full) := out3_push now x o in
      (o', [if full then EFull now (o3_next o) x else EQueued now (o3_next o) x])
  | O3Zero now w => (o, [ESent now (SPub w)])
  | O3Flush now =>
      let '(o', outs) := handle_pendings3 now o in
      (o', map (ESent now) outs ++ map (EExpired now) (given_up (o3_q o) (o3_q o')))
  | O3Ack k now p =>
      let '(o', ok) := out3_on_queue (ack_queue k now p) o in (o', [EAcked k now p ok])
  | O3Resume => (out3_resume o, [EConn (PendingModel.pq_inflight (o3_q o))])
  end.

Definition run3_step (s : out3 * list (oev pub3 wpub3)) (op : op3) :=
  let '(o, log) := s in let '(o', evs) := step3 o op in (o', log ++ evs)%list.
Definition run3 (rm max_packets timeout : N) (ops : list op3) : out3 * list (oev pub3 wpub3) :=
  fold_left run3_step ops (out3_new rm max_packets timeout, [EConn rm]).

Definition op3_ok (op : op3) : Prop :=
  match op with
  | O3Msg now x => 0 < now /\ p3_qos x <> L0
  | O3Zero _ w => qp_pid (w3_qp w) = None
  | O3Flush now => 0 < now
  | O3Ack _ now _ => 0 < now
  | O3Resume => True
  end.

Definition wpid3 (w : wpub3) : option pid := qp_pid (w3_qp w).
Definition carries3 (t0 t : N) (m : pub3) (w : wpub3) : Prop :=
  w3_payload w = p3_payload m /\ w3_retain w = p3_retain m /\ qp_qos (w3_qp w) = p3_qos m /\
  w3_topic w = p3_topic m.
Definition lifetime3 (m : pub3) : option N := None.
