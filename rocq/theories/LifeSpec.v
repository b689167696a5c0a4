(** How a run of the broker (BrokerSpec) appears to one of its sessions (InSpec): which events
    the session sees at each step, and how a session goes from one connection to the next. *)
From Coq Require Import List Bool NArith String.
From Verif Require Import Base MsgModel OutModel GlobModel Sess5Model Sess3Model ConnModel RegModel BrokerModel BrokerSpec OutSpec InSpec LinkSpec.
Import ListNotations.
Local Open Scope N_scope.
Local Open Scope list_scope.

(** Packets are as mqtt-proto decodes them. *)
Definition proper (p : past) : Prop :=
  match w_e p with EPacket5 _ _ x => wf_in5 x | EPacket3 _ _ x => wf_in3 x | _ => True end.
(** The clock is after 1970 when something other than the passing of time happens. *)
Definition after_1970 (p : past) : Prop := match w_e p with ETick _ => True | _ => 1000 <= b_now (w_b p) end.

(** The packets written to connection [k]. *)
Definition pkts5 (k : N) (out : list bout) : list pkt5 := flat_map (fun o => match o with OPkt5 j p => if j =? k then [p] else [] | _ => [] end) out.
Definition pkts3 (k : N) (out : list bout) : list pkt3 := flat_map (fun o => match o with OPkt3 j p => if j =? k then [p] else [] | _ => [] end) out.

(** The step is about the session of another connection, or moves only the connection. *)
Definition passive (k : N) (e : bev) : Prop :=
  match e with
  | EPacket5 j _ IOther => True                                    (* closes the connection *)
  | EPacket5 j _ _ | EPacket3 j _ _ | EMalformed j _ | ENormal j | EStart j => j <> k
  | _ => True
  end.
(** Nothing but bookkeeping: messages for others were moved on, or a flag was set. *)
Definition still5 (x : sev5 * list pkt5) : Prop := match x with (VSend _ _, []) | (VSet, []) => True | _ => False end.
Definition still3 (x : sev3 * list pkt3) : Prop := match x with (USend _ _, []) | (USet, []) => True | _ => False end.

(** What step [p] is for the v5 session of connection [k]. *)
Inductive did5 (k : N) (p : past) : list (sev5 * list pkt5) -> Prop :=
| d5_pkt len x : w_e p = EPacket5 k len x -> did5 k p [(VPkt (seconds (w_b p)) len x (glob_of (w_b p)), pkts5 k (w_out p))]
| d5_bad reason : w_e p = EMalformed k reason -> did5 k p [(VBad, pkts5 k (w_out p))]
| d5_msg a c m r : w_e p = ENormal k -> aget k (b_tasks (w_b p)) = Some (TOnline a) -> waiting (w_b p) (a_id a) = (c, m) :: r ->
    did5 k p [(VMsg (seconds (w_b p)) m, pkts5 k (w_out p))]
| d5_send a c m r : w_e p = ENormal k -> aget k (b_tasks (w_b p)) = Some (TOnline a) -> waiting (w_b p) (a_id a) = (c, m) :: r ->
    did5 k p [(VMsg (seconds (w_b p)) m, []); (VFlush (seconds (w_b p)), pkts5 k (w_out p))]
| d5_lost a c m r : w_e p = ENormal k -> aget k (b_tasks (w_b p)) = Some (TOffline a) -> waiting (w_b p) (a_id a) = (c, m) :: r ->
    pkts5 k (w_out p) = [] -> did5 k p [(VLost (seconds (w_b p)) m, [])]
| d5_start : w_e p = EStart k -> did5 k p [(VSet, []); (VFlush (seconds (w_b p)), pkts5 k (w_out p))]
| d5_still l : passive k (w_e p) -> pkts5 k (w_out p) = [] -> Forall still5 l -> did5 k p l.

Inductive did3 (k : N) (p : past) : list (sev3 * list pkt3) -> Prop :=
| d3_pkt len x : w_e p = EPacket3 k len x -> did3 k p [(UPkt (seconds (w_b p)) len x (glob_of (w_b p)), pkts3 k (w_out p))]
| d3_msg a c m r : w_e p = ENormal k -> aget k (b_tasks (w_b p)) = Some (TOnline a) -> waiting (w_b p) (a_id a) = (c, m) :: r ->
    did3 k p [(UMsg (seconds (w_b p)) m, pkts3 k (w_out p))]
| d3_send a c m r : w_e p = ENormal k -> aget k (b_tasks (w_b p)) = Some (TOnline a) -> waiting (w_b p) (a_id a) = (c, m) :: r ->
    did3 k p [(UMsg (seconds (w_b p)) m, []); (UFlush (seconds (w_b p)), pkts3 k (w_out p))]
| d3_lost a c m r : w_e p = ENormal k -> aget k (b_tasks (w_b p)) = Some (TOffline a) -> waiting (w_b p) (a_id a) = (c, m) :: r ->
    pkts3 k (w_out p) = [] -> did3 k p [(ULost (seconds (w_b p)) m, [])]
| d3_start : w_e p = EStart k -> did3 k p [(USet, []); (UFlush (seconds (w_b p)), pkts3 k (w_out p))]
| d3_still l : passive k (w_e p) -> pkts3 k (w_out p) = [] -> Forall still3 l -> did3 k p l.

(** A CONNACK to connection [k] that says no session is present. *)
Definition afresh (k : N) (out : list bout) : Prop :=
  (exists ack, In (OConnack5 k ack) out /\ ka_present ack = false) \/ (exists code, In (OConnack3 k (Connack3 false code)) out).

(** [life5 k h l]: [l] is what the session that connection [k] holds after history [h] has
    seen, beginning with the connection that created it.  A session that goes from connection
    [j] (at step [q], on the request of [k]) to connection [k] keeps what it has seen. *)
Inductive life5 (k : N) : list past -> list (sev5 * list pkt5) -> Prop :=
| lf5_new p h q t0 uuid pc data : w_e p = EJoin k -> afresh k (w_out p) -> made_by h q k -> w_e q = EConnect5 t0 uuid pc data -> life5 k (p :: h) []
| lf5_take p h2 q j (online : bool) s0 h1 l q0 t0 uuid pc data : w_e p = EJoin k -> w_e q = EControl j -> life5 j h1 l ->
    aget j (b_tasks (w_b q)) = Some (if online then TOnline (A5 s0) else TOffline (A5 s0)) -> requested (w_b q) (A5 s0) k ->
    made_by (h2 ++ q :: h1) q0 k -> w_e q0 = EConnect5 t0 uuid pc data ->
    life5 k (p :: h2 ++ q :: h1) (l ++ [(VTake (b_now (w_b p)) uuid pc data, [])])
| lf5_step p h l d : life5 k h l -> did5 k p d -> life5 k (p :: h) (l ++ d).

(** A v3 session that is taken over while its client is away first gets the messages that
    wait for it. *)
Inductive life3 (k : N) : list past -> list (sev3 * list pkt3) -> Prop :=
| lf3_new p h q t0 uuid pc : w_e p = EJoin k -> afresh k (w_out p) -> made_by h q k -> w_e q = EConnect3 t0 uuid pc -> life3 k (p :: h) []
| lf3_take p h2 q j (online : bool) a h1 l q0 t0 uuid pc s0 present : w_e p = EJoin k -> w_e q = EControl j -> life3 j h1 l ->
    made_by (h2 ++ q :: h1) q0 k -> w_e q0 = EConnect3 t0 uuid pc -> s0 = connect_sess3 (b_cfg (w_b q0)) uuid t0 pc ->
    aget j (b_tasks (w_b q)) = Some (if online then TOnline (A3 a) else TOffline (A3 a)) -> requested (w_b q) (A3 a) k -> In (OConnack3 k (Connack3 present 0)) (w_out p) ->
    life3 k (p :: h2 ++ q :: h1)
      (l ++ (if online then [] else map (fun m => (ULost (seconds (w_b q)) (snd m), [])) (waiting (w_b q) (z_id a))) ++ [(UTake (b_now (w_b p)) s0 present, [])])
| lf3_step p h l d : life3 k h l -> did3 k p d -> life3 k (p :: h) (l ++ d).

(** ** Identifiers in flight on connection [k], read off the history: those of the QoS 1/2
    PUBLISH and of the PUBREL packets written to it and not acknowledged since by PUBACK or
    PUBCOMP, each once.  The PUBREL that answers a PUBREC is not counted again. *)
Fixpoint unacked5 (cfg : config) (k : N) (h : list past) : list pid :=
  match h with
  | [] => []
  | p :: h =>
      let before := unacked5 cfg k h in
      match w_e p with
      | EPacket5 j len x =>
          if j =? k then fold_left (fly wpid5) (flat_map wire5 (after_answer5 x (pkts5 k (w_out p)))) (landed (ack5 cfg len x) before)
          else before
      | _ => fold_left (fly wpid5) (flat_map wire5 (pkts5 k (w_out p))) before
      end
  end.
Fixpoint unacked3 (cfg : config) (k : N) (h : list past) : list pid :=
  match h with
  | [] => []
  | p :: h =>
      let before := unacked3 cfg k h in
      match w_e p with
      | EPacket3 j len x =>
          if j =? k then fold_left (fly wpid3) (flat_map wire3 (after_answer3 x (pkts3 k (w_out p)))) (landed (ack3 cfg len x) before)
          else before
      | _ => fold_left (fly wpid3) (flat_map wire3 (pkts3 k (w_out p))) before
      end
  end.

(** ** Subscriptions on record *)

(** The filters a session is subscribed to, with the QoS granted. *)
Definition qmap (m : list (string * subdata)) : list (string * qos) := map (fun e => (fst e, so_qos (sd_opts (snd e)))) m.
Definition a_subs (a : sess) : list (string * qos) := match a with A5 s => qmap (s_subs s) | A3 s => z_subs s end.
Definition r_subs (r : receipt) : list (string * qos) := match r with RNew _ => [] | ROld5 st => qmap (st_subs st) | ROld3 st => st3_subs st end.
(** The client a task has the session of (also while the session goes from one connection to
    the next), unless the client was removed. *)
Definition t_held (t : task) : option (client_id * list (string * qos)) :=
  match t with
  | TSend _ _ | TReply _ _ | TOffDrain _ true => None
  | TJoin _ r => Some (rc_id r, r_subs r)
  | TReady a | TOnline a | TEnd a | TDrain a | TOffline a | TOffDrain a _ => Some (a_id a, a_subs a)
  end.
Definition held (b : broker) (k : N) : option (client_id * list (string * qos)) := match aget k (b_tasks b) with Some t => t_held t | None => None end.
(** The filters named by a SUBSCRIBE or UNSUBSCRIBE. *)
Definition named (e : bev) : list string :=
  match e with
  | EPacket5 _ _ (ISub _ _ fs) => map fst fs
  | EPacket5 _ _ (IUnsub _ fs) => fs
  | EPacket3 _ _ (YSub _ fs) => map fst fs
  | EPacket3 _ _ (YUnsub _ fs) => fs
  | _ => []
  end.
(** The filters of a SUBSCRIBE, where shared ones may be asked for: those of MQTT 5 clients,
    if the configuration allows shared subscriptions. *)
Definition shared_asked (c : config) (e : bev) : list string :=
  match e with EPacket5 _ _ (ISub _ _ fs) => if cf_shared c then map fst fs else [] | _ => [] end.
(** No connection is given up while it holds a session, and every session is resumed. *)
Definition lossless (p : past) : Prop :=
  (forall k c, In (OClosed k) (w_out p) -> held (w_b p) k <> Some c) /\
  (forall k x r, afresh k (w_out p) -> aget k (b_tasks (w_b p)) = Some (TJoin x r) -> exists c, r = RNew c).
