(** Vocabulary for what a session does with the packets of its client
    (C17 - C25, C46, C48, C50): runs of a session and functions of the packets
    received. *)
From Coq Require Import List Bool String NArith.
From Verif Require Import Base TopicModel TopicSpec MsgModel RouteModel RouteSpec OutModel GlobModel
  Sess5Model Sess3Model ConnModel DelivSpec.
Import ListNotations.
Local Open Scope N_scope.

(** ** Runs of a v5 session *)

(** What happens to a session.  The tables [g] are those at the time of the
    packet, whatever other clients have done to them. *)
Inductive sev5 :=
| VPkt (now len : N) (x : in5) (g : glob)          (* a packet of the client *)
| VMsg (now : N) (m : nmsg)                        (* a message of another session *)
| VLost (now : N) (m : nmsg)                       (* the same while the client is away *)
| VSend (b : bcast) (n : N)                        (* messages for other sessions moved on *)
| VFlush (now : N)                                 (* unacknowledged messages are (re)sent *)
| VBad                                             (* something that is not a packet *)
| VSet                                             (* the connection begins or ends, the will is taken *)
| VTake (now : N) (uuid : string) (p : connect5) (data : option string).   (* the client connects again *)

(** A well-formed packet, as mqtt-proto decodes it. *)
Definition wf_in5 (x : in5) : Prop :=
  match x with
  | IPub w => valid_topic_name (w5_topic w) /\ enc_len5 w <> None
  | ISub _ _ fs => Forall (fun e => valid_filter (fst e)) fs
  | IUnsub _ fs => Forall valid_filter fs
  | _ => True
  end.

(** Tables of a server with configuration [cfg]: the routing table was built by
    subscribe and unsubscribe calls. *)
Definition wf_glob (cfg : config) (g : glob) : Prop :=
  g_cfg g = cfg /\ exists h, g_route g = rt_run h.

Section Run.
  Variable hash : wpub5 -> N.
  Variable cfg : config.

  Definition new_conn (uuid : string) (now : N) (p : connect5) : conn5 unit :=
    Conn5 (connect_session cfg uuid p (sess5_new cfg now)) (String.eqb (co_ident p) "")
      (negb (clamp_keep cfg (co_keep p) =? co_keep p)) (co_method p) false None.

  (** One event: the session afterwards and the packets written.  A packet is
      only read while the connection is up.  [pick] chooses a member of a shared group;
      it may be another one each time. *)
  Inductive sstep5 : sess5 -> sev5 -> sess5 -> list pkt5 -> Prop :=
  | st_pkt pick s now len x g s' g' out : is_disconnected5 s = false -> wf_in5 x -> wf_glob cfg g ->
      packet_step5 hash pick now len x s g = Go s' g' out ->
      sstep5 s (VPkt now len x g) s' out
  | st_msg s now m s' r : handle_normal5 now cfg m s = (s', r) ->
      sstep5 s (VMsg now m) s' (match r with Some (_, Some k) => [k] | _ => [] end)
  | st_send s b n : sstep5 s (VSend b n) (with_bcast b n s) []
  | st_flush s now s' out : pendings5 now s = (s', out) -> sstep5 s (VFlush now) s' out
  | st_lost s now m s' r : handle_normal5 now cfg m s = (s', r) ->         (* nobody there to write to *)
      sstep5 s (VLost now m) s' []
  | st_bad s reason s' k : error_disconnect RC_malformed reason s = (s', k) -> sstep5 s VBad s' [k]
  | st_set s conn last w : sstep5 s VSet (with_connected conn (with_last last (with_will w s))) []
  | st_take s t0 now uuid p data s' k :
      session_connect5 unit cfg now (RcPresent (snd (build_state5 s))) data (new_conn uuid t0 p) = Some (s', k) ->
      sstep5 s (VTake now uuid p data) s' [].

  (** The session created by a first CONNECT. *)
  Inductive sinit5 : sess5 -> Prop :=
  | si_new t0 now uuid p data id s k :
      session_connect5 unit cfg now (RcNew id) data (new_conn uuid t0 p) = Some (s, k) -> sinit5 s.

  (** Runs, oldest event first, with the packets written at each event. *)
  Inductive srun5 : sess5 -> list (sev5 * list pkt5) -> Prop :=
  | sr_init s : sinit5 s -> srun5 s []
  | sr_snoc s l e s' out : srun5 s l -> sstep5 s e s' out -> srun5 s' (l ++ [(e, out)]).
End Run.

(** ** Functions of the events *)

(** Topic bound to alias [a] on the current connection: the topic of the last
    PUBLISH that carried both. *)
Definition bind_step (a : N) (cur : option string) (e : sev5) : option string :=
  match e with
  | VTake _ _ _ _ => None
  | VPkt _ _ (IPub w) _ =>
      match pp_alias (w5_props w) with
      | Some a' => if (a' =? a) && negb (String.eqb (w5_topic w) "") then Some (w5_topic w) else cur
      | None => cur
      end
  | _ => cur
  end.
Definition bound (l : list (sev5 * list pkt5)) (a : N) : option string :=
  fold_left (bind_step a) (map fst l) None.

(** The topic a PUBLISH is for: its own topic, or the one bound to its alias. *)
Definition topic_for (amax : N) (l : list (sev5 * list pkt5)) (w : wpub5) : option string :=
  match pp_alias (w5_props w) with
  | Some a => if (1 <=? a) && (a <=? amax)
              then if String.eqb (w5_topic w) "" then bound l a else Some (w5_topic w)
              else None
  | None => if String.eqb (w5_topic w) "" then None else Some (w5_topic w)
  end.

Definition pubrec_for (p : pid) (out : list pkt5) : bool :=
  existsb (fun k => match k with KPubrec p' _ => p' =? p | _ => false end) out.
Definition pubcomp_for (p : pid) (out : list pkt5) : bool :=
  existsb (fun k => match k with KPubcomp p' _ => p' =? p | _ => false end) out.

(** The PUBLISH that opened QoS 2 identifier [p], if it is open: the first one
    answered with PUBREC since the last PUBREL answered with PUBCOMP.  A clean
    start forgets everything. *)
Definition open_step (p : pid) (cur : option wpub5) (e : sev5 * list pkt5) : option wpub5 :=
  match fst e with
  | VTake _ _ c _ => if co_clean c then None else cur
  | VPkt _ _ (IPub w) _ =>
      match w5_qp w, cur with
      | Q2 p', None => if (p' =? p) && pubrec_for p (snd e) then Some w else None
      | _, _ => cur
      end
  | VPkt _ _ (IPubrel p') _ => if (p' =? p) && pubcomp_for p (snd e) then None else cur
  | _ => cur
  end.
Definition opener (l : list (sev5 * list pkt5)) (p : pid) : option wpub5 := fold_left (open_step p) l None.

(** The identifiers that are open. *)
Definition all_open (l : list (sev5 * list pkt5)) (ps : list pid) : Prop :=
  NoDup ps /\ forall p, In p ps <-> opener l p <> None.

(** ** Outcomes of a PUBLISH *)

(** Refused: a DISCONNECT with [code] is the only packet, the connection ends
    and nobody is sent anything. *)
Definition refused5 (code : N) (s s' : sess5) (g g' : glob) (out : list pkt5) : Prop :=
  (exists reason, out = [KDisconnect code reason]) /\ s_sdisc s' = true /\ not_forwarded5 s s' g g'.

(** The packets written in direct answer: everything except the PUBLISH and
    PUBREL packets of the messages sent to this client. *)
Definition answers (out : list pkt5) : list pkt5 :=
  filter (fun k => match k with KPub _ | KPubrel _ _ => false | _ => true end) out.

Definition ack_of (x : qospid) (code : N) : list pkt5 :=
  match x with Q0 => [] | Q1 p => [KPuback p code] | Q2 p => [KPubrec p code] end.

(** A PUBLISH [w] of [len] bytes arrives at a server with configuration [cfg]
    whose routing table is the result of the calls [h]. *)
Definition incoming5 (cfg : config) (h : list rop) (len : N) (w : wpub5) (g : glob) : Prop :=
  valid_topic_name (w5_topic w) /\ enc_len5 w <> None /\ g_cfg g = cfg /\ g_route g = rt_run h /\
  len <= cf_packet_server cfg.

(** The message published by [w] on topic [T]. *)
Definition message5 (T : string) (w : wpub5) : pubmsg :=
  PubMsg T (w5_payload w) (qp_qos (w5_qp w)) (w5_retain w) (Some (set_alias None (w5_props w))).

(** ** The same for MQTT 3 *)
Inductive sev3 :=
| UPkt (now len : N) (x : in3) (g : glob)
| UMsg (now : N) (m : nmsg)
| ULost (now : N) (m : nmsg)
| USend (b : bcast) (n : N)
| UFlush (now : N)
| USet
| UTake (now : N) (s0 : sess3) (present : bool).
    (* a new connection, prepared as [s0], takes over; CONNACK says [present] *)

Definition wf_in3 (x : in3) : Prop :=
  match x with
  | YPub w => valid_topic_name (w3_topic w) /\ enc_len3 w <> None
  | YSub _ fs => Forall (fun e => valid_filter (fst e)) fs
  | YUnsub _ fs => Forall valid_filter fs
  | _ => True
  end.

Section Run3.
  Variable hash : wpub3 -> N.
  Variable cfg : config.

  (** What handle_connect prepares for an accepted CONNECT [p] of a connection made at [t0]. *)
  Definition prepared3 (s0 : sess3) : Prop :=
    exists uuid t0 p, s0 = Sess3 max_client_id (if String.eqb (c3_ident p) "" then uuid else c3_ident p) (c3_v310 p) false false None
      t0 (z_out (sess3_new cfg t0)) [] [] [] 0 (c3_will p) (c3_keep p) (c3_clean p).

  Inductive sstep3 : sess3 -> sev3 -> sess3 -> list pkt3 -> Prop :=
  | st3_pkt s now len x g s' g' out : z_disc s = false -> wf_in3 x -> wf_glob cfg g ->
      packet_step3 hash now len x s g = Go3 s' g' out ->
      sstep3 s (UPkt now len x g) s' out
  | st3_end s now len x g s' g' : z_disc s = false -> wf_in3 x -> wf_glob cfg g ->
      packet_step3 hash now len x s g = Stop3 s' g' ->      (* the connection is closed *)
      sstep3 s (UPkt now len x g) s' []
  | st3_msg s now m s' r : handle_normal3 now m s = (s', r) ->
      sstep3 s (UMsg now m) s' (match r with Some (_, Some k) => [k] | _ => [] end)
  | st3_send s b n : sstep3 s (USend b n) (zwith_bcast b n s) []
  | st3_flush s now s' out : pendings3 now s = (s', out) -> sstep3 s (UFlush now) s' out
  | st3_lost s now m s' r : handle_normal3 now m s = (s', r) -> sstep3 s (ULost now m) s' []
  | st3_set s conn last w : sstep3 s USet (zwith_connected conn (zwith_last last (zwith_will w s))) []
  | st3_take s now s0 s' present code : prepared3 s0 ->
      session_connect3 now (RcPresent3 (snd (build_state3 s))) s0 =
        (s', Connack3 present code) ->
      sstep3 s (UTake now s0 present) s' [].

  Inductive sinit3 : sess3 -> Prop :=
  | si3_new now s0 id s k : prepared3 s0 -> session_connect3 now (RcNew3 id) s0 = (s, k) -> sinit3 s.

  Inductive srun3 : sess3 -> list (sev3 * list pkt3) -> Prop :=
  | sr3_init s : sinit3 s -> srun3 s []
  | sr3_snoc s l e s' out : srun3 s l -> sstep3 s e s' out -> srun3 s' (l ++ [(e, out)]).
End Run3.

Definition answers3 (out : list pkt3) : list pkt3 :=
  filter (fun k => match k with JPub _ | JPubrel _ => false | _ => true end) out.
Definition ack_of3 (x : qospid) : list pkt3 :=
  match x with Q0 => [] | Q1 p => [JPuback p] | Q2 p => [JPubrec p] end.

Definition pubrec3_for (p : pid) (out : list pkt3) : bool :=
  existsb (fun k => match k with JPubrec p' => p' =? p | _ => false end) out.
Definition pubcomp3_for (p : pid) (out : list pkt3) : bool :=
  existsb (fun k => match k with JPubcomp p' => p' =? p | _ => false end) out.

(** The PUBLISH that opened QoS 2 identifier [p], if it is open. *)
Definition open_step3 (p : pid) (cur : option wpub3) (e : sev3 * list pkt3) : option wpub3 :=
  match fst e with
  | UTake _ _ present => if present then cur else None
  | UPkt _ _ (YPub w) _ =>
      match w3_qp w, cur with
      | Q2 p', None => if (p' =? p) && pubrec3_for p (snd e) then Some w else None
      | _, _ => cur
      end
  | UPkt _ _ (YPubrel p') _ => if (p' =? p) && pubcomp3_for p (snd e) then None else cur
  | _ => cur
  end.
Definition opener3 (l : list (sev3 * list pkt3)) (p : pid) : option wpub3 := fold_left (open_step3 p) l None.

Definition incoming3 (cfg : config) (h : list rop) (len : N) (w : wpub3) (g : glob) : Prop :=
  valid_topic_name (w3_topic w) /\ enc_len3 w <> None /\ g_cfg g = cfg /\ g_route g = rt_run h /\
  len <= cf_packet_server cfg.
Definition message3 (w : wpub3) : pubmsg := PubMsg (w3_topic w) (w3_payload w) (qp_qos (w3_qp w)) (w3_retain w) None.
