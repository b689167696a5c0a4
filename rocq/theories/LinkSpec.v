(** How the log of the outgoing side (OutSpec) appears in a run of a session
    (InSpec): which of the packets the client sends and receives are the
    acknowledgements and transmissions of the log. *)
From Coq Require Import List Bool String NArith.
From Verif Require Import Base MsgModel OutModel GlobModel Sess5Model Sess3Model ConnModel OutSpec InSpec.
Import ListNotations.
Local Open Scope N_scope.

Section Entry.
  Context {M W : Type}.

  Definition sents (evs : list (oev M W)) : list (N * sent W) :=
    flat_map (fun e => match e with ESent t s => [(t, s)] | _ => [] end) evs.

  (** The part of the log that belongs to one event at time [t]: the
      acknowledgement it brings, if any, accepted or not; then the
      transmissions [outs], in this order; messages that come into the queue (or
      find it full) satisfy [q]; anything else is the expiry of a message. *)
  Definition entry (t : N) (ack : option (ackkind * pid)) (answered : bool -> Prop)
      (outs : list (sent W)) (q : M -> Prop) (evs : list (oev M W)) : Prop :=
    exists first rest, evs = (first ++ rest)%list /\
      match ack with
      | Some (k, p) => exists ok, first = [EAcked k t p ok] /\ answered ok
      | None => first = []
      end /\
      sents rest = map (pair t) outs /\
      Forall (fun e => match e with
                       | EConn _ | EAcked _ _ _ _ => False
                       | EQueued t' _ m | EFull t' _ m => t' = t /\ q m
                       | ESent t' _ | EExpired t' _ => t' = t
                       end) rest.
End Entry.

(** ** MQTT 5 *)

(** The packets that are transmissions.  A PUBREL with another code answers a
    PUBREC that names no message. *)
Definition wire5 (k : pkt5) : list (sent wpub5) :=
  match k with KPub w => [SPub w] | KPubrel p 0 => [SRel p] | _ => [] end.

(** The acknowledgement a packet of at most the allowed size brings. *)
Definition ack5 (cfg : config) (len : N) (x : in5) : option (ackkind * pid) :=
  if cf_packet_server cfg <? len then None
  else match x with
       | IPuback p => Some (AckPuback, p)
       | IPubrec p => Some (AckPubrec, p)
       | IPubcomp p => Some (AckPubcomp, p)
       | _ => None
       end.
(** PUBREC is answered first, by PUBREL. *)
Definition answer_code (ok : bool) : N := if ok then 0 else 146.
Definition answered5 (x : in5) (out : list pkt5) (ok : bool) : Prop :=
  match x with IPubrec p => exists r, out = KPubrel p (answer_code ok) :: r | _ => True end.
Definition after_answer5 (x : in5) (out : list pkt5) : list pkt5 :=
  match x with IPubrec _ => tl out | _ => out end.

Definition nm_topic (m : nmsg) : string := match m with NM3 m => n3_topic m | NM5 m => n5_topic m end.
Definition nm_payload (m : nmsg) : string := match m with NM3 m => n3_payload m | NM5 m => n5_payload m end.
Definition nm_qos (m : nmsg) : qos :=
  match m with NM3 m => qos_min (n3_qos m) (n3_sqos m) | NM5 m => qos_min (n5_qos m) (n5_sqos m) end.
(** What is queued is the message that came. *)
Definition is_message5 (m : nmsg) (x : pub5) : Prop :=
  p5_topic x = nm_topic m /\ p5_payload x = nm_payload m /\ p5_qos x = nm_qos m.
Definition by_subscribe5 (x : in5) : Prop := exists p id fs, x = ISub p id fs.

(** The in-flight limit a CONNECT asks for. *)
Definition rmax5 (cfg : config) (p : connect5) : N := opt_or (co_rmax p) (cf_inflight_client cfg).

Definition logged5 (cfg : config) (e : sev5) (out : list pkt5) (evs : list (oev pub5 wpub5)) : Prop :=
  match e with
  | VPkt now len x g => entry now (ack5 cfg len x) (answered5 x out) (flat_map wire5 (after_answer5 x out)) (fun _ => by_subscribe5 x) evs
  | VMsg now m => entry now None (fun _ => True) (flat_map wire5 out) (is_message5 m) evs
  | VLost now m => out = [] /\ exists outs, Forall (fun s => sent_pid wpid5 s = None) outs /\ entry now None (fun _ => True) outs (is_message5 m) evs
  | VFlush now => entry now None (fun _ => True) (flat_map wire5 out) (fun _ => False) evs
  | VTake _ _ p _ => co_clean p = false /\ evs = [EConn (rmax5 cfg p)]
  | VSend _ _ | VBad | VSet => flat_map wire5 out = [] /\ evs = []
  end.

(** [log] is a log of the run [l].  A clean start begins a new one. *)
Inductive logs5 (cfg : config) : list (sev5 * list pkt5) -> list (oev pub5 wpub5) -> Prop :=
| lg_new rm : logs5 cfg [] [EConn rm]
| lg_step l log e out evs : logs5 cfg l log -> logged5 cfg e out evs -> logs5 cfg (l ++ [(e, out)]) (log ++ evs)
| lg_clean l log now uuid p data : logs5 cfg l log -> co_clean p = true ->
    logs5 cfg (l ++ [(VTake now uuid p data, [])]) [EConn (rmax5 cfg p)].

(** The clock does not read 0 (1 January 1970). *)
Definition clocked5 (e : sev5 * list pkt5) : Prop :=
  match fst e with VPkt now _ _ _ | VMsg now _ | VLost now _ | VFlush now => 0 < now | _ => True end.

(** ** MQTT 3 *)
Definition wire3 (k : pkt3) : list (sent wpub3) :=
  match k with JPub w => [SPub w] | JPubrel p => [SRel p] | _ => [] end.
Definition ack3 (cfg : config) (len : N) (x : in3) : option (ackkind * pid) :=
  if cf_packet_server cfg <? len then None
  else match x with
       | YPuback p => Some (AckPuback, p)
       | YPubrec p => Some (AckPubrec, p)
       | YPubcomp p => Some (AckPubcomp, p)
       | _ => None
       end.
Definition answered3 (x : in3) (out : list pkt3) : Prop :=
  match x with YPubrec p => exists r, out = JPubrel p :: r | _ => True end.
Definition after_answer3 (x : in3) (out : list pkt3) : list pkt3 :=
  match x with YPubrec _ => tl out | _ => out end.
Definition is_message3 (m : nmsg) (x : pub3) : Prop :=
  p3_topic x = nm_topic m /\ p3_payload x = nm_payload m /\ p3_qos x = nm_qos m.
Definition by_subscribe3 (x : in3) : Prop := exists p fs, x = YSub p fs.

(** A SUBSCRIBE that ends the connection takes the retained messages of its first
    filters for transmitted, but the packets are dropped with the error ([st3_end]). *)
Definition logged3 (cfg : config) (e : sev3) (out : list pkt3) (evs : list (oev pub3 wpub3)) : Prop :=
  match e with
  | UPkt now len x g =>
      (exists outs, entry now (ack3 cfg len x) (fun _ => answered3 x out) outs (fun _ => by_subscribe3 x) evs /\
         (outs = flat_map wire3 (after_answer3 x out) \/ by_subscribe3 x /\ out = []))
  | UMsg now m => entry now None (fun _ => True) (flat_map wire3 out) (is_message3 m) evs
  | ULost now m => out = [] /\ exists outs, Forall (fun s => sent_pid wpid3 s = None) outs /\ entry now None (fun _ => True) outs (is_message3 m) evs
  | UFlush now => entry now None (fun _ => True) (flat_map wire3 out) (fun _ => False) evs
  | UTake _ _ present => present = true /\ evs = [EConn (cf_inflight_client cfg)]
  | USend _ _ | USet => out = [] /\ evs = []
  end.
Inductive logs3 (cfg : config) : list (sev3 * list pkt3) -> list (oev pub3 wpub3) -> Prop :=
| lg3_new : logs3 cfg [] [EConn (cf_inflight_client cfg)]
| lg3_step l log e out evs : logs3 cfg l log -> logged3 cfg e out evs -> logs3 cfg (l ++ [(e, out)]) (log ++ evs)
| lg3_clean l log now s0 : logs3 cfg l log ->
    logs3 cfg (l ++ [(UTake now s0 false, [])]) [EConn (cf_inflight_client cfg)].
Definition clocked3 (e : sev3 * list pkt3) : Prop :=
  match fst e with UPkt now _ _ _ | UMsg now _ | ULost now _ | UFlush now => 0 < now | _ => True end.

(** ** Packet identifiers in flight, read off the packets alone

    [inflight5 cfg l]: identifiers of the QoS 1/2 PUBLISH and of the PUBREL
    packets written since the connection began and not acknowledged since by
    PUBACK or PUBCOMP, each once.  The PUBREL that answers a PUBREC is not counted
    again. *)
Definition fly {W} (wpid : W -> option pid) (l : list pid) (s : sent W) : list pid :=
  match sent_pid wpid s with Some p => add_pid p l | None => l end.
Definition landed (ack : option (ackkind * pid)) (l : list pid) : list pid :=
  match ack with
  | Some (AckPuback, p) | Some (AckPubcomp, p) => filter (fun q => negb (q =? p)) l
  | _ => l
  end.
Definition inflight5_step (cfg : config) (l : list pid) (e : sev5 * list pkt5) : list pid :=
  match fst e with
  | VTake _ _ _ _ => []
  | VPkt _ len x _ => fold_left (fly wpid5) (flat_map wire5 (after_answer5 x (snd e))) (landed (ack5 cfg len x) l)
  | _ => fold_left (fly wpid5) (flat_map wire5 (snd e)) l
  end.
Definition inflight5 (cfg : config) (l : list (sev5 * list pkt5)) : list pid := fold_left (inflight5_step cfg) l [].

Definition inflight3_step (cfg : config) (l : list pid) (e : sev3 * list pkt3) : list pid :=
  match fst e with
  | UTake _ _ _ => []
  | UPkt _ len x _ => fold_left (fly wpid3) (flat_map wire3 (after_answer3 x (snd e))) (landed (ack3 cfg len x) l)
  | _ => fold_left (fly wpid3) (flat_map wire3 (snd e)) l
  end.
Definition inflight3 (cfg : config) (l : list (sev3 * list pkt3)) : list pid := fold_left (inflight3_step cfg) l [].

(** Few enough messages that packet identifiers do not come round while in use:
    none was dropped and the queue is no longer than there are identifiers, or
    fewer than 65535 messages arrived since any that is unfinished. *)
Definition few_enough {M W} (cfg : config) (log : list (oev M W)) : Prop :=
  cf_max_pending cfg <= 65535 /\ nothing_dropped log \/ recent_enough log.

(** A run in which a client takes the session over, keeping it, and the server
    writes what is due; [out] are the packets. *)
Definition resumes5 hash cfg (s : sess5) (t : N) (uuid : string) (p : connect5) (data : option string) (now : N) (out : list pkt5) : Prop :=
  co_clean p = false /\ exists s1 s2 s3,
    sstep5 hash cfg s (VTake t uuid p data) s1 [] /\ sstep5 hash cfg s1 VSet s2 [] /\
    sstep5 hash cfg s2 (VFlush now) s3 out.
Definition resumes3 hash cfg (s : sess3) (t : N) (s0 : sess3) (now : N) (out : list pkt3) : Prop :=
  exists s1 s2 s3,
    sstep3 hash cfg s (UTake t s0 true) s1 [] /\ sstep3 hash cfg s1 USet s2 [] /\ sstep3 hash cfg s2 (UFlush now) s3 out.
