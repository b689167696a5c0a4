(** Vocabulary for C74: what becomes of a message the server has begun to send.  It is told by
    what a session sees (InSpec, LifeSpec): its events, oldest first, each with the packets
    written at it. *)
From Coq Require Import List Bool NArith.
From Verif Require Import Base MsgModel PendingModel OutModel GlobModel Sess5Model Sess3Model ConnModel OutSpec InSpec LinkSpec.
Import ListNotations.
Local Open Scope N_scope.

(** The session still has message [m], queued at [t0] under identifier [p] and sent before; it
    sends it again on a new connection or when its time comes. *)
Definition to_resend5 (s : sess5) (p : pid) (t0 : N) (m : pub5) : Prop := exists last, In (PNew t0 last p m true) (pq (o5_q (s_out s))).
Definition to_resend3 (s : sess3) (p : pid) (t0 : N) (m : pub3) : Prop := exists last, In (PNew t0 last p m true) (pq (o3_q (z_out s))).

(** The clock at an event, in seconds. *)
Definition when5 (e : sev5) : option N := match e with VPkt t _ _ _ | VMsg t _ | VLost t _ | VFlush t => Some t | _ => None end.
Definition when3 (e : sev3) : option N := match e with UPkt t _ _ _ | UMsg t _ | ULost t _ | UFlush t => Some t | _ => None end.

(** Neither a PUBACK, PUBREC or PUBCOMP for [p] comes (in a packet of allowed size), nor does
    the client start afresh. *)
Definition open5 (cfg : config) (p : pid) (l : list (sev5 * list pkt5)) : Prop :=
  forall e out, In (e, out) l ->
    match e with
    | VPkt _ len x _ => forall k, ack5 cfg len x <> Some (k, p)
    | VTake _ _ pc _ => co_clean pc = false
    | _ => True
    end.
Definition open3 (cfg : config) (p : pid) (l : list (sev3 * list pkt3)) : Prop :=
  forall e out, In (e, out) l ->
    match e with
    | UPkt _ len x _ => forall k, ack3 cfg len x <> Some (k, p)
    | UTake _ _ present => present = true
    | _ => True
    end.

(** The client connects anew, and the lifetime of [m], queued at [t0], is over at an event
    after that. *)
Definition outlived5 (l : list (sev5 * list pkt5)) (t0 : N) (m : pub5) : Prop :=
  exists a e out b t v, l = a ++ (e, out) :: b /\ when5 e = Some t /\ lifetime5 m = Some v /\ v <= t - t0 /\
    exists now uuid pc data o, In (VTake now uuid pc data, o) a.
