(** Specification of who is sent a published message, from the history of
    subscribe/unsubscribe calls. *)
From Coq Require Import List Bool String NArith.
From Verif Require Import Base TopicModel TopicSpec MsgModel RouteModel RouteSpec RetainModel OutModel OutSpec
  GlobModel Sess5Model Sess3Model.
Import ListNotations.

(** The messages waiting to be handed to client [c]. *)
Definition queue_of (b : bcast) (c : client_id) : list nmsg :=
  match aget c b with Some l => l | None => [] end.

(** Between [b] and [b'] exactly the messages [l] were queued for [c], after the
    ones already there. *)
Definition handed (b b' : bcast) (c : client_id) (l : list nmsg) : Prop :=
  queue_of b' c = (queue_of b c ++ l)%list.

(** [c] can be sent to: it has a message channel, or one was opened before. *)
Definition reachable (g : glob) (b : bcast) (c : client_id) : Prop :=
  In c (g_live g) \/ In c (keys b).

(** Client [c] holds a plain subscription to [f] with QoS [q] that matches [T]. *)
Definition plain_sub (h : list rop) (T : string) (c : client_id) (f : string) (q : qos) : Prop :=
  plain f /\ topic_matches f T /\ current h f c = Some q.

(** The publisher's own subscriptions count only if the session still has them,
    without No Local. *)
Definition wanted (s : sess5) (c : client_id) (f : string) : Prop :=
  c = s_id s -> exists sub, aget f (s_subs s) = Some sub /\ so_no_local (sd_opts sub) = false.

(** Client [c] was selected in the shared group [f] = "$share/<g>/<inner>". *)
Definition shared_pick (pick : string -> string -> N) (t : route_table) (T : string)
    (c : client_id) (f : string) (q : qos) : Prop :=
  exists g inner sh, f = share_filter g inner /\ offers_group t T inner g sh /\
    sh_get_by_number sh (pick g inner) = Some (c, q).

(** A message on [T] published by session [s] goes to [c] because of [f]. *)
Definition through (pick : string -> string -> N) (h : list rop) (s : sess5) (T : string)
    (c : client_id) (f : string) (q : qos) : Prop :=
  (plain_sub h T c f q /\ wanted s c f) \/ shared_pick pick (rt_run h) T c f q.

(** ** Effects of one accepted PUBLISH *)

(** The published message: topic, payload, QoS, RETAIN and properties. *)
Record pubmsg := PubMsg {
  pm_topic : string; pm_payload : string; pm_qos : qos; pm_retain : bool; pm_props : option pprops
}.

(** What a publish by [who] does to the retained messages: nothing without
    RETAIN, delete for an empty payload, store otherwise.  [len] is the packet
    size noted beside the message. *)
Definition retained_op (who : string) (m : pubmsg) (len : N) : list retop :=
  if pm_retain m then
    if String.eqb (pm_payload m) "" then [RDel (pm_topic m)]
    else [RIns (RContent who (pm_qos m) (pm_topic m) (pm_payload m) (pm_props m) len)]
  else [].

Definition tables_after (who : string) (m : pubmsg) (len : N) (g g' : glob) : Prop :=
  g_cfg g' = g_cfg g /\ g_live g' = g_live g /\ g_route g' = g_route g /\
  forall hr, g_retain g = ret_run hr -> g_retain g' = ret_run (hr ++ retained_op who m len).

(** A v5 session [s] published [m] and became [s']: every reachable client with
    at least one matching subscription was handed one message with the filters
    concerned and the highest granted QoS; everyone else nothing. *)
Definition one_copy (pick : string -> string -> N) (h : list rop) (m : pubmsg) (len : N)
    (s s' : sess5) (g : glob) (c : client_id) : Prop :=
  exists fs, NoDup fs /\
    (forall f, In f fs <-> exists q, through pick h s (pm_topic m) c f q) /\
    (fs = [] \/ ~ reachable g (s_bcast s) c -> handed (s_bcast s) (s_bcast s') c []) /\
    (fs <> [] -> reachable g (s_bcast s) c ->
     exists sq, (exists f, through pick h s (pm_topic m) c f sq) /\
       (forall f q, through pick h s (pm_topic m) c f q -> qos_leb q sq = true) /\
       handed (s_bcast s) (s_bcast s') c
         [NM5 (NMsg5 (pm_retain m) (pm_qos m) (pm_topic m) (pm_payload m) fs sq
                 (match pm_props m with Some p => p | None => pprops_default end) len)]).

Definition forwarded5 (pick : string -> string -> N) (h : list rop) (m : pubmsg) (len : N)
    (s s' : sess5) (g g' : glob) : Prop :=
  (forall c, one_copy pick h m len s s' g c) /\ tables_after (s_ident s) m len g g'.

(** Nothing was handed to anyone and the tables are unchanged. *)
Definition not_forwarded5 (s s' : sess5) (g g' : glob) : Prop :=
  g' = g /\ s_bcast s' = s_bcast s /\ s_bcnt s' = s_bcnt s.

(** A v3 session: one message per matching plain subscription. *)
Definition copies3 (h : list rop) (m : pubmsg) (len : N) (s s' : sess3) (g : glob) (c : client_id) : Prop :=
  exists es, NoDup (map fst es) /\
    (forall f q, In (f, q) es <-> plain_sub h (pm_topic m) c f q) /\
    (~ reachable g (z_bcast s) c -> handed (z_bcast s) (z_bcast s') c []) /\
    (reachable g (z_bcast s) c ->
     handed (z_bcast s) (z_bcast s') c
       (map (fun e => NM3 (NMsg3 (pm_retain m) (pm_qos m) (pm_topic m) (pm_payload m) (fst e) (snd e) len)) es)).

Definition forwarded3 (h : list rop) (m : pubmsg) (len : N) (s s' : sess3) (g g' : glob) : Prop :=
  (forall c, copies3 h m len s s' g c) /\ tables_after (z_ident s) m len g g'.

Definition not_forwarded3 (s s' : sess3) (g g' : glob) : Prop :=
  g' = g /\ z_bcast s' = z_bcast s /\ z_bcnt s' = z_bcnt s.

(** ** Handing one message to the receiving session's own client *)

(** At [now] the sending side [o] took the message [x]: with QoS 1/2 it was
    queued (or dropped because the queue was full, see C10); with QoS 0 the
    packet [k] was sent at once. *)
Definition takes5 (now : N) (x : pub5) (o o' : out5) (k : option pkt5) : Prop :=
  match p5_qos x with
  | L0 => exists w, step5 o (O5Zero now (p5_topic x) (p5_retain x) (p5_payload x) (p5_props x)) =
                    (o', [ESent now (SPub w)]) /\ k = Some (KPub w)
  | _ => o' = fst (step5 o (O5Msg now x)) /\ k = None
  end.

Definition takes3 (now : N) (x : pub3) (o o' : out3) (k : option pkt3) : Prop :=
  match p3_qos x with
  | L0 => o' = o /\ k = Some (JPub (WPub3 false Q0 (p3_retain x) (p3_topic x) (p3_payload x)))
  | _ => o' = fst (step3 o (O3Msg now x)) /\ k = None
  end.
