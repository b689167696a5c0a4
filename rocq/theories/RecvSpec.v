(** Vocabulary for what a session does with a message handed to it, and for
    SUBSCRIBE and UNSUBSCRIBE (C20 - C25, C46, C49, C50). *)
From Coq Require Import List Bool String NArith.
From Verif Require Import Base TopicModel TopicSpec MsgModel RouteModel RouteSpec RetainModel RetainSpec OutModel OutSpec
  GlobModel Sess5Model Sess3Model DelivSpec InSpec.
Import ListNotations.
Local Open Scope N_scope.

(** ** Handing a message over *)

(** At [now] session [r] was handed message [x], became [r'] and passed [o] on to
    its client's queue, or at QoS 0 to its client ([None]: dropped). *)
Inductive passes5 (now : N) (cfg : config) (x : nmsg) (r r' : sess5) : option pub5 -> Prop :=
| pa5_drop : handle_normal5 now cfg x r = (r', None) -> r' = r -> passes5 now cfg x r r' None
| pa5_pass p k : handle_normal5 now cfg x r = (r', Some (p5_qos p, k)) ->
    takes5 now p (s_out r) (s_out r') k -> r' = with_out (s_out r') r -> passes5 now cfg x r r' (Some p).

Inductive passes3 (now : N) (x : nmsg) (r r' : sess3) : option pub3 -> Prop :=
| pa3_drop : handle_normal3 now x r = (r', None) -> r' = r -> passes3 now x r r' None
| pa3_pass p k : handle_normal3 now x r = (r', Some (p3_qos p, k)) ->
    takes3 now p (z_out r) (z_out r') k -> r' = zwith_out (z_out r') r -> passes3 now x r r' (Some p).

(** The receiving client's connection is up. *)
Definition up5 (r : sess5) : Prop := s_cdisc r = false /\ s_sdisc r = false.

(** A PUBLISH [w] of session [s] that the server read in a run. *)
Definition published5 (hash : wpub5 -> N) (pick : string -> string -> N) (cfg : config) (h : list rop)
    (l : list (sev5 * list pkt5)) (w : wpub5) (s s' : sess5) (g : glob) (out : list pkt5) : Prop :=
  exists now len g', srun5 hash cfg s l /\ is_disconnected5 s = false /\ incoming5 cfg h len w g /\
    packet_step5 hash pick now len (IPub w) s g = Go s' g' out.

Definition published3 (hash : wpub3 -> N) (cfg : config) (h : list rop)
    (l : list (sev3 * list pkt3)) (w : wpub3) (s s' : sess3) (g : glob) (out : list pkt3) : Prop :=
  exists now len g', srun3 hash cfg s l /\ z_disc s = false /\ incoming3 cfg h len w g /\
    packet_step3 hash now len (YPub w) s g = Go3 s' g' out.

(** ** SUBSCRIBE and UNSUBSCRIBE *)

(** Why the server refuses a filter of a SUBSCRIBE. *)
Inductive unsupported (cfg : config) (id : option N) (f : string) : N -> Prop :=
| us_subid i : id = Some i -> cf_subid cfg = false -> unsupported cfg id f RC_subid_not_supported
| us_shared : ~ plain f -> cf_shared cfg = false -> unsupported cfg id f RC_shared_not_supported
| us_wild : (exists a b, f = (a ++ "+" ++ b)%string \/ f = (a ++ "#" ++ b)%string) -> cf_wildcard cfg = false ->
    unsupported cfg id f RC_wildcard_not_supported.

(** The reason code of one filter: refused, or the granted QoS, which is the
    smaller of the requested and the configured one. *)
Definition answer5 (cfg : config) (id : option N) (fo : string * subopts) (code : N) : Prop :=
  unsupported cfg id (fst fo) code \/
  (forall c, ~ unsupported cfg id (fst fo) c) /\
  exists q, code = qos_num q /\ qos_num q = N.min (qos_num (so_qos (snd fo))) (cf_max_qos cfg).

(** The calls of the routing table for the accepted filters. *)
Definition granted_ops {A} (c : client_id) (fs : list (string * A)) (codes : list N) : list rop :=
  flat_map (fun e => match snd e with
                     | 0 => [Sub (fst (fst e)) c L0]
                     | 1 => [Sub (fst (fst e)) c L1]
                     | 2 => [Sub (fst (fst e)) c L2]
                     | _ => []
                     end) (combine fs codes).

(** The retained messages [ms] are handed to the client in order: [mk m] is the
    message sent for [m], [size m] the size assumed for it, [max] the client's
    limit. *)
Inductive gives5 (now : N) (mk : rcontent -> pub5) (size : rcontent -> N) (max : N)
    : list rcontent -> out5 -> out5 -> list pkt5 -> Prop :=
| gv5_nil o : gives5 now mk size max [] o o []
| gv5_take m r o o1 o2 k ks : size m <= max -> takes5 now (mk m) o o1 k -> gives5 now mk size max r o1 o2 ks ->
    gives5 now mk size max (m :: r) o o2 (opt_list k ++ ks)
| gv5_large m r o o2 ks : max < size m -> gives5 now mk size max r o o2 ks -> gives5 now mk size max (m :: r) o o2 ks.

Inductive gives3 (now : N) (mk : rcontent -> pub3) : list rcontent -> out3 -> out3 -> list pkt3 -> Prop :=
| gv3_nil o : gives3 now mk [] o o []
| gv3_take m r o o1 o2 k ks : takes3 now (mk m) o o1 k -> gives3 now mk r o1 o2 ks ->
    gives3 now mk (m :: r) o o2 (opt_list k ++ ks).

(** A possible transmission of queued messages afterwards. *)
Inductive flushed5 (now : N) (o : out5) : out5 -> list pkt5 -> Prop :=
| fl5_no : flushed5 now o o []
| fl5_yes : flushed5 now o (fst (handle_pendings5 now o)) (map of_sent5 (snd (handle_pendings5 now o))).
Inductive flushed3 (now : N) (o : out3) : out3 -> list pkt3 -> Prop :=
| fl3_no : flushed3 now o o []
| fl3_yes : flushed3 now o (fst (handle_pendings3 now o)) (map of_sent3 (snd (handle_pendings3 now o))).

(** ** Size of a packet on the wire *)
Definition fits (max : N) (w : wpub5) : Prop := exists n, enc_len5 w = Some n /\ n <= max.

(** ** Retained messages on SUBSCRIBE *)

(** The messages due for filter [f] of a SUBSCRIBE with options [o]; [before] are
    the filters subscribed when it is reached, [who] the client's identifier. *)
Definition due5 (cfg : config) (id : option N) (hr : list retop) (who : string) (before : list string)
    (f : string) (o : subopts) (ms : list rcontent) : Prop :=
  NoDup (map rc_topic ms) /\
  forall m, In m ms <->
    (forall c, ~ unsupported cfg id f c) /\ plain f /\ cf_retain cfg = true /\
    (so_rh o = RH_send \/ so_rh o = RH_send_if_new /\ ~ In f before) /\
    retained hr (rc_topic m) = Some m /\ topic_matches f (rc_topic m) /\
    ~ (so_no_local o = true /\ rc_client m = who).

(** The message sent for a retained message, and the size assumed for it.
    RETAIN is the subscription's Retain As Published option. *)
Definition retained_pub5 (id : option N) (q : qos) (rap : bool) (m : rcontent) : pub5 :=
  Pub5 (rc_topic m) (qos_min (rc_qos m) q) rap (rc_payload m)
    (set_subids (opt_list id) (match rc_props m with Some p => p | None => pprops_default end)).
Definition retained_size5 (q : qos) (m : rcontent) : N :=
  (match rc_props m with None => rc_len m + 1 | Some _ => rc_len m end) -
  (match rc_qos m, qos_min (rc_qos m) q with L0, _ => 0 | _, L0 => 2 | _, _ => 0 end).

(** The filters of a SUBSCRIBE in order: for each the messages due, then possibly
    a transmission. *)
Inductive serves5 (cfg : config) (id : option N) (hr : list retop) (who : string) (max now : N) (mq : qos)
    : list string -> list (string * subopts) -> out5 -> out5 -> list pkt5 -> Prop :=
| sv5_nil b o : serves5 cfg id hr who max now mq b [] o o []
| sv5_cons b f op r ms o1 o2 o3 o4 k1 k2 k3 :
    due5 cfg id hr who b f op ms ->
    gives5 now (retained_pub5 id (qos_min (so_qos op) mq) (so_rap op))
      (retained_size5 (qos_min (so_qos op) mq)) max ms o1 o2 k1 ->
    flushed5 now o2 o3 k2 ->
    serves5 cfg id hr who max now mq (f :: b) r o3 o4 k3 ->
    serves5 cfg id hr who max now mq b ((f, op) :: r) o1 o4 (k1 ++ k2 ++ k3).

(** MQTT 3: every matching retained message of at most the granted QoS, with
    RETAIN=1, whether or not the subscription is new. *)
Definition due3 (hr : list retop) (granted : qos) (f : string) (ms : list rcontent) : Prop :=
  NoDup (map rc_topic ms) /\
  forall m, In m ms <-> retained hr (rc_topic m) = Some m /\ topic_matches f (rc_topic m) /\
    qos_leb (rc_qos m) granted = true.
Definition retained_pub3 (m : rcontent) : pub3 := Pub3 (rc_topic m) (rc_qos m) true (rc_payload m).
Inductive serves3 (hr : list retop) (now : N) (mq : qos)
    : list (string * qos) -> out3 -> out3 -> list pkt3 -> Prop :=
| sv3_nil o : serves3 hr now mq [] o o []
| sv3_cons f q r ms o1 o2 o3 o4 k1 k2 k3 :
    due3 hr (qos_min q mq) f ms -> gives3 now retained_pub3 ms o1 o2 k1 -> flushed3 now o2 o3 k2 ->
    serves3 hr now mq r o3 o4 k3 -> serves3 hr now mq ((f, q) :: r) o1 o4 (k1 ++ k2 ++ k3).

(** The session's own subscriptions are those of the routing table. *)
Definition agree5 (h : list rop) (s : sess5) : Prop :=
  forall f, current h f (s_id s) = option_map (fun sub => so_qos (sd_opts sub)) (aget f (s_subs s)).
Definition agree3 (h : list rop) (s : sess3) : Prop := forall f, current h f (z_id s) = aget f (z_subs s).

(** The reason codes of UNSUBACK: Success for a subscription that exists when the
    filter is reached ([before]: the filters earlier in the packet). *)
Inductive unsub_codes (subs : list string) : list string -> list string -> list N -> Prop :=
| uc_nil before : unsub_codes subs before [] []
| uc_yes before f r codes : In f subs -> ~ In f before -> unsub_codes subs (f :: before) r codes ->
    unsub_codes subs before (f :: r) (RC_success :: codes)
| uc_no before f r codes : ~ In f subs \/ In f before -> unsub_codes subs (f :: before) r codes ->
    unsub_codes subs before (f :: r) (RC_no_subscription_existed :: codes).

(** ** Parts of a message handed over *)
Definition nm_topic (x : nmsg) := match x with NM3 m => n3_topic m | NM5 m => n5_topic m end.
Definition nm_payload (x : nmsg) := match x with NM3 m => n3_payload m | NM5 m => n5_payload m end.
Definition nm_qos (x : nmsg) := match x with NM3 m => n3_qos m | NM5 m => n5_qos m end.
Definition nm_sqos (x : nmsg) := match x with NM3 m => n3_sqos m | NM5 m => n5_sqos m end.
Definition nm_retain (x : nmsg) := match x with NM3 m => n3_retain m | NM5 m => n5_retain m end.
(** The filters that made it go to its receiver. *)
Definition nm_filters (x : nmsg) := match x with NM3 m => [n3_filter m] | NM5 m => n5_filters m end.

(** ** Packets that touch the routing table *)
Definition filters5 (x : in5) : list string :=
  match x with ISub _ _ fs => map fst fs | IUnsub _ fs => fs | _ => [] end.
Definition filters3 (x : in3) : list string :=
  match x with YSub _ fs => map fst fs | YUnsub _ fs => fs | _ => [] end.
Definition leaving5 (c : client_id) (x : in5) : list rop :=
  match x with IUnsub _ fs => map (fun f => Unsub f c) fs | _ => [] end.
Definition leaving3 (c : client_id) (x : in3) : list rop :=
  match x with YUnsub _ fs => map (fun f => Unsub f c) fs | _ => [] end.

(** The calls made on behalf of client [c] for filters [fs] cannot meet the index
    defect of shared groups (C03, C04): all filters are plain, or the defect was
    not triggered. *)
Definition safe_calls (h : list rop) (fs : list string) (leaving : list rop) : Prop :=
  Forall plain fs \/ ~ last_member_leaves (h ++ leaving).

(** A PUBLISH packet that carries the message [p] to the client, without a topic
    alias; the remaining expiry interval may have changed. *)
Definition carries (p : pub5) (w : wpub5) : Prop :=
  w5_topic w = p5_topic p /\ w5_payload w = p5_payload p /\ qp_qos (w5_qp w) = p5_qos p /\
  exists e, w5_props w = set_expiry e (set_alias None (p5_props p)) /\ (e = None <-> pp_expiry (p5_props p) = None).
