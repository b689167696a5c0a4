(** MQTT 5 session: packet handlers.
    Models v5/session.rs, v5/packet/publish.rs, v5/packet/subscribe.rs,
    v5/packet/common.rs:28-31, 73-107, v5/packet/connect.rs:349-371 and the
    handlers of v5/message.rs.

    Simplifications: a handler is one atomic step (the window between a routing
    lookup and the reading of its result is treated in RaceModel), and reads
    the clock once ([now]).  The packet hash and the selection number of a shared
    group are the parameters [hash] and [pick]. *)
From Coq Require Import List Bool String Ascii NArith.
From Verif Require Import Base TopicModel MsgModel PendingModel AliasModel OutModel RouteModel RetainModel GlobModel.
Import ListNotations.
Local Open Scope N_scope.

(** mqtt-proto v5 [SubscriptionOptions], [RetainHandling] *)
Inductive rhandling := RH_send | RH_send_if_new | RH_none.
Record subopts := SubOpts {
  so_qos : qos; so_no_local : bool; so_rap : bool; so_rh : rhandling
}.

(** session.rs:158-168 [SubscriptionData] *)
Record subdata := SubData { sd_opts : subopts; sd_id : option N }.

(** mqtt-proto v5 [LastWill]; [wl_props] are the properties copied to the
    published message, [wl_delay] is [delay_interval]. *)
Record will5 := Will5 {
  wl_qos : qos; wl_retain : bool; wl_topic : string; wl_payload : string;
  wl_delay : option N; wl_props : pprops
}.

(** session.rs:20-75 [Session].  Left out: peer address, user name, user
    properties, the authentication state (ConnModel) and
    request_response_info.  [s_out] groups the sending side (OutModel). *)
Record sess5 := Sess5 {
  s_id : client_id;
  s_ident : string;                          (* client_identifier *)
  s_connected : bool;
  s_cdisc : bool;                            (* client_disconnected *)
  s_sdisc : bool;                            (* server_disconnected *)
  s_ctime : option N;                        (* connected_time *)
  s_last : N;                                (* last_packet_time *)
  s_out : out5;
  s_qos2 : list (pid * N);                   (* qos2_pids *)
  s_subs : list (string * subdata);          (* subscribes *)
  s_alias : list (N * string);               (* topic_aliases *)
  s_bcast : bcast;                           (* broadcast_packets *)
  s_bcnt : N;                                (* broadcast_packets_cnt *)
  s_will : option will5;
  s_keep : N;                                (* keep_alive *)
  s_clean : bool;                            (* clean_start *)
  s_expiry : N;                              (* session_expiry_interval *)
  s_rmax : N;                                (* receive_max *)
  s_maxpkt : N;                              (* max_packet_size *)
  s_problem : bool                           (* request_problem_info *)
}.

(** Assignments to fields of [Session] (v5/session.rs:20-90). *)
Definition with_out (o : out5) (s : sess5) : sess5 :=
  Sess5 (s_id s) (s_ident s) (s_connected s) (s_cdisc s) (s_sdisc s) (s_ctime s) (s_last s) o
    (s_qos2 s) (s_subs s) (s_alias s) (s_bcast s) (s_bcnt s) (s_will s) (s_keep s) (s_clean s)
    (s_expiry s) (s_rmax s) (s_maxpkt s) (s_problem s).
Definition with_qos2 (q : list (pid * N)) (s : sess5) : sess5 :=
  Sess5 (s_id s) (s_ident s) (s_connected s) (s_cdisc s) (s_sdisc s) (s_ctime s) (s_last s) (s_out s)
    q (s_subs s) (s_alias s) (s_bcast s) (s_bcnt s) (s_will s) (s_keep s) (s_clean s)
    (s_expiry s) (s_rmax s) (s_maxpkt s) (s_problem s).
Definition with_subs (m : list (string * subdata)) (s : sess5) : sess5 :=
  Sess5 (s_id s) (s_ident s) (s_connected s) (s_cdisc s) (s_sdisc s) (s_ctime s) (s_last s) (s_out s)
    (s_qos2 s) m (s_alias s) (s_bcast s) (s_bcnt s) (s_will s) (s_keep s) (s_clean s)
    (s_expiry s) (s_rmax s) (s_maxpkt s) (s_problem s).
Definition with_alias (m : list (N * string)) (s : sess5) : sess5 :=
  Sess5 (s_id s) (s_ident s) (s_connected s) (s_cdisc s) (s_sdisc s) (s_ctime s) (s_last s) (s_out s)
    (s_qos2 s) (s_subs s) m (s_bcast s) (s_bcnt s) (s_will s) (s_keep s) (s_clean s)
    (s_expiry s) (s_rmax s) (s_maxpkt s) (s_problem s).
Definition with_bcast (b : bcast) (n : N) (s : sess5) : sess5 :=
  Sess5 (s_id s) (s_ident s) (s_connected s) (s_cdisc s) (s_sdisc s) (s_ctime s) (s_last s) (s_out s)
    (s_qos2 s) (s_subs s) (s_alias s) b n (s_will s) (s_keep s) (s_clean s)
    (s_expiry s) (s_rmax s) (s_maxpkt s) (s_problem s).
Definition with_disc (c d : bool) (s : sess5) : sess5 :=
  Sess5 (s_id s) (s_ident s) (s_connected s) c d (s_ctime s) (s_last s) (s_out s)
    (s_qos2 s) (s_subs s) (s_alias s) (s_bcast s) (s_bcnt s) (s_will s) (s_keep s) (s_clean s)
    (s_expiry s) (s_rmax s) (s_maxpkt s) (s_problem s).
Definition with_will (w : option will5) (s : sess5) : sess5 :=
  Sess5 (s_id s) (s_ident s) (s_connected s) (s_cdisc s) (s_sdisc s) (s_ctime s) (s_last s) (s_out s)
    (s_qos2 s) (s_subs s) (s_alias s) (s_bcast s) (s_bcnt s) w (s_keep s) (s_clean s)
    (s_expiry s) (s_rmax s) (s_maxpkt s) (s_problem s).
Definition with_expiry (e : N) (s : sess5) : sess5 :=
  Sess5 (s_id s) (s_ident s) (s_connected s) (s_cdisc s) (s_sdisc s) (s_ctime s) (s_last s) (s_out s)
    (s_qos2 s) (s_subs s) (s_alias s) (s_bcast s) (s_bcnt s) (s_will s) (s_keep s) (s_clean s)
    e (s_rmax s) (s_maxpkt s) (s_problem s).
Definition with_connected (b : bool) (s : sess5) : sess5 :=
  Sess5 (s_id s) (s_ident s) b (s_cdisc s) (s_sdisc s) (s_ctime s) (s_last s) (s_out s)
    (s_qos2 s) (s_subs s) (s_alias s) (s_bcast s) (s_bcnt s) (s_will s) (s_keep s) (s_clean s)
    (s_expiry s) (s_rmax s) (s_maxpkt s) (s_problem s).
Definition with_last (t : N) (s : sess5) : sess5 :=
  Sess5 (s_id s) (s_ident s) (s_connected s) (s_cdisc s) (s_sdisc s) (s_ctime s) t (s_out s)
    (s_qos2 s) (s_subs s) (s_alias s) (s_bcast s) (s_bcnt s) (s_will s) (s_keep s) (s_clean s)
    (s_expiry s) (s_rmax s) (s_maxpkt s) (s_problem s).

(** Packets the server writes to a v5 client.  A reason code is its MQTT number. *)
Inductive pkt5 :=
| KPub (w : wpub5)
| KPuback (p : pid) (code : N)
| KPubrec (p : pid) (code : N)
| KPubrel (p : pid) (code : N)
| KPubcomp (p : pid) (code : N)
| KSuback (p : pid) (codes : list N)
| KUnsuback (p : pid) (codes : list N)
| KPingresp
| KDisconnect (code : N) (reason : option string).

(** The packets built in v5/packet/common.rs:152-241. *)
Definition of_sent5 (x : sent wpub5) : pkt5 :=
  match x with SPub w => KPub w | SRel p => KPubrel p RC_success end.

(** Encoded size of a DISCONNECT with a reason string (v5/packet/common.rs:92-96). *)
Definition disconnect_len (reason : string) : N :=
  let pl := 3 + slen reason in
  let r := 1 + var_len pl + pl in 1 + var_len r + r.

(** v5/packet/common.rs:73-107 [build_error_disconnect] *)
Definition error_disconnect (code : N) (reason : string) (s : sess5) : sess5 * pkt5 :=
  let keep := s_problem s && (disconnect_len reason <=? s_maxpkt s) in
  (with_disc (s_cdisc s) true s, KDisconnect code (if keep then Some reason else None)).

Section Handlers.
  Variable hash : wpub5 -> N.                      (* AHasher over the packet *)
  Variable pick : string -> string -> N.           (* selection number for (group, filter) *)

  (** ** Sending to other clients: v5/packet/publish.rs:309-433 *)

  Definition senders := list (client_id * (list string * qos)).

  (** publish.rs:365-373, 390-398: merge into the entry of the receiver. *)
  Definition add_sender (c : client_id) (f : string) (q : qos) (l : senders) : senders :=
    match aget c l with
    | Some (fs, mq) => aset c ((fs ++ [f])%list, qos_max mq q) l
    | None => (l ++ [(c, ([f], q))])%list
    end.

  (** publish.rs:355-364: the publisher's own plain subscription. *)
  Definition own_skip (s : sess5) (f : string) (c : client_id) : bool :=
    if c =? s_id s then
      match aget f (s_subs s) with
      | Some sub => so_no_local (sd_opts sub)
      | None => true
      end
    else false.

  Definition add_clients (s : sess5) (f : string) (cl : list (client_id * qos)) (l : senders) : senders :=
    fold_left (fun l cq => if own_skip s f (fst cq) then l else add_sender (fst cq) f (snd cq) l) cl l.

  (** publish.rs:375-399.  [TopicFilter::try_from("$share/...").expect(...)] is
      taken to succeed: the string is that of an accepted filter. *)
  Fixpoint add_groups (f : string) (gs : list (string * shared)) (l : senders) : option senders :=
    match gs with
    | [] => Some l
    | (name, sh) :: r =>
        match sh_get_by_number sh (pick name f) with
        | Some (c, q) => add_groups f r (add_sender c ("$share/" ++ name ++ "/" ++ f)%string q l)
        | None => None
        end
    end.

  (** publish.rs:351-400; [None] is the panic of [topic_filter.unwrap()] or of the
      selection. *)
  Fixpoint collect_senders (s : sess5) (cts : list content) (l : senders) : option senders :=
    match cts with
    | [] => Some l
    | ct :: r =>
        match c_filter ct with
        | None => None
        | Some f =>
            match add_groups f (c_groups ct) (add_clients s f (c_clients ct) l) with
            | Some l' => collect_senders s r l'
            | None => None
            end
        end
    end.

  (** publish.rs:297-305 [SendPublish] *)
  Record sendpub := SendPub {
    sp_topic : string; sp_retain : bool; sp_qos : qos; sp_payload : string; sp_props : pprops; sp_len : N
  }.

  (** publish.rs:309-433 [send_publish]: new session, new tables, number of
      matched subscriptions. *)
  Definition send_publish5 (m : sendpub) (s : sess5) (g : glob) : outcome (sess5 * glob * nat) :=
    let g1 := store_retained (sp_retain m)
                (RContent (s_ident s) (sp_qos m) (sp_topic m) (sp_payload m) (Some (sp_props m)) (sp_len m)) g in
    let matches := rt_get_matches (g_route g1) (sp_topic m) in
    match collect_senders s matches [] with
    | None => Panic
    | Some l =>
        let cnt := s_bcnt s + N.of_nat (List.length l) in
        let '(b, cnt') := fold_left (fun bc e =>
            queue_msg g1 (fst e)
              (NM5 (NMsg5 (sp_retain m) (sp_qos m) (sp_topic m) (sp_payload m)
                      (fst (snd e)) (snd (snd e)) (sp_props m) (sp_len m))) bc)
            l (s_bcast s, cnt) in
        Done (with_bcast b cnt' s, g1, List.length matches)
    end.

  (** ** Receiving PUBLISH: v5/packet/publish.rs:27-211 *)

  (** publish.rs:67-110: the topic the packet is for, or the refusal.
      The session's alias table may be updated. *)
  Definition resolve_topic (amax : N) (w : wpub5) (s : sess5) : sess5 * (string + (N * string)) :=
    match pp_alias (w5_props w) with
    | Some a =>
        if a =? 0 then (s, inr (RC_topic_alias_invalid, "topic alias is 0"%string))
        else if amax <? a then (s, inr (RC_topic_alias_invalid, "topic alias too large"%string))
        else if String.eqb (w5_topic w) "" then
          match aget a (s_alias s) with
          | Some t => (s, inl t)
          | None => (s, inr (RC_protocol_error, "topic alias not found"%string))
          end
        else (with_alias (aset a (w5_topic w) (s_alias s)) s, inl (w5_topic w))
    | None =>
        if String.eqb (w5_topic w) "" then (s, inr (RC_protocol_error, "empty topic name"%string))
        else (s, inl (w5_topic w))
    end.

  (** publish.rs:121-161: the QoS 2 identifier bookkeeping. *)
  Inductive qos2_verdict := V_go | V_in_use | V_refuse (code : N) (reason : string).
  Definition check_qos2 (limit : N) (w : wpub5) (s : sess5) : sess5 * qos2_verdict :=
    match w5_qp w with
    | Q2 p =>
        let h := hash w in
        match aget p (s_qos2 s) with
        | Some h' =>
            if negb (h =? h') then (s, V_in_use)
            else if negb (w5_dup w)
            then (s, V_refuse RC_protocol_error "dup flag must be true for re-deliver packet"%string)
            else (s, V_go)
        | None =>
            if limit <=? N.of_nat (List.length (s_qos2 s))
            then (s, V_refuse RC_receive_max_exceeded "too many inflight qos2 message"%string)
            else (with_qos2 (aset p h (s_qos2 s)) s, V_go)
        end
    | _ => (s, V_go)
    end.

  Definition is_q2 (x : qospid) : bool := match x with Q2 _ => true | _ => false end.
  Definition is_q0 (x : qospid) : bool := match x with Q0 => true | _ => false end.

  (** publish.rs:182-210: the acknowledgement. *)
  Definition publish_ack (x : qospid) (matched : nat) : list pkt5 :=
    let code := match matched with O => RC_no_matching_subscribers | S _ => RC_success end in
    match x with
    | Q0 => []
    | Q1 p => [KPuback p code]
    | Q2 p => [KPubrec p code]
    end.

  (** publish.rs:27-211 [handle_publish]: new session, new tables and the packets
      to write; both [Ok] and [Err] packets are written (message.rs:468-474). *)
  Definition handle_publish5 (w : wpub5) (s : sess5) (g : glob) : outcome (sess5 * glob * list pkt5) :=
    let refuse code reason s :=
      let '(s', k) := error_disconnect code reason s in Done (s', g, [k]) in
    if starts_with_dollar (w5_topic w)
    then refuse RC_topic_name_invalid "publish to topic name start with '$' is not allowed"%string s
    else if is_q0 (w5_qp w) && w5_dup w
    then refuse RC_protocol_error "invalid dup flag in qos0 message"%string s
    else
      match resolve_topic (cf_alias_max (g_cfg g)) w s with
      | (s1, inr (code, reason)) => refuse code reason s1
      | (s1, inl topic) =>
          if negb (is_nil (pp_subids (w5_props w)))
          then refuse RC_protocol_error "subscription identifier can't in publish"%string s1
          else
            match check_qos2 (cf_inflight_server (g_cfg g)) w s1 with
            | (s2, V_in_use) =>
                Done (s2, g, [KPubrec (match w5_qp w with Q2 p => p | _ => 0 end) RC_pid_in_use])
            | (s2, V_refuse code reason) => refuse code reason s2
            | (s2, V_go) =>
                if w5_dup w && is_q2 (w5_qp w) then Done (s2, g, publish_ack (w5_qp w) 1)
                else
                  match enc_len5 w with
                  | None => Panic                          (* expect("packet too large") *)
                  | Some len =>
                      match send_publish5 (SendPub topic (w5_retain w) (qp_qos (w5_qp w)) (w5_payload w)
                                             (set_alias None (w5_props w)) len) s2 g with
                      | Panic => Panic
                      | Done (s3, g', n) => Done (s3, g', publish_ack (w5_qp w) n)
                      end
                  end
            end
      end.

  (** publish.rs:213-221 [handle_puback] *)
  Definition handle_puback5 (p : pid) (s : sess5) : sess5 :=
    with_out (fst (out5_on_queue (pend_complete p L1) (s_out s))) s.

  (** publish.rs:223-241 [handle_pubrec] *)
  Definition handle_pubrec5 (now : N) (p : pid) (s : sess5) : sess5 * pkt5 :=
    let '(o, ok) := out5_on_queue (pend_pubrec now p) (s_out s) in
    (with_out o s, KPubrel p (if ok then RC_success else RC_pid_not_found)).

  (** publish.rs:243-261 [handle_pubrel] *)
  Definition handle_pubrel5 (p : pid) (s : sess5) : sess5 * pkt5 :=
    match aget p (s_qos2 s) with
    | Some _ => (with_qos2 (adel p (s_qos2 s)) s, KPubcomp p RC_success)
    | None => (s, KPubcomp p RC_pid_not_found)
    end.

  (** publish.rs:263-271 [handle_pubcomp] *)
  Definition handle_pubcomp5 (p : pid) (s : sess5) : sess5 :=
    with_out (fst (out5_on_queue (pend_complete p L2) (s_out s))) s.

  (** ** Delivering to this client: v5/packet/publish.rs:436-510 *)

  (** publish.rs:283-295 [RecvPublish] with [SubscriptionIds]. *)
  Inductive subids := Lookup (f : string) | Precomputed (l : list N).
  Record recvpub := RecvPub {
    rp_topic : string; rp_qos : qos; rp_retain : bool; rp_payload : string;
    rp_props : option pprops; rp_ids : subids; rp_sqos : qos; rp_len : N
  }.

  Definition opt_list {A} (o : option A) : list A := match o with Some x => [x] | None => [] end.

  (** publish.rs:436-510 [recv_publish]; [msg.encode_len - 2] cannot underflow
      (truncated here).  Result: [None], or the QoS and the packet to write. *)
  Definition recv_publish5 (now : N) (m : recvpub) (s : sess5) : sess5 * option (qos * option pkt5) :=
    let props0 := match rp_props m with Some p => p | None => pprops_default end in
    let ids := match rp_ids m with
               | Precomputed l => Some l
               | Lookup f => match aget f (s_subs s) with
                             | Some sub => Some (opt_list (sd_id sub))
                             | None => None
                             end
               end in
    match ids with
    | None => (s, None)
    | Some l =>
        let props := set_subids l props0 in
        let fq := qos_min (rp_qos m) (rp_sqos m) in
        if negb (qos_eqb fq L0) then
          if s_maxpkt s <? rp_len m then (s, None)
          else
            let '(o, _) := out5_push now (Pub5 (rp_topic m) fq (rp_retain m) (rp_payload m) props) (s_out s) in
            (with_out o s, Some (fq, None))
        else if negb (s_cdisc s) && negb (s_sdisc s) then
          let len := if qos_eqb (rp_qos m) L0 then rp_len m else rp_len m - 2 in
          if s_maxpkt s <? len then (s, None)
          else
            let '(o, w) := out5_qos0 (rp_topic m) (rp_retain m) (rp_payload m) props (s_out s) in
            (with_out o s, Some (fq, Some (KPub w)))
        else (s, None)
    end.

  (** v5/message.rs:855-868: what the receiver's own subscriptions say about the
      filters of a message: (has_subscription, retain_as_published, ids). *)
  Definition filters_info (subs : list (string * subdata)) (fs : list string) : bool * bool * list N :=
    fold_left (fun acc f =>
      let '(has, rap, ids) := acc in
      match aget f subs with
      | None => acc
      | Some sub =>
          let rap' := rap || so_rap (sd_opts sub) in
          match sd_id sub with
          | Some i => (true, rap', if existsb (N.eqb i) ids then ids else (ids ++ [i])%list)
          | None => (true, rap', ids)
          end
      end) fs (false, false, []).

  (** v5/message.rs:796-891 [handle_normal] *)
  Definition handle_normal5 (now : N) (c : config) (m : nmsg) (s : sess5) : sess5 * option (qos * option pkt5) :=
    match m with
    | NM3 m =>
        match aget (n3_filter m) (s_subs s) with
        | Some sub =>
            let retain := n3_retain m && (cf_retain c && so_rap (sd_opts sub)) in
            recv_publish5 now (RecvPub (n3_topic m) (n3_qos m) retain (n3_payload m) None
                                 (Lookup (n3_filter m)) (n3_sqos m) (n3_len m + 1)) s
        | None => (s, None)
        end
    | NM5 m =>
        let '(has, rap, ids) := filters_info (s_subs s) (n5_filters m) in
        if has then
          let retain := n5_retain m && (cf_retain c && rap) in
          recv_publish5 now (RecvPub (n5_topic m) (n5_qos m) retain (n5_payload m) (Some (n5_props m))
                               (Precomputed ids) (n5_sqos m) (n5_len m)) s
        else (s, None)
    end.

  (** v5/packet/common.rs:152-241 on the session. *)
  Definition pendings5 (now : N) (s : sess5) : sess5 * list pkt5 :=
    let '(o, l) := handle_pendings5 now (s_out s) in (with_out o s, map of_sent5 l).

  (** ** SUBSCRIBE and UNSUBSCRIBE: v5/packet/subscribe.rs *)

  Definition has_wildcard (f : string) : bool :=
    (fix go s := match s with
                 | EmptyString => false
                 | String c r => Ascii.eqb c "+"%char || Ascii.eqb c "#"%char || go r
                 end) f.
  Definition is_shared (f : string) : bool := match shared_info f with Some _ => true | None => false end.

  (** subscribe.rs:53-67: the reason code of one filter. *)
  Definition sub_code (c : config) (granted : qos) (f : string) : N :=
    if negb (cf_shared c) && is_shared f then RC_shared_not_supported
    else if negb (cf_wildcard c) && has_wildcard f then RC_wildcard_not_supported
    else RC_granted granted.

  (** subscribe.rs:86-117: send the matching retained messages. *)
  Fixpoint send_retained (now : N) (f : string) (o : subopts) (ms : list rcontent) (s : sess5)
      : sess5 * list pkt5 * bool :=
    match ms with
    | [] => (s, [], false)
    | m :: r =>
        if so_no_local o && String.eqb (rc_client m) (s_ident s) then send_retained now f o r s
        else
          let len := match rc_props m with None => rc_len m + 1 | Some _ => rc_len m end in
          let '(s1, res) := recv_publish5 now
              (RecvPub (rc_topic m) (rc_qos m) (so_rap o) (rc_payload m) (rc_props m) (Lookup f) (so_qos o) len) s in
          let '(s2, out, pend) := send_retained now f o r s1 in
          match res with
          | None => (s2, out, pend)
          | Some (q, k) => (s2, (opt_list k ++ out)%list, negb (qos_eqb q L0) || pend)
          end
    end.

  (** subscribe.rs:52-126: one filter. Result: reason code, packets, panic-free. *)
  Definition subscribe_one (now : N) (id : option N) (f : string) (o0 : subopts) (s : sess5) (g : glob)
      : outcome (sess5 * glob * N * list pkt5) :=
    match max_allowed_qos (g_cfg g) with
    | None => Panic
    | Some mq =>
        let granted := qos_min (so_qos o0) mq in
        let code := sub_code (g_cfg g) granted f in
        if code <? 0x80 then
          let o := SubOpts granted (so_no_local o0) (so_rap o0) (so_rh o0) in
          let old := aget f (s_subs s) in
          let s1 := with_subs (aset f (SubData o id) (s_subs s)) s in
          let '(t, p) := rt_subscribe (g_route g) f (s_id s) granted in
          let g1 := set_route t g in
          if p then Panic
          else
            let send := cf_retain (g_cfg g) && negb (is_shared f) &&
                        match so_rh o with
                        | RH_send => true
                        | RH_send_if_new => match old with None => true | Some _ => false end
                        | RH_none => false
                        end in
            if send then
              match ret_get_matches (g_retain g) f with
              | None => Panic
              | Some ms =>
                  let '(s2, out, pend) := send_retained now f o ms s1 in
                  if pend then
                    let '(s3, out') := pendings5 now s2 in Done (s3, g1, code, (out ++ out')%list)
                  else Done (s2, g1, code, out)
              end
            else Done (s1, g1, code, [])
        else Done (s, g, code, [])
    end.

  Fixpoint subscribe_all (now : N) (id : option N) (fs : list (string * subopts)) (s : sess5) (g : glob)
      : outcome (sess5 * glob * list N * list pkt5) :=
    match fs with
    | [] => Done (s, g, [], [])
    | (f, o) :: r =>
        match subscribe_one now id f o s g with
        | Panic => Panic
        | Done (s1, g1, code, out) =>
            match subscribe_all now id r s1 g1 with
            | Panic => Panic
            | Done (s2, g2, codes, out') => Done (s2, g2, code :: codes, (out ++ out')%list)
            end
        end
    end.

  (** subscribe.rs:20-139 [handle_subscribe] *)
  Definition handle_subscribe5 (now : N) (p : pid) (id : option N) (fs : list (string * subopts))
      (s : sess5) (g : glob) : outcome (sess5 * glob * list pkt5) :=
    match id with
    | Some 0 =>
        let '(s', k) := error_disconnect RC_protocol_error
                          "Subscription identifier value=0 is not allowed"%string s in
        Done (s', g, [k])
    | _ =>
        if negb (cf_subid (g_cfg g)) && match id with Some _ => true | None => false end
        then Done (s, g, [KSuback p (map (fun _ => RC_subid_not_supported) fs)])
        else
          match subscribe_all now id fs s g with
          | Panic => Panic
          | Done (s', g', codes, out) => Done (s', g', (out ++ [KSuback p codes])%list)
          end
    end.

  (** subscribe.rs:155-164 *)
  Fixpoint unsubscribe_all (fs : list string) (s : sess5) (g : glob) : outcome (sess5 * glob * list N) :=
    match fs with
    | [] => Done (s, g, [])
    | f :: r =>
        let '(t, p) := rt_unsubscribe (g_route g) f (s_id s) in
        if p then Panic
        else
          let code := match aget f (s_subs s) with
                      | Some _ => RC_success
                      | None => RC_no_subscription_existed
                      end in
          match unsubscribe_all r (with_subs (adel f (s_subs s)) s) (set_route t g) with
          | Panic => Panic
          | Done (s', g', codes) => Done (s', g', code :: codes)
          end
    end.

  (** subscribe.rs:141-171 [handle_unsubscribe] *)
  Definition handle_unsubscribe5 (p : pid) (fs : list string) (s : sess5) (g : glob)
      : outcome (sess5 * glob * list pkt5) :=
    match unsubscribe_all fs s g with
    | Panic => Panic
    | Done (s', g', codes) => Done (s', g', [KUnsuback p codes])
    end.

  (** ** DISCONNECT: v5/packet/connect.rs:349-371 *)
  Definition handle_disconnect5 (code : N) (expiry : option N) (s : sess5) : sess5 * list pkt5 :=
    let check := match expiry with
                 | Some v => if (0 <? v) && (s_expiry s =? 0) then None else Some (with_expiry v s)
                 | None => Some s
                 end in
    match check with
    | None => let '(s', k) := error_disconnect RC_protocol_error
                 "SessionExpiryInterval is 0 in CONNECT"%string s in (s', [k])
    | Some s1 =>
        let s2 := if code =? 0 then with_will None s1 else s1 in
        (with_disc true (s_sdisc s2) s2, [])
    end.

  (** ** Dispatch: v5/message.rs:427-536, hooks disabled *)

  (** Packets a client sends after CONNECT.  [IOther] is any packet the server
      does not accept here (CONNECT, AUTH, CONNACK, ...). *)
  Inductive in5 :=
  | IPub (w : wpub5)
  | IPuback (p : pid)
  | IPubrec (p : pid)
  | IPubrel (p : pid)
  | IPubcomp (p : pid)
  | ISub (p : pid) (id : option N) (fs : list (string * subopts))
  | IUnsub (p : pid) (fs : list string)
  | IPing
  | IDisconnect (code : N) (expiry : option N)
  | IOther.

  (** Result of handling one packet: continue, or end the connection with an
      error and no packet ([Err] of handle_packet). *)
  Inductive hres := Go (s : sess5) (g : glob) (out : list pkt5) | Stop (s : sess5) (g : glob) | Crash.

  (** message.rs:427-528 [handle_packet]; [len] is the received packet's size. *)
  Definition handle_packet5 (now len : N) (x : in5) (s : sess5) (g : glob) : hres :=
    let lift r := match r with Done (s', g', out) => Go s' g' out | Panic => Crash end in
    if cf_packet_server (g_cfg g) <? len then
      let '(s', k) := error_disconnect RC_packet_too_large "Packet too large"%string s in Go s' g [k]
    else
      match x with
      | IPub w => lift (handle_publish5 w s g)
      | IPuback p => Go (handle_puback5 p s) g []
      | IPubrec p => let '(s', k) := handle_pubrec5 now p s in Go s' g [k]
      | IPubrel p => let '(s', k) := handle_pubrel5 p s in Go s' g [k]
      | IPubcomp p => Go (handle_pubcomp5 p s) g []
      | ISub p id fs => lift (handle_subscribe5 now p id fs s g)
      | IUnsub p fs => lift (handle_unsubscribe5 p fs s g)
      | IPing => Go s g [KPingresp]
      | IDisconnect code expiry => let '(s', out) := handle_disconnect5 code expiry s in Go s' g out
      | IOther => Stop s g
      end.

  (** message.rs:343-351 [disconnected] *)
  Definition is_disconnected5 (s : sess5) : bool := s_cdisc s || s_sdisc s.

  (** message.rs:530-536 and common.rs:28-31 [after_handle_packet] *)
  Definition after_packet5 (now : N) (s : sess5) : sess5 * list pkt5 :=
    if is_disconnected5 s then (s, []) else pendings5 now (with_last now s).

  (** online_loop.rs: the reaction to one packet, [handle_packet] followed by
      [after_handle_packet]. *)
  Definition packet_step5 (now len : N) (x : in5) (s : sess5) (g : glob) : hres :=
    match handle_packet5 now len x s g with
    | Go s1 g1 out =>
        let '(s2, out') := after_packet5 now s1 in Go s2 g1 (out ++ out')%list
    | r => r
    end.

  (** ** Will: v5/message.rs:895-941 [send_will].  The packet size is computed
      with retain = false and the identifier 1; an oversized will is an error
      and is not sent (the will was taken already). *)
  Definition send_will5 (s : sess5) (g : glob) : outcome (sess5 * glob * bool) :=
    match s_will s with
    | None => Done (s, g, true)
    | Some w =>
        let s1 := with_will None s in
        let props := set_alias None (set_subids [] (wl_props w)) in
        match enc_len5 (WPub5 false (qp_make (wl_qos w) 1) false (wl_topic w) (wl_payload w) props) with
        | None => Done (s1, g, false)
        | Some len =>
            match send_publish5 (SendPub (wl_topic w) (wl_retain w) (wl_qos w) (wl_payload w) props len) s1 g with
            | Panic => Panic
            | Done (s2, g2, _) => Done (s2, g2, true)
            end
        end
    end.
End Handlers.

(** ** Session state handed over on takeover: session.rs:77-89 and
    v5/message.rs:352-373 [build_state].  The message channel (receiver) is
    modelled in BrokerModel. *)
Record state5 := State5 {
  st_id : client_id;
  st_out : out5;                        (* server_packet_id, pending_packets *)
  st_qos2 : list (pid * N);
  st_subs : list (string * subdata);
  st_bcnt : N;
  st_bcast : bcast
}.

(** The old session keeps an empty queue with limits 0. *)
Definition build_state5 (s : sess5) : sess5 * state5 :=
  (with_subs [] (with_qos2 [] (with_bcast [] (s_bcnt s)
     (with_out (Out5 (o5_next (s_out s)) (PendQ 0 0 0 []) (o5_amax (s_out s)) (o5_al (s_out s))) s))),
   State5 (s_id s) (s_out s) (s_qos2 s) (s_subs s) (s_bcnt s) (s_bcast s)).
