(** MQTT 3.1 / 3.1.1 session: packet handlers.
    Models v3/session.rs, v3/packet/publish.rs, v3/packet/subscribe.rs,
    v3/packet/common.rs:16-19 and the handlers of v3/message.rs.
    Simplifications as in Sess5Model. *)
From Coq Require Import List Bool String Ascii NArith.
From Verif Require Import Base TopicModel MsgModel PendingModel OutModel RouteModel RetainModel GlobModel Sess5Model.
Import ListNotations.
Local Open Scope N_scope.

(** mqtt-proto v3 [LastWill] *)
Record will3 := Will3 { wl3_qos : qos; wl3_retain : bool; wl3_topic : string; wl3_payload : string }.

(** session.rs:15-40 [Session] (peer and user name left out).  [z_v310] is
    "protocol is 3.1". *)
Record sess3 := Sess3 {
  z_id : client_id;
  z_ident : string;
  z_v310 : bool;
  z_connected : bool;
  z_disc : bool;                             (* disconnected *)
  z_ctime : option N;
  z_last : N;
  z_out : out3;
  z_qos2 : list (pid * N);
  z_subs : list (string * qos);
  z_bcast : bcast;
  z_bcnt : N;
  z_will : option will3;
  z_keep : N;
  z_clean : bool
}.

Definition zwith_out (o : out3) (s : sess3) : sess3 :=
  Sess3 (z_id s) (z_ident s) (z_v310 s) (z_connected s) (z_disc s) (z_ctime s) (z_last s) o (z_qos2 s)
    (z_subs s) (z_bcast s) (z_bcnt s) (z_will s) (z_keep s) (z_clean s).
Definition zwith_qos2 (q : list (pid * N)) (s : sess3) : sess3 :=
  Sess3 (z_id s) (z_ident s) (z_v310 s) (z_connected s) (z_disc s) (z_ctime s) (z_last s) (z_out s) q
    (z_subs s) (z_bcast s) (z_bcnt s) (z_will s) (z_keep s) (z_clean s).
Definition zwith_subs (m : list (string * qos)) (s : sess3) : sess3 :=
  Sess3 (z_id s) (z_ident s) (z_v310 s) (z_connected s) (z_disc s) (z_ctime s) (z_last s) (z_out s) (z_qos2 s)
    m (z_bcast s) (z_bcnt s) (z_will s) (z_keep s) (z_clean s).
Definition zwith_bcast (b : bcast) (n : N) (s : sess3) : sess3 :=
  Sess3 (z_id s) (z_ident s) (z_v310 s) (z_connected s) (z_disc s) (z_ctime s) (z_last s) (z_out s) (z_qos2 s)
    (z_subs s) b n (z_will s) (z_keep s) (z_clean s).
Definition zwith_disc (d : bool) (s : sess3) : sess3 :=
  Sess3 (z_id s) (z_ident s) (z_v310 s) (z_connected s) d (z_ctime s) (z_last s) (z_out s) (z_qos2 s)
    (z_subs s) (z_bcast s) (z_bcnt s) (z_will s) (z_keep s) (z_clean s).
Definition zwith_will (w : option will3) (s : sess3) : sess3 :=
  Sess3 (z_id s) (z_ident s) (z_v310 s) (z_connected s) (z_disc s) (z_ctime s) (z_last s) (z_out s) (z_qos2 s)
    (z_subs s) (z_bcast s) (z_bcnt s) w (z_keep s) (z_clean s).
Definition zwith_connected (b : bool) (s : sess3) : sess3 :=
  Sess3 (z_id s) (z_ident s) (z_v310 s) b (z_disc s) (z_ctime s) (z_last s) (z_out s) (z_qos2 s)
    (z_subs s) (z_bcast s) (z_bcnt s) (z_will s) (z_keep s) (z_clean s).
Definition zwith_last (t : N) (s : sess3) : sess3 :=
  Sess3 (z_id s) (z_ident s) (z_v310 s) (z_connected s) (z_disc s) (z_ctime s) t (z_out s) (z_qos2 s)
    (z_subs s) (z_bcast s) (z_bcnt s) (z_will s) (z_keep s) (z_clean s).

(** Packets the server writes to a v3 client. *)
Inductive pkt3 :=
| JPub (w : wpub3)
| JPuback (p : pid)
| JPubrec (p : pid)
| JPubrel (p : pid)
| JPubcomp (p : pid)
| JSuback (p : pid) (codes : list qos)
| JUnsuback (p : pid)
| JPingresp.

Definition of_sent3 (x : sent wpub3) : pkt3 := match x with SPub w => JPub w | SRel p => JPubrel p end.

(** Result of a v3 handler: a value, an io::Error (ends the connection without a
    packet), or a panic. *)
Inductive outcome3 (A : Type) := Ok3 (a : A) | Err3 | Panic3.
Arguments Ok3 {A}. Arguments Err3 {A}. Arguments Panic3 {A}.

(** publish.rs:145-151 [SendPublish] *)
Record sendpub3 := SendPub3 { sp3_topic : string; sp3_retain : bool; sp3_qos : qos; sp3_payload : string; sp3_len : N }.

(** publish.rs:195-202: one entry per (subscription, client); shared groups are
    not looked at.  [None] is the panic of [topic_filter.unwrap()]. *)
Fixpoint collect3 (cts : list content) : option (list (client_id * (string * qos))) :=
  match cts with
  | [] => Some []
  | ct :: r =>
      match c_filter ct, collect3 r with
      | Some f, Some l => Some (map (fun cq => (fst cq, (f, snd cq))) (c_clients ct) ++ l)%list
      | _, _ => None
      end
  end.

(** publish.rs:163-233 [send_publish] *)
Definition send_publish3 (m : sendpub3) (s : sess3) (g : glob) : outcome (sess3 * glob) :=
  let g1 := store_retained (sp3_retain m)
              (RContent (z_ident s) (sp3_qos m) (sp3_topic m) (sp3_payload m) None (sp3_len m)) g in
  match collect3 (rt_get_matches (g_route g1) (sp3_topic m)) with
  | None => Panic
  | Some l =>
      let cnt := z_bcnt s + N.of_nat (List.length l) in
      let '(b, cnt') := fold_left (fun bc e =>
          queue_msg g1 (fst e)
            (NM3 (NMsg3 (sp3_retain m) (sp3_qos m) (sp3_topic m) (sp3_payload m)
                    (fst (snd e)) (snd (snd e)) (sp3_len m))) bc)
          l (z_bcast s, cnt) in
      Done (zwith_bcast b cnt' s, g1)
  end.

Section Handlers.
  Variable hash : wpub3 -> N.

  Definition publish_ack3 (x : qospid) : list pkt3 :=
    match x with Q0 => [] | Q1 p => [JPuback p] | Q2 p => [JPubrec p] end.

  (** publish.rs:20-93 [handle_publish] *)
  Definition handle_publish3 (w : wpub3) (s : sess3) (g : glob) : outcome3 (sess3 * glob * list pkt3) :=
    if String.eqb (w3_topic w) "" then Err3
    else if starts_with_dollar (w3_topic w) then Err3
    else if is_q0 (w3_qp w) && w3_dup w then Err3
    else
      let check :=
        match w3_qp w with
        | Q2 p =>
            match aget p (z_qos2 s) with
            | Some h' => if negb (hash w =? h') then None else if negb (w3_dup w) then None else Some s
            | None => Some (zwith_qos2 (aset p (hash w) (z_qos2 s)) s)
            end
        | _ => Some s
        end in
      match check with
      | None => Err3
      | Some s1 =>
          if w3_dup w && is_q2 (w3_qp w) then Ok3 (s1, g, publish_ack3 (w3_qp w))
          else
            match enc_len3 w with
            | None => Panic3                               (* expect("packet too large") *)
            | Some len =>
                match send_publish3 (SendPub3 (w3_topic w) (w3_retain w) (qp_qos (w3_qp w)) (w3_payload w) len) s1 g with
                | Panic => Panic3
                | Done (s2, g') => Ok3 (s2, g', publish_ack3 (w3_qp w))
                end
            end
      end.

  (** publish.rs:95-139: the four acknowledgement handlers. *)
  Definition handle_puback3 (p : pid) (s : sess3) : sess3 :=
    zwith_out (fst (out3_on_queue (pend_complete p L1) (z_out s))) s.
  Definition handle_pubrec3 (now : N) (p : pid) (s : sess3) : sess3 * pkt3 :=
    (zwith_out (fst (out3_on_queue (pend_pubrec now p) (z_out s))) s, JPubrel p).
  Definition handle_pubrel3 (p : pid) (s : sess3) : option (sess3 * pkt3) :=
    match aget p (z_qos2 s) with
    | Some _ => Some (zwith_qos2 (adel p (z_qos2 s)) s, JPubcomp p)
    | None => None
    end.
  Definition handle_pubcomp3 (p : pid) (s : sess3) : sess3 :=
    zwith_out (fst (out3_on_queue (pend_complete p L2) (z_out s))) s.

  (** publish.rs:153-160 [RecvPublish] *)
  Record recvpub3 := RecvPub3 {
    rp3_topic : string; rp3_qos : qos; rp3_retain : bool; rp3_payload : string; rp3_filter : string; rp3_sqos : qos
  }.

  (** publish.rs:236-273 [recv_publish] *)
  Definition recv_publish3 (now : N) (m : recvpub3) (s : sess3) : sess3 * option (qos * option pkt3) :=
    match aget (rp3_filter m) (z_subs s) with
    | None => (s, None)
    | Some _ =>
        let fq := qos_min (rp3_qos m) (rp3_sqos m) in
        if negb (qos_eqb fq L0) then
          let '(o, _) := out3_push now (Pub3 (rp3_topic m) fq (rp3_retain m) (rp3_payload m)) (z_out s) in
          (zwith_out o s, Some (fq, None))
        else if negb (z_disc s)
        then (s, Some (fq, Some (JPub (WPub3 false Q0 (rp3_retain m) (rp3_topic m) (rp3_payload m)))))
        else (s, None)
    end.

  (** v3/message.rs:583-643 [handle_normal] *)
  Definition handle_normal3 (now : N) (m : nmsg) (s : sess3) : sess3 * option (qos * option pkt3) :=
    match m with
    | NM3 m => recv_publish3 now (RecvPub3 (n3_topic m) (n3_qos m) (n3_retain m) (n3_payload m) (n3_filter m) (n3_sqos m)) s
    | NM5 m =>
        match n5_filters m with
        | [] => (s, None)
        | f :: _ => recv_publish3 now (RecvPub3 (n5_topic m) (n5_qos m) (n5_retain m) (n5_payload m) f (n5_sqos m)) s
        end
    end.

  (** v3/packet/common.rs:22-60 on the session. *)
  Definition pendings3 (now : N) (s : sess3) : sess3 * list pkt3 :=
    let '(o, l) := handle_pendings3 now (z_out s) in (zwith_out o s, map of_sent3 l).

  (** v3/packet/subscribe.rs:44-65 *)
  Fixpoint send_retained3 (now : N) (f : string) (granted : qos) (ms : list rcontent) (s : sess3)
      : sess3 * list pkt3 * bool :=
    match ms with
    | [] => (s, [], false)
    | m :: r =>
        if qos_leb (rc_qos m) granted then
          let '(s1, res) := recv_publish3 now (RecvPub3 (rc_topic m) (rc_qos m) true (rc_payload m) f granted) s in
          let '(s2, out, pend) := send_retained3 now f granted r s1 in
          match res with
          | None => (s2, out, pend)
          | Some (q, k) => (s2, (opt_list k ++ out)%list, negb (qos_eqb q L0) || pend)
          end
        else send_retained3 now f granted r s
    end.

  (** subscribe.rs:32-70: one filter.  An [Err] leaves the earlier filters
      subscribed. *)
  Definition subscribe_one3 (now : N) (f : string) (q : qos) (s : sess3) (g : glob)
      : outcome3 (sess3 * glob * qos * list pkt3) :=
    if is_shared f then Err3
    else
      match max_allowed_qos (g_cfg g) with
      | None => Panic3
      | Some mq =>
          let granted := qos_min q mq in
          let s1 := zwith_subs (aset f granted (z_subs s)) s in
          let '(t, p) := rt_subscribe (g_route g) f (z_id s) granted in
          if p then Panic3
          else
            match ret_get_matches (g_retain g) f with
            | None => Panic3
            | Some ms =>
                let '(s2, out, pend) := send_retained3 now f granted ms s1 in
                if pend then let '(s3, out') := pendings3 now s2 in
                             Ok3 (s3, set_route t g, granted, (out ++ out')%list)
                else Ok3 (s2, set_route t g, granted, out)
            end
      end.

  (** The loop over the filters: state reached, and either the codes and packets
      or the error / panic that stopped it. *)
  Fixpoint subscribe_all3 (now : N) (fs : list (string * qos)) (s : sess3) (g : glob)
      : sess3 * glob * outcome3 (list qos * list pkt3) :=
    match fs with
    | [] => (s, g, Ok3 ([], []))
    | (f, q) :: r =>
        match subscribe_one3 now f q s g with
        | Err3 => (s, g, Err3)
        | Panic3 => (s, g, Panic3)
        | Ok3 (s1, g1, code, out) =>
            match subscribe_all3 now r s1 g1 with
            | (s2, g2, Ok3 (codes, out')) => (s2, g2, Ok3 (code :: codes, (out ++ out')%list))
            | (s2, g2, e) => (s2, g2, e)
            end
        end
    end.

  (** subscribe.rs:17-73 [handle_subscribe] *)
  Definition handle_subscribe3 (now : N) (p : pid) (fs : list (string * qos)) (s : sess3) (g : glob)
      : sess3 * glob * outcome3 (list pkt3) :=
    match subscribe_all3 now fs s g with
    | (s', g', Ok3 (codes, out)) => (s', g', Ok3 (out ++ [JSuback p codes])%list)
    | (s', g', Err3) => (s', g', Err3)
    | (s', g', Panic3) => (s', g', Panic3)
    end.

  (** subscribe.rs:89-92 *)
  Fixpoint unsubscribe_all3 (fs : list string) (s : sess3) (g : glob) : outcome (sess3 * glob) :=
    match fs with
    | [] => Done (s, g)
    | f :: r =>
        let '(t, p) := rt_unsubscribe (g_route g) f (z_id s) in
        if p then Panic
        else unsubscribe_all3 r (zwith_subs (adel f (z_subs s)) s) (set_route t g)
    end.

  (** subscribe.rs:75-94 [handle_unsubscribe] *)
  Definition handle_unsubscribe3 (p : pid) (fs : list string) (s : sess3) (g : glob)
      : outcome (sess3 * glob * list pkt3) :=
    match unsubscribe_all3 fs s g with
    | Panic => Panic
    | Done (s', g') => Done (s', g', [JUnsuback p])
    end.

  (** v3/packet/connect.rs:169-174 [handle_disconnect] *)
  Definition handle_disconnect3 (s : sess3) : sess3 := zwith_disc true (zwith_will None s).

  (** Packets a v3 client sends after CONNECT. *)
  Inductive in3 :=
  | YPub (w : wpub3)
  | YPuback (p : pid)
  | YPubrec (p : pid)
  | YPubrel (p : pid)
  | YPubcomp (p : pid)
  | YSub (p : pid) (fs : list (string * qos))
  | YUnsub (p : pid) (fs : list string)
  | YPing
  | YDisconnect
  | YOther.

  Inductive hres3 := Go3 (s : sess3) (g : glob) (out : list pkt3) | Stop3 (s : sess3) (g : glob) | Crash3.

  (** v3/message.rs:281-360 [handle_packet], hooks disabled. *)
  Definition handle_packet3 (now len : N) (x : in3) (s : sess3) (g : glob) : hres3 :=
    if cf_packet_server (g_cfg g) <? len then Stop3 s g
    else
      match x with
      | YPub w => match handle_publish3 w s g with
                  | Ok3 (s', g', out) => Go3 s' g' out
                  | Err3 => Stop3 s g
                  | Panic3 => Crash3
                  end
      | YPuback p => Go3 (handle_puback3 p s) g []
      | YPubrec p => let '(s', k) := handle_pubrec3 now p s in Go3 s' g [k]
      | YPubrel p => match handle_pubrel3 p s with Some (s', k) => Go3 s' g [k] | None => Stop3 s g end
      | YPubcomp p => Go3 (handle_pubcomp3 p s) g []
      | YSub p fs => match handle_subscribe3 now p fs s g with
                     | (s', g', Ok3 out) => Go3 s' g' out
                     | (s', g', Err3) => Stop3 s' g'
                     | (_, _, Panic3) => Crash3
                     end
      | YUnsub p fs => match handle_unsubscribe3 p fs s g with
                       | Done (s', g', out) => Go3 s' g' out
                       | Panic => Crash3
                       end
      | YPing => Go3 s g [JPingresp]
      | YDisconnect => Go3 (handle_disconnect3 s) g []
      | YOther => Stop3 s g
      end.

  (** v3/message.rs:435-438, common.rs:16-19 [after_handle_packet] *)
  Definition after_packet3 (now : N) (s : sess3) : sess3 * list pkt3 := pendings3 now (zwith_last now s).

  Definition packet_step3 (now len : N) (x : in3) (s : sess3) (g : glob) : hres3 :=
    match handle_packet3 now len x s g with
    | Go3 s1 g1 out => let '(s2, out') := after_packet3 now s1 in Go3 s2 g1 (out ++ out')%list
    | r => r
    end.

  (** v3/message.rs:507-540 [handle_will] *)
  Definition send_will3 (s : sess3) (g : glob) : outcome (sess3 * glob * bool) :=
    match z_will s with
    | None => Done (s, g, true)
    | Some w =>
        let s1 := zwith_will None s in
        match enc_len3 (WPub3 false (qp_make (wl3_qos w) 1) false (wl3_topic w) (wl3_payload w)) with
        | None => Done (s1, g, false)
        | Some len =>
            match send_publish3 (SendPub3 (wl3_topic w) (wl3_retain w) (wl3_qos w) (wl3_payload w) len) s1 g with
            | Panic => Panic
            | Done (s2, g2) => Done (s2, g2, true)
            end
        end
    end.
End Handlers.

(** session.rs:42-54, v3/message.rs:228-249 [build_state] *)
Record state3 := State3 {
  st3_id : client_id; st3_v310 : bool; st3_out : out3; st3_qos2 : list (pid * N);
  st3_subs : list (string * qos); st3_bcnt : N; st3_bcast : bcast
}.
Definition build_state3 (s : sess3) : sess3 * state3 :=
  (zwith_subs [] (zwith_qos2 [] (zwith_bcast [] (z_bcnt s)
     (zwith_out (Out3 (o3_next (z_out s)) (PendQ 0 0 0 [])) s))),
   State3 (z_id s) (z_v310 s) (z_out s) (z_qos2 s) (z_subs s) (z_bcnt s) (z_bcast s)).
