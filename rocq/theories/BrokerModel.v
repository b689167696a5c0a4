(** The whole broker: connections, sessions, registry, channels and timers, as the
    interleaving of their steps.  Models state.rs:97-216, v5/message.rs:48-333, 636-790 and
    943-965, v3/message.rs:40-215, 440-579, mqtt/common.rs:9-55, and joins the models of the
    packet handlers (Sess5Model, Sess3Model) and of CONNECT (ConnModel).

    A step is what a task does between two awaits, or less.  The event loop of a connection
    (OnlineModel) is taken apart into its phases, which may run in any order here; the bytes
    written to a socket are outputs, and a message goes from the queue of its sender to the
    receiver's channel in one step.  Hooks are switched off (HookModel) except that the hooks
    at the beginning and the end of a connection may fail.  There is one clock, in
    milliseconds; a timer fires at its time or later.  Two connections never get the same
    [connected_time] (an Instant, read at CONNACK). *)
From Coq Require Import List Bool NArith String.
From Verif Require Import Base TopicModel MsgModel PendingModel OutModel RouteModel RetainModel GlobModel Sess5Model Sess3Model ConnModel RegModel.
Import ListNotations.
Local Open Scope N_scope.

(** A session of either protocol. *)
Inductive sess := A5 (s : sess5) | A3 (s : sess3).
Definition a_id (a : sess) : client_id := match a with A5 s => s_id s | A3 s => z_id s end.
Definition a_ident (a : sess) : string := match a with A5 s => s_ident s | A3 s => z_ident s end.
Definition a_bcast (a : sess) : bcast := match a with A5 s => s_bcast s | A3 s => z_bcast s end.
Definition a_bcnt (a : sess) : N := match a with A5 s => s_bcnt s | A3 s => z_bcnt s end.
Definition a_set_bcast (b : bcast) (n : N) (a : sess) : sess :=
  match a with A5 s => A5 (with_bcast b n s) | A3 s => A3 (zwith_bcast b n s) end.
Definition a_disc (a : sess) : bool := match a with A5 s => is_disconnected5 s | A3 s => z_disc s end.
Definition a_filters (a : sess) : list string := match a with A5 s => keys (s_subs s) | A3 s => keys (z_subs s) end.
Definition a_keep (a : sess) : N := match a with A5 s => s_keep s | A3 s => z_keep s end.
(** The session ends with the connection: v5/message.rs:319, v3/message.rs:202. *)
Definition a_ends (a : sess) : bool := match a with A5 s => s_expiry s =? 0 | A3 s => z_clean s end.

(** A connection whose CONNECT (and AUTH) was accepted, before add_client; the second field
    of [B5] is the data of the success CONNACK. *)
Inductive pre := B5 (cn : conn5 unit) (data : option string) | B3 (s : sess3).
Definition p_ident (x : pre) : string := match x with B5 cn _ => s_ident (cn_s cn) | B3 s => z_ident s end.
Definition p_v5 (x : pre) : bool := match x with B5 _ _ => true | B3 _ => false end.

(** v5/packet/connect.rs:75-139 and v3/packet/connect.rs:90-109: the session that CONNECT
    asks for; [t0] is when the connection began. *)
Definition connect_conn5 (c : config) (uuid : string) (t0 : N) (p : connect5) : conn5 unit :=
  let s := connect_session c uuid p (sess5_new c t0) in
  Conn5 s (String.eqb (co_ident p) "") (negb (s_keep s =? co_keep p)) (co_method p) false None.
Definition connect_sess3 (c : config) (uuid : string) (t0 : N) (p : connect3) : sess3 :=
  let s := sess3_new c t0 in
  Sess3 (z_id s) (if String.eqb (c3_ident p) "" then uuid else c3_ident p) (c3_v310 p) false false None
    (z_last s) (z_out s) [] [] [] 0 (c3_will p) (c3_keep p) (c3_clean p).

(** The registry's answer. *)
Inductive receipt := RNew (c : client_id) | ROld5 (st : state5) | ROld3 (st : state3).
Definition rc_id (r : receipt) : client_id := match r with RNew c => c | ROld5 st => st_id st | ROld3 st => st3_id st end.

(** state.rs:219-240 [ControlMessage]; a connection waiting for the session is named by its
    number. *)
Inductive ctl := COnline5 (k : N) | COnline3 (k : N) | CKick | CExpired (t : N) | CWill (t : N).

(** state.rs:57-67, 169-170: the channels of a client.  [ch_open]: some task has the
    receiver. *)
Record chan := Chan { ch_ctl : list ctl; ch_norm : list (client_id * nmsg); ch_open : bool }.
Definition ctl_room (ch : chan) : bool := match ch_ctl ch with [] => true | _ => false end.
Definition norm_room (ch : chan) : bool := N.of_nat (List.length (ch_norm ch)) <? 8.

(** What a connection's task is doing. *)
Inductive task :=
| TSend (x : pre) (c : client_id)        (* add_client: sending the control message, state.rs:189, 203 *)
| TReply (x : pre) (c : client_id)       (* add_client: waiting for the session, state.rs:196, 210 *)
| TJoin (x : pre) (r : receipt)          (* add_client returned *)
| TReady (a : sess)                      (* success CONNACK written *)
| TOnline (a : sess)                     (* in the event loop *)
| TEnd (a : sess)                        (* the event loop ended *)
| TDrain (a : sess)                      (* sending what is queued for others, v5/message.rs:318 *)
| TOffline (a : sess)                    (* handle_offline *)
| TOffDrain (a : sess) (stop : bool).    (* v5/message.rs:675 *)

(** Spawned timers: mqtt/common.rs:48, v5/message.rs:83 and 717; [IPut]: the timer's message
    is on its way into the control channel. *)
Inductive timer :=
| IKeep (c : client_id) (k : N) (half due : N)
| IExpire (c : client_id) (t due : N)
| IWill (c : client_id) (t due : N)
| IPut (c : client_id) (m : ctl).

Record broker := Broker {
  b_cfg : config;
  b_now : N;                             (* milliseconds *)
  b_stamp : N;                           (* latest connected_time *)
  b_conns : N;                           (* number of the next connection *)
  b_reg : reg;
  b_route : route_table;
  b_retain : tnode;
  b_chans : list (client_id * chan);
  b_tasks : list (N * task);
  b_timers : list timer;
  b_last : list (N * N)                  (* last_packet_time of a connection *)
}.
(** state.rs:19-40 [GlobalState] of a server that has just started. *)
Definition broker_new (c : config) : broker := Broker c 0 0 0 reg_new rt_empty ret_empty [] [] [] [].

(** Assignments to parts of the state (no code of their own). *)
Definition set_now v b := Broker (b_cfg b) v (b_stamp b) (b_conns b) (b_reg b) (b_route b) (b_retain b) (b_chans b) (b_tasks b) (b_timers b) (b_last b).
Definition set_stamp v b := Broker (b_cfg b) (b_now b) v (b_conns b) (b_reg b) (b_route b) (b_retain b) (b_chans b) (b_tasks b) (b_timers b) (b_last b).
Definition set_conns v b := Broker (b_cfg b) (b_now b) (b_stamp b) v (b_reg b) (b_route b) (b_retain b) (b_chans b) (b_tasks b) (b_timers b) (b_last b).
Definition set_reg v b := Broker (b_cfg b) (b_now b) (b_stamp b) (b_conns b) v (b_route b) (b_retain b) (b_chans b) (b_tasks b) (b_timers b) (b_last b).
Definition set_tables (t : route_table) (r : tnode) b := Broker (b_cfg b) (b_now b) (b_stamp b) (b_conns b) (b_reg b) t r (b_chans b) (b_tasks b) (b_timers b) (b_last b).
Definition set_chans v b := Broker (b_cfg b) (b_now b) (b_stamp b) (b_conns b) (b_reg b) (b_route b) (b_retain b) v (b_tasks b) (b_timers b) (b_last b).
Definition set_tasks v b := Broker (b_cfg b) (b_now b) (b_stamp b) (b_conns b) (b_reg b) (b_route b) (b_retain b) (b_chans b) v (b_timers b) (b_last b).
Definition set_timers v b := Broker (b_cfg b) (b_now b) (b_stamp b) (b_conns b) (b_reg b) (b_route b) (b_retain b) (b_chans b) (b_tasks b) v (b_last b).
Definition set_lasts v b := Broker (b_cfg b) (b_now b) (b_stamp b) (b_conns b) (b_reg b) (b_route b) (b_retain b) (b_chans b) (b_tasks b) (b_timers b) v.

Definition set_task (k : N) (t : task) b := set_tasks (aset k t (b_tasks b)) b.
Definition end_task (k : N) b := set_tasks (adel k (b_tasks b)) b.
Definition add_timer (i : timer) b := set_timers (b_timers b ++ [i])%list b.
Definition set_last (k t : N) b := set_lasts (aset k t (b_last b)) b.
Definition set_chan (c : client_id) (ch : chan) b := set_chans (aset c ch (b_chans b)) b.
(** The receiver of a client is dropped. *)
Definition close (c : client_id) b :=
  match aget c (b_chans b) with Some ch => set_chan c (Chan (ch_ctl ch) (ch_norm ch) false) b | None => b end.
(** A message is put into a channel of the client (state.rs:58-68). *)
Definition push_ctl (m : ctl) (ch : chan) := Chan (ch_ctl ch ++ [m])%list (ch_norm ch) (ch_open ch).
Definition push_norm (m : client_id * nmsg) (ch : chan) := Chan (ch_ctl ch) (ch_norm ch ++ [m])%list (ch_open ch).

(** pending.rs:181-186 [get_unix_ts] *)
Definition seconds b : N := b_now b / 1000.
(** The part of the state that packet handlers use (state.rs:19-40). *)
Definition glob_of b : glob := Glob (b_cfg b) (b_route b) (b_retain b) (r_clients (b_reg b)).
Definition put_glob (g : glob) b := set_tables (g_route g) (g_retain g) b.

(** What can be seen from outside. *)
Inductive bout :=
| OConnack5 (k : N) (x : connack5) | OConnack3 (k : N) (x : connack3)
| OPkt5 (k : N) (p : pkt5) | OPkt3 (k : N) (p : pkt3)
| OWill5 (k : N) (w : will5) | OWill3 (k : N) (w : will3)          (* will published *)
| OClosed (k : N).                                                (* connection given up before its event loop *)

(** What a member of a shared group is chosen for: a packet of connection [k] or its will.  The
    number drawn depends on that and on the state in any way (v5/packet/publish.rs:376-384: a
    random number, or a hash of the client identifier or the topic).  Simplification: the same
    packet in exactly the same state draws the same number. *)
Inductive draw := DPacket (k : N) (x : in5) | DWill (k : N).

(** A step: not possible now, done, or a panic. *)
Inductive bres := BNo | BOk (b : broker) (out : list bout) | BPanic.

Section Step.
  Variable hash5 : wpub5 -> N.
  Variable hash3 : wpub3 -> N.
  Variable pick : draw -> broker -> string -> string -> N.

  (** state.rs:149-185, called from session_connect: the lock part of add_client. *)
  Definition add_client (t0 : N) (x : pre) (b : broker) : bres :=
    let k := b_conns b in
    let '(r, a) := reg_add (p_ident x) (b_reg b) in
    let b1 := set_last k t0 (set_conns (k + 1) (set_reg r b)) in
    match a with
    | Fresh c => BOk (set_task k (TJoin x (RNew c)) (set_chan c (Chan [] [] true) b1)) []
    | Known c => BOk (set_task k (TSend x c) b1) []
    | NoSender => BPanic
    end.

  (** state.rs:189-195, 203-209 *)
  Definition do_put (k : N) (b : broker) : bres :=
    match aget k (b_tasks b) with
    | Some (TSend x c) =>
        match aget c (b_chans b) with
        | Some ch =>
            if negb (ch_open ch) then BOk (end_task k b) [OClosed k]
            else if ctl_room ch
            then BOk (set_task k (TReply x c) (set_chan c (push_ctl (if p_v5 x then COnline5 k else COnline3 k) ch) b)) []
            else BNo
        | None => BNo
        end
    | _ => BNo
    end.

  (** A connection gives up: the session it waits for is gone (state.rs:196, 210), CONNACK
      could not be written, a hook failed (message.rs:272-278).  Its receiver is dropped. *)
  Definition do_fail (k : N) (b : broker) : bres :=
    match aget k (b_tasks b) with
    | Some (TReply _ c) =>
        match aget c (b_chans b) with
        | Some ch => if ch_open ch then BNo else BOk (end_task k b) [OClosed k]
        | None => BNo
        end
    | Some (TJoin _ r) => BOk (close (rc_id r) (end_task k b)) [OClosed k]
    | Some (TReady a) => BOk (close (a_id a) (end_task k b)) [OClosed k]
    | _ => BNo
    end.

  (** mqtt/common.rs:16-17, 48-52 *)
  Definition start_keep (k : N) (a : sess) (b : broker) : broker :=
    if 0 <? a_keep a then add_timer (IKeep (a_id a) k (a_keep a * 500) (b_now b)) b else b.

  (** session_connect after add_client: v5/packet/connect.rs:228-345, v3/packet/connect.rs:116-166. *)
  Definition do_join (k : N) (b : broker) : bres :=
    if b_now b <=? b_stamp b then BNo
    else
      match aget k (b_tasks b) with
      | Some (TJoin (B5 cn data) r) =>
          let rc := match r with RNew c => Some (RcNew c) | ROld5 st => Some (RcPresent st) | ROld3 _ => None end in
          match rc with
          | None => BPanic                                   (* unreachable!() *)
          | Some rc =>
              match session_connect5 unit (b_cfg b) (b_now b) rc data cn with
              | None => BPanic
              | Some (s, ack) =>
                  let b1 := set_stamp (b_now b) (start_keep k (A5 s) b) in
                  if s_connected s then BOk (set_task k (TReady (A5 s)) b1) [OConnack5 k ack]
                  else BOk (close (s_id s) (end_task k b1)) [OConnack5 k ack; OClosed k]
              end
          end
      | Some (TJoin (B3 s0) r) =>
          let rc := match r with RNew c => Some (RcNew3 c) | ROld3 st => Some (RcPresent3 st) | ROld5 _ => None end in
          match rc with
          | None => BPanic
          | Some rc =>
              let '(s, ack) := session_connect3 (b_now b) rc s0 in
              BOk (set_task k (TReady (A3 s)) (set_stamp (b_now b) (start_keep k (A3 s) b))) [OConnack3 k ack]
          end
      | _ => BNo
      end.

  (** message.rs:276-278 (v5), 148-150 (v3) *)
  Definition do_start (k : N) (b : broker) : bres :=
    match aget k (b_tasks b) with
    | Some (TReady (A5 s)) =>
        let '(s1, out) := pendings5 (seconds b) (with_last (seconds b) s) in
        BOk (set_last k (b_now b) (set_task k (TOnline (A5 s1)) b)) (map (OPkt5 k) out)
    | Some (TReady (A3 s)) =>
        let '(s1, out) := after_packet3 (seconds b) s in
        BOk (set_last k (b_now b) (set_task k (TOnline (A3 s1)) b)) (map (OPkt3 k) out)
    | _ => BNo
    end.

  (** One packet from the client.  The size is [len]. *)
  Definition do_packet5 (k len : N) (x : in5) (b : broker) : bres :=
    match aget k (b_tasks b) with
    | Some (TOnline (A5 s)) =>
        if is_disconnected5 s then BNo
        else
          match packet_step5 hash5 (pick (DPacket k x) b) (seconds b) len x s (glob_of b) with
          | Go s1 g out =>
              let b1 := set_task k (TOnline (A5 s1)) (put_glob g b) in
              BOk (if is_disconnected5 s1 then b1 else set_last k (b_now b) b1) (map (OPkt5 k) out)
          | Stop s1 g => BOk (set_task k (TEnd (A5 s1)) (put_glob g b)) []
          | Crash => BPanic
          end
    | _ => BNo
    end.
  Definition do_packet3 (k len : N) (x : in3) (b : broker) : bres :=
    match aget k (b_tasks b) with
    | Some (TOnline (A3 s)) =>
        if z_disc s then BNo
        else
          match packet_step3 hash3 (seconds b) len x s (glob_of b) with
          | Go3 s1 g out => BOk (set_last k (b_now b) (set_task k (TOnline (A3 s1)) (put_glob g b))) (map (OPkt3 k) out)
          | Stop3 s1 g => BOk (set_task k (TEnd (A3 s1)) (put_glob g b)) []
          | Crash3 => BPanic
          end
    | _ => BNo
    end.

  (** A packet that cannot be decoded: v5/message.rs:406-423 (v3 closes: [do_close]). *)
  Definition do_malformed (k : N) (reason : string) (b : broker) : bres :=
    match aget k (b_tasks b) with
    | Some (TOnline (A5 s)) =>
        if is_disconnected5 s then BNo
        else let '(s1, p) := error_disconnect RC_malformed reason s in BOk (set_task k (TOnline (A5 s1)) b) [OPkt5 k p]
    | _ => BNo
    end.

  (** The event loop ends: the socket was closed or failed, or a disconnected client is
      drained. *)
  Definition do_close (k : N) (b : broker) : bres :=
    match aget k (b_tasks b) with
    | Some (TOnline a) => BOk (set_task k (TEnd a) b) []
    | _ => BNo
    end.

  (** state.rs:97-114 [remove_client] *)
  Definition unroute (c : client_id) (fs : list string) (t : route_table) : route_table * bool :=
    fold_left (fun tp f => let '(t1, p) := rt_unsubscribe (fst tp) f c in (t1, snd tp || p)) fs (t, false).
  Definition remove_client (a : sess) (b : broker) : option broker :=
    match reg_remove (a_id a) (b_reg b) with
    | None => None
    | Some r => let '(t, p) := unroute (a_id a) (a_filters a) (b_route b) in
                if p then None else Some (set_tables t (b_retain b) (set_reg r b))
    end.

  (** v5/message.rs:895-941 [send_will], v3/message.rs:507-540; [None] is a panic, the flag
      tells whether the call succeeded. *)
  Definition send_will (k : N) (a : sess) (b : broker) : option (sess * broker * list bout * bool) :=
    match a with
    | A5 s =>
        match send_will5 (pick (DWill k) b) s (glob_of b) with
        | Panic => None
        | Done (s1, g, ok) =>
            Some (A5 s1, put_glob g b, match s_will s with Some w => if ok then [OWill5 k w] else [] | None => [] end, ok)
        end
    | A3 s =>
        match send_will3 s (glob_of b) with
        | Panic => None
        | Done (s1, g, ok) =>
            Some (A3 s1, put_glob g b, match z_will s with Some w => if ok then [OWill3 k w] else [] | None => [] end, ok)
        end
    end.

  (** A control message for the session of task [k], in the event loop (online) or in
      handle_offline: v5/message.rs:738-791, 661-679; v3/message.rs:544-579, 465-484. *)
  Definition v3_take_all (now : N) (ms : list (client_id * nmsg)) (s : sess3) : sess3 :=
    fold_left (fun s m => fst (handle_normal3 now (snd m) s)) ms s.

  Definition hand_over (k j : N) (x : pre) (r : receipt) (b : broker) : bres := BOk (set_task j (TJoin x r) (end_task k b)) [].

  Definition control (online : bool) (k : N) (a : sess) (m : ctl) (b : broker) : bres :=
    let stay b out := BOk (set_task k (if online then TOnline a else match a with A5 _ => TOffDrain a false | A3 _ => TOffline a end) b) out in
    match m, a with
    | COnline5 j, A5 s =>
        match aget j (b_tasks b) with
        | Some (TReply x _) => hand_over k j x (ROld5 (snd (build_state5 s))) b
        | _ => BNo
        end
    | COnline3 j, A3 s =>
        match aget j (b_tasks b), aget (z_id s) (b_chans b) with
        | Some (TReply x _), Some ch =>
            if online then hand_over k j x (ROld3 (snd (build_state3 s))) b
            else hand_over k j x (ROld3 (snd (build_state3 (v3_take_all (seconds b) (ch_norm ch) s))))
                   (set_chan (z_id s) (Chan (ch_ctl ch) [] (ch_open ch)) b)
        | _, _ => BNo
        end
    | COnline3 j, A5 _ | COnline5 j, A3 _ => stay (end_task j b) [OClosed j]    (* not allowed; the other side is refused *)
    | CKick, _ => if online then BOk (set_task k (TEnd a) b) [] else stay b []
    | CExpired t, A5 s =>
        if negb (s_connected s) && match s_ctime s with Some t' => t' =? t | None => false end then
          match send_will k a b with
          | None => BPanic
          | Some (a1, b1, out, _) =>
              match remove_client a1 b1 with
              | None => BPanic
              | Some b2 => BOk (set_task k (TOffDrain a1 true) b2) out
              end
          end
        else stay b []
    | CWill t, A5 s =>
        if negb (s_connected s) && match s_ctime s with Some t' => t' =? t | None => false end then
          match send_will k a b with
          | None => BPanic
          | Some (a1, b1, out, _) => BOk (set_task k (TOffDrain a1 false) b1) out
          end
        else stay b []
    | CExpired _, A3 _ | CWill _, A3 _ => BPanic                                 (* unreachable!() *)
    end.

  Definition do_control (k : N) (b : broker) : bres :=
    let pop online a :=
      match aget (a_id a) (b_chans b) with
      | Some (Chan (m :: r) ms o) => control online k a m (set_chan (a_id a) (Chan r ms o) b)
      | _ => BNo
      end in
    match aget k (b_tasks b) with
    | Some (TOnline a) => pop true a
    | Some (TOffline a) => pop false a
    | _ => BNo
    end.

  (** A message from another client: online_loop.rs:350-397, message.rs:685-687 (v5), 490-492
      (v3). *)
  Definition normal (now : N) (c : config) (k : N) (online : bool) (m : nmsg) (a : sess) : sess * list bout :=
    match a with
    | A5 s =>
        let '(s1, r) := handle_normal5 now c m s in
        match r with
        | Some (q, p) =>
            if online then
              let '(s2, more) := if qos_eqb q L0 then (s1, []) else pendings5 now s1 in
              (A5 s2, map (OPkt5 k) (opt_list p ++ more))
            else (A5 s1, [])
        | None => (A5 s1, [])
        end
    | A3 s =>
        let '(s1, r) := handle_normal3 now m s in
        match r with
        | Some (q, p) =>
            if online then
              let '(s2, more) := if qos_eqb q L0 then (s1, []) else pendings3 now s1 in
              (A3 s2, map (OPkt3 k) (opt_list p ++ more))
            else (A3 s1, [])
        | None => (A3 s1, [])
        end
    end.

  Definition do_normal (k : N) (b : broker) : bres :=
    let pop online a :=
      match aget (a_id a) (b_chans b) with
      | Some (Chan cs (m :: r) o) =>
          let '(a1, out) := normal (seconds b) (b_cfg b) k online (snd m) a in
          BOk (set_task k (if online then TOnline a1 else TOffline a1) (set_chan (a_id a) (Chan cs r o) b)) out
      | _ => BNo
      end in
    match aget k (b_tasks b) with
    | Some (TOnline a) => if a_disc a then BNo else pop true a
    | Some (TOffline a) => pop false a
    | _ => BNo
    end.

  (** A message leaves the queue of task [k] for client [d]; a closed channel empties the
      queue.  online_loop.rs:466-578, v5/message.rs:943-965, v3/message.rs:185-200. *)
  Definition flush (d : client_id) (a : sess) (b : broker) : option (sess * broker) :=
    match aget d (a_bcast a), aget d (b_chans b) with
    | Some [], _ => Some (a_set_bcast (adel d (a_bcast a)) (a_bcnt a) a, b)
    | Some (m :: ms), Some ch =>
        if negb (ch_open ch) then Some (a_set_bcast (adel d (a_bcast a)) (a_bcnt a - N.of_nat (List.length (m :: ms))) a, b)
        else if norm_room ch then Some (a_set_bcast (aset d ms (a_bcast a)) (a_bcnt a - 1) a, set_chan d (push_norm (a_id a, m) ch) b)
        else None
    | _, _ => None
    end.
  Definition do_flush (k : N) (d : client_id) (b : broker) : bres :=
    let go a f := match flush d a b with Some (a1, b1) => BOk (set_task k (f a1) b1) [] | None => BNo end in
    match aget k (b_tasks b) with
    | Some (TOnline a) => go a TOnline
    | Some (TDrain a) => go a TDrain
    | Some (TOffDrain a stop) => go a (fun a1 => TOffDrain a1 stop)
    | _ => BNo
    end.

  (** After the event loop: v5/message.rs:301-318 with handle_will (703-735),
      v3/message.rs:173-184.  [hook]: after_disconnect succeeds. *)
  Definition will_due (s : sess5) : option N :=
    match s_will s with
    | Some w => let d := opt_or (wl_delay w) 0 in if (d =? 0) || (s_expiry s =? 0) then None else Some d
    | None => None
    end.
  Definition do_end (k : N) (hook : bool) (b : broker) : bres :=
    let now a :=
      match send_will k a b with
      | None => BPanic
      | Some (a1, b1, out, ok) =>
          if ok then BOk (set_task k (TDrain a1) b1) out else BOk (close (a_id a) (end_task k b1)) (out ++ [OClosed k])%list
      end in
    match aget k (b_tasks b) with
    | Some (TEnd a) =>
        if negb hook then BOk (close (a_id a) (end_task k b)) [OClosed k]
        else
          match a with
          | A3 s => if z_disc s then BOk (set_task k (TDrain a) b) [] else now a
          | A5 s =>
              if s_cdisc s then BOk (set_task k (TDrain a) b) []
              else match will_due s with
                   | None => now a
                   | Some d =>
                       BOk (set_task k (TDrain a)
                              (if d <? s_expiry s then add_timer (IWill (s_id s) (opt_or (s_ctime s) 0) (b_now b + d * 1000)) b else b)) []
                   end
          end
    | _ => BNo
    end.

  (** v5/message.rs:319-332 and 79-97, v3/message.rs:202-212; v5/message.rs:676-698. *)
  Definition do_done (k : N) (b : broker) : bres :=
    let finish a := match remove_client a b with None => BPanic | Some b1 => BOk (close (a_id a) (end_task k b1)) [] end in
    match aget k (b_tasks b) with
    | Some (TDrain a) =>
        match a_bcast a with
        | _ :: _ => BNo
        | [] =>
            if a_ends a then finish a
            else
              match reg_offline (a_id a) (b_reg b) with
              | None => BPanic
              | Some r =>
                  let b1 := set_reg r b in
                  match a with
                  | A5 s => BOk (set_task k (TOffline (A5 (with_connected false s)))
                                   (add_timer (IExpire (s_id s) (opt_or (s_ctime s) 0) (b_now b + s_expiry s * 1000)) b1)) []
                  | A3 s => BOk (set_task k (TOffline (A3 (zwith_connected false s))) b1) []
                  end
              end
        end
    | Some (TOffDrain a stop) =>
        match a_bcast a with
        | _ :: _ => BNo
        | [] => if stop then finish a else BOk (set_task k (TOffline a) b) []
        end
    | _ => BNo
    end.

  (** A timer: mqtt/common.rs:25-46, v5/message.rs:85-95 and 718-728. *)
  Definition drop_at {A} (n : nat) (l : list A) : list A := (firstn n l ++ skipn (S n) l)%list.
  Definition put_at {A} (n : nat) (x : A) (l : list A) : list A := (firstn n l ++ x :: skipn (S n) l)%list.
  Definition do_fire (n : nat) (b : broker) : bres :=
    let become i := BOk (set_timers (put_at n i (b_timers b)) b) [] in
    let gone := BOk (set_timers (drop_at n (b_timers b)) b) [] in
    let post c m := if in_list c (r_clients (b_reg b)) then become (IPut c m) else gone in
    match nth_error (b_timers b) n with
    | Some (IKeep c k half due) =>
        if b_now b <? due then BNo
        else if b_now b - match aget k (b_last b) with Some t => t | None => 0 end <=? half * 3
        then become (IKeep c k half (b_now b + half)) else post c CKick
    | Some (IExpire c t due) => if b_now b <? due then BNo else post c (CExpired t)
    | Some (IWill c t due) => if b_now b <? due then BNo else post c (CWill t)
    | Some (IPut c m) =>
        match aget c (b_chans b) with
        | Some ch =>
            if negb (ch_open ch) then gone
            else if ctl_room ch then BOk (set_chan c (push_ctl m ch) (set_timers (drop_at n (b_timers b)) b)) []
            else BNo
        | None => BNo
        end
    | None => BNo
    end.

  (** All steps. *)
  Inductive bev :=
  | EConnect5 (t0 : N) (uuid : string) (p : connect5) (data : option string)
  | EConnect3 (t0 : N) (uuid : string) (p : connect3)
  | EPut (k : N) | EFail (k : N) | EJoin (k : N) | EStart (k : N)
  | EPacket5 (k len : N) (x : in5) | EPacket3 (k len : N) (x : in3) | EMalformed (k : N) (reason : string)
  | EClose (k : N) | EControl (k : N) | ENormal (k : N) | EFlush (k : N) (d : client_id)
  | EEnd (k : N) (hook : bool) | EDone (k : N)
  | EFire (n : nat) | ETick (d : N).

  Definition bstep (e : bev) (b : broker) : bres :=
    match e with
    | EConnect5 t0 uuid p data =>
        if b_now b <? t0 then BNo else add_client t0 (B5 (connect_conn5 (b_cfg b) uuid t0 p) data) b
    | EConnect3 t0 uuid p =>
        if b_now b <? t0 then BNo else add_client t0 (B3 (connect_sess3 (b_cfg b) uuid t0 p)) b
    | EPut k => do_put k b
    | EFail k => do_fail k b
    | EJoin k => do_join k b
    | EStart k => do_start k b
    | EPacket5 k len x => do_packet5 k len x b
    | EPacket3 k len x => do_packet3 k len x b
    | EMalformed k reason => do_malformed k reason b
    | EClose k => do_close k b
    | EControl k => do_control k b
    | ENormal k => do_normal k b
    | EFlush k d => do_flush k d b
    | EEnd k hook => do_end k hook b
    | EDone k => do_done k b
    | EFire n => do_fire n b
    | ETick d => BOk (set_now (b_now b + d) b) []
    end.
End Step.
