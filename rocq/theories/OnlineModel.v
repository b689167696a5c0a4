(** The event loop of a connected client.  Models
    protocols/mqtt/online_loop.rs:23-784 ([OnlineLoop::poll]), generically in the
    session ([OnlineSession]).

    One call of [poll] is one function.  What the outside world answers during
    the call (bytes, messages, room in the socket or in a channel) is scripted by
    an [env]: when a script is used up, the answer is "not now" (Poll::Pending)
    and the task's waker is registered ([Waits]).  Answers are consumed in the
    order of the calls, so a script stands for any behaviour of the outside
    world during the poll.  Simplifications: the clock is read once per poll;
    hash maps are lists; [VecDeque] capacities are left out; a hook changes the
    session only when its future completes. *)
From Coq Require Import List Bool Arith NArith.
From Verif Require Import Base.
Import ListNotations.
Local Open Scope N_scope.

(** online_loop.rs:25-29 *)
Inductive disc := ByClient | ByServer.

(** What a pending task waits for. *)
Inductive wait := WHook | WTake | WRead | WControl | WNormal | WWrite | WFlush | WChan (d : client_id) | WSleep.

(** Outcome of a poll: pending, finished (with an error or not), finished because
    another connection took over, a panic in one of the session's handlers, or a
    panic of the loop itself (a failed assertion, an index out of range). *)
Inductive res := RPending | RReady (err : bool) | RTaken | RPanic | RBug.

Section Loop.
  Context {P Msg In Err Ctl Act Req Ans S G : Type}.

  (** What [handle_packet] (or a hook's future) does: new states, packets pushed
      to [write_packets], and a result; an error; or a panic. *)
  Inductive hp {A : Type} := HpOk (s : S) (g : G) (out : list P) (a : A) | HpErr (s : S) (g : G) (out : list P) | HpPanic.
  Arguments hp : clear implicits.

  (** online_loop.rs:741-784 [OnlineSession], [MqttPacket::encode] and
      hook.rs [handle_request].  The first argument of type [N] is the clock. *)
  Record iface := Iface {
    i_encode : P -> option (list N);
    i_disc : S -> option disc;
    i_bc : S -> list (client_id * list Msg);                      (* broadcast_packets, msgs *)
    i_cnt : S -> N;
    i_max : S -> N;
    i_set : list (client_id * list Msg) -> N -> S -> S;
    i_decode_error : Err -> S -> option (S * list P);
    i_packet : N -> In -> S -> G -> hp (option Req);
    i_hook : N -> Req -> Ans -> S -> G -> hp (list Act);
    i_after : N -> S -> S * list P;
    i_action : N -> Act -> S -> G -> hp unit;
    i_control : N -> Ctl -> S -> G -> S * G * bool * bool;        (* stop, takeover wanted *)
    i_normal : N -> client_id -> Msg -> S -> G -> S * G * option (bool * option P);   (* QoS 0? *)
    i_pendings : N -> S -> S * list P;
    i_build : S -> S                                              (* after [build_state] *)
  }.
  Variable i : iface.

  (** online_loop.rs:712-716 [WritePacket] *)
  Inductive wp := Pkt (p : P) | Data (b : list N) (idx : nat).

  (** What happens during a poll, in order: packets queued for the client, bytes
      accepted by its socket, messages queued for other clients, messages handed to
      their channel, channels found closed, hook requests, wakers registered, the
      task waking itself, and a packet (or a decoding error) taken from the client's
      socket or a message from its inbox. *)
  Inductive ev :=
  | Queued (p : P) | Wrote (b : list N)
  | Asked (d : client_id) (m : Msg) | Delivered (d : client_id) (m : Msg) | Gone (d : client_id)
  | Requested (r : Req) | Waits (w : wait) | Woke
  | Took.

  (** online_loop.rs:31-56 [OnlineLoop] without the session's environment.
      [l_sinks]: per destination the message taken by the channel's sink but not
      yet by the channel, and the flag [flushed]. *)
  Record lst := Lst {
    l_s : S;
    l_wp : list wp;                                (* write_packets *)
    l_hook : option Req;                           (* hook_fut *)
    l_take : option bool;                          (* session_state_sender, flushing *)
    l_ru : bool;                                   (* read_unfinish *)
    l_nu : bool;                                   (* normal_stream_unfinish *)
    l_sinks : list (client_id * (option Msg * bool));
    l_drain : option disc;                         (* draining *)
    l_sleep : bool                                 (* drain_sleep *)
  }.
  Definition set_s (s : S) (l : lst) := Lst s (l_wp l) (l_hook l) (l_take l) (l_ru l) (l_nu l) (l_sinks l) (l_drain l) (l_sleep l).
  Definition set_wp (w : list wp) (l : lst) := Lst (l_s l) w (l_hook l) (l_take l) (l_ru l) (l_nu l) (l_sinks l) (l_drain l) (l_sleep l).
  Definition set_hook (h : option Req) (l : lst) := Lst (l_s l) (l_wp l) h (l_take l) (l_ru l) (l_nu l) (l_sinks l) (l_drain l) (l_sleep l).
  Definition set_take (t : option bool) (l : lst) := Lst (l_s l) (l_wp l) (l_hook l) t (l_ru l) (l_nu l) (l_sinks l) (l_drain l) (l_sleep l).
  Definition set_ru (b : bool) (l : lst) := Lst (l_s l) (l_wp l) (l_hook l) (l_take l) b (l_nu l) (l_sinks l) (l_drain l) (l_sleep l).
  Definition set_nu (b : bool) (l : lst) := Lst (l_s l) (l_wp l) (l_hook l) (l_take l) (l_ru l) b (l_sinks l) (l_drain l) (l_sleep l).
  Definition set_sinks k (l : lst) := Lst (l_s l) (l_wp l) (l_hook l) (l_take l) (l_ru l) (l_nu l) k (l_drain l) (l_sleep l).
  Definition set_drain d (l : lst) := Lst (l_s l) (l_wp l) (l_hook l) (l_take l) (l_ru l) (l_nu l) (l_sinks l) d (l_sleep l).
  Definition set_sleep b (l : lst) := Lst (l_s l) (l_wp l) (l_hook l) (l_take l) (l_ru l) (l_nu l) (l_sinks l) (l_drain l) b.

  (** online_loop.rs:62-94 [OnlineLoop::new] *)
  Definition lst_new (s : S) : lst := Lst s [] None None false false [] None false.

  (** ** The outside world during one poll *)
  Inductive hook_res := HWait | HFail | HDone (a : Ans).
  Inductive rd := RdPacket (x : In) (h : hook_res) | RdErr (e : Err).
  Inductive wres := WOk (n : nat) | WErr.
  Inductive chan := COk | CErr.
  Record env := Env {
    e_now : N;
    e_hook : hook_res;                          (* a hook left pending by an earlier poll *)
    e_ready : option chan; e_start : bool; e_tflush : option chan;   (* takeover channel *)
    e_read : list rd;
    e_ctl : list (option Ctl);                  (* [None]: all senders dropped *)
    e_norm : list (option (client_id * Msg));
    e_write : list wres;
    e_flush : option bool;
    e_chan : client_id -> list chan;            (* polls of a destination's sink *)
    e_send : client_id -> list bool;            (* start_send; default success *)
    e_write2 : list wres; e_flush2 : option bool; e_shut : option bool;
    e_slept : bool; e_drain : option bool       (* end of stream? *)
  }.

  (** Sequencing: a phase yields new states, a trace, and [Some r] if the poll
      returns here. *)
  Definition ph := (lst * G * list ev * option res)%type.
  Definition next (x : ph) (k : lst -> G -> ph) : ph :=
    let '(l, g, t, r) := x in
    match r with
    | Some _ => x
    | None => let '(l', g', t', r') := k l g in (l', g', (t ++ t')%list, r')
    end.

  Definition push (out : list P) (l : lst) : lst := set_wp (l_wp l ++ map Pkt out) l.

  (** Messages added to the queues between two session states (trace only). *)
  Definition queue_of (b : list (client_id * list Msg)) (d : client_id) : list Msg :=
    match aget d b with Some ms => ms | None => [] end.
  Definition asked (s s' : S) : list ev :=
    flat_map (fun x => map (Asked (fst x)) (skipn (length (queue_of (i_bc i s) (fst x))) (snd x))) (i_bc i s').

  (** A handler's error ends the loop; what it did before stays. *)
  Definition failed (s' : S) (g' : G) (out : list P) (l : lst) : ph :=
    (push out (set_s s' l), g', (asked (l_s l) s' ++ map Queued out)%list, Some (RReady true)).

  (** online_loop.rs:155-159, 295-299: apply the hook's actions *)
  Fixpoint actions (now : N) (l : lst) (g : G) (acts : list Act) : ph :=
    match acts with
    | [] => (l, g, [], None)
    | a :: r =>
        match i_action i now a (l_s l) g with
        | HpErr s' g' out => failed s' g' out l
        | HpPanic => (l, g, [], Some RPanic)
        | HpOk s' g' out _ =>
            next (push out (set_s s' l), g', (asked (l_s l) s' ++ map Queued out)%list, None) (fun l1 g1 => actions now l1 g1 r)
        end
    end.

  Definition after (now : N) (l : lst) (g : G) : ph :=
    let '(s', out) := i_after i now (l_s l) in
    (push out (set_s s' l), g, (asked (l_s l) s' ++ map Queued out)%list, None).

  (** A completed hook: its effects, the actions, [after_handle_packet]. *)
  Definition hook_done (now : N) (r : Req) (a : Ans) (l : lst) (g : G) : ph :=
    match i_hook i now r a (l_s l) g with
    | HpErr s' g' out => failed s' g' out l
    | HpPanic => (l, g, [], Some RPanic)
    | HpOk s' g' out acts =>
        next (push out (set_s s' l), g', (asked (l_s l) s' ++ map Queued out)%list, None)
          (fun l1 g1 => next (actions now l1 g1 acts) (fun l2 g2 => after now l2 g2))
    end.

  (** online_loop.rs:142-161 *)
  Definition hook_phase (e : env) (l : lst) (g : G) : ph :=
    match l_hook l with
    | None => (l, g, [], None)
    | Some r =>
        match e_hook e with
        | HWait => (l, g, [Waits WHook], Some RPending)
        | HFail => (set_hook None l, g, [], Some (RReady true))
        | HDone a => hook_done (e_now e) r a (set_hook None l) g
        end
    end.

  (** online_loop.rs:163-217.  After a cancelled takeover the sender is gone; the
      session's tables stay in the state that was built. *)
  Definition take_phase (e : env) (l : lst) (g : G) : ph :=
    let flush l :=
      match e_tflush e with
      | Some COk => (l, g, [], Some RTaken)
      | Some CErr => (l, g, [Woke], Some RPending)
      | None => (set_take (Some true) l, g, [Waits WTake], Some RPending)
      end in
    match l_take l with
    | None => (l, g, [], None)
    | Some true => flush (set_take None l)
    | Some false =>
        let l1 := set_take None l in
        match e_ready e with
        | Some CErr => (l1, g, [Woke], Some RPending)
        | None => (l, g, [Waits WTake], Some RPending)
        | Some COk =>
            let l2 := set_sinks [] (set_s (i_build i (l_s l1)) l1) in
            if e_start e then flush l2 else (l2, g, [Woke], Some RPending)
        end
    end.

  Definition took (x : ph) : ph := let '(l, g, t, r) := x in (l, g, Took :: t, r).

  (** online_loop.rs:688-699 [too_much_write_data]; write_packets_max = 16 *)
  Definition too_much (q : list wp) : bool :=
    (16 <=? N.of_nat (length q)) ||
    match q with Data b _ :: _ => 2048 <=? N.of_nat (length b) | _ => false end.

  (** online_loop.rs:235-312 *)
  Fixpoint read_phase (now : N) (rs : list rd) (l : lst) (g : G) : ph :=
    match i_disc i (l_s l) with
    | Some _ => (l, g, [], None)
    | None =>
        if too_much (l_wp l) || (i_max i (l_s l) <=? i_cnt i (l_s l)) then (set_ru true l, g, [], None)
        else
          let l := set_ru false l in
          match rs with
          | [] => (l, g, [Waits WRead], None)
          | RdErr e :: rs' => took
              match i_decode_error i e (l_s l) with
              | None => (l, g, [], Some (RReady true))
              | Some (s', out) =>
                  next (push out (set_s s' l), g, (asked (l_s l) s' ++ map Queued out)%list, None) (read_phase now rs')
              end
          | RdPacket x h :: rs' => took
              match i_packet i now x (l_s l) g with
              | HpErr s' g' out => failed s' g' out l
              | HpPanic => (l, g, [], Some RPanic)
              | HpOk s' g' out req =>
                  next (push out (set_s s' l), g', (asked (l_s l) s' ++ map Queued out)%list, None) (fun l1 g1 =>
                  next
                    match req with
                    | None => after now l1 g1
                    | Some r =>
                        match h with
                        | HWait => (set_hook (Some r) l1, g1, [Requested r; Waits WHook], Some RPending)
                        | HFail => (l1, g1, [Requested r], Some (RReady true))
                        | HDone a => next (l1, g1, [Requested r], None) (hook_done now r a)
                        end
                    end (read_phase now rs'))
              end
          end
    end.

  (** online_loop.rs:314-348 *)
  Fixpoint control_phase (now : N) (cs : list (option Ctl)) (l : lst) (g : G) : ph :=
    match cs with
    | [] => (l, g, [Waits WControl], None)
    | None :: _ => (l, g, [], Some (RReady true))
    | Some c :: cs' =>
        let '(s', g', stop, taken) := i_control i now c (l_s l) g in
        let t := asked (l_s l) s' in
        if taken then (set_take (Some false) (set_s s' l), g', (t ++ [Woke])%list, Some RPending)
        else if stop then (set_s s' l, g', t, Some (RReady false))
        else next (set_s s' l, g', t, None) (control_phase now cs')
    end.

  (** online_loop.rs:350-397 *)
  Fixpoint normal_phase (now : N) (ms : list (option (client_id * Msg))) (l : lst) (g : G) : ph :=
    match i_disc i (l_s l) with
    | Some _ => (l, g, [], None)
    | None =>
        if too_much (l_wp l) then (set_nu true l, g, [], None)
        else
          let l := set_nu false l in
          match ms with
          | [] => (l, g, [Waits WNormal], None)
          | None :: _ => (l, g, [], Some (RReady true))
          | Some (from, m) :: ms' => took
              (let '(s', g', r) := i_normal i now from m (l_s l) g in
              let l1 := set_s s' l in
              let t := asked (l_s l) s' in
              match r with
              | None => next (l1, g', t, None) (normal_phase now ms')
              | Some (qos0, po) =>
                  let out := match po with Some p => [p] | None => [] end in
                  let l2 := push out l1 in
                  if qos0 then next (l2, g', (t ++ map Queued out)%list, None) (normal_phase now ms')
                  else
                    let '(s2, more) := i_pendings i now (l_s l2) in
                    next (push more (set_s s2 l2), g', (t ++ map Queued out ++ asked s' s2 ++ map Queued more)%list, None)
                      (normal_phase now ms')
              end)
          end
    end.

  (** online_loop.rs:408-430: take packets off the queue into one buffer. *)
  Fixpoint batch (q : list wp) (data : list N) (idx : nat) : option (list N * nat * list wp) :=
    match q with
    | [] => Some (data, idx, [])
    | w :: q' =>
        match (match w with
               | Data d k => Some (d, k)
               | Pkt p => match i_encode i p with Some b => Some ((data ++ b)%list, idx) | None => None end
               end) with
        | None => None
        | Some (d, k) => if 2048 <=? N.of_nat (length d) then Some (d, k, q') else batch q' d k
        end
    end.

  (** How the write loop ended: queue empty, a short write, no room, an error,
      an index out of range. *)
  Inductive wend := WEmpty | WShort | WFull | WFail | WBug.

  (** online_loop.rs:404-450 and, with [drain], 585-625 where a short write does
      not end the loop.  Result: queue, trace, end. *)
  Fixpoint write_loop (drain : bool) (ws : list wres) (q : list wp) : list wp * list ev * wend :=
    match q with
    | [] => ([], [], WEmpty)
    | _ =>
        match batch q [] 0 with
        | None => (q, [], WFail)
        | Some (d, k, q') =>
            if Nat.ltb (length d) k then (q, [], WBug)
            else
              match ws with
              | [] => (Data d k :: q', [Waits WWrite], WFull)
              | WErr :: _ => (q', [], WFail)
              | WOk n :: ws' =>
                  let m := Nat.min n (length d - k) in
                  let t := Wrote (firstn m (skipn k d)) in
                  if Nat.ltb (k + m) (length d) then
                    if drain then let '(q2, t2, e) := write_loop drain ws' (Data d (k + m) :: q') in (q2, t :: t2, e)
                    else (Data d (k + m) :: q', [t], WShort)
                  else let '(q2, t2, e) := write_loop drain ws' q' in (q2, t :: t2, e)
              end
        end
    end.

  Definition wrote (t : list ev) : bool := existsb (fun x => match x with Wrote _ => true | _ => false end) t.

  (** online_loop.rs:404-465 *)
  Definition write_phase (e : env) (l : lst) (g : G) : ph :=
    let '(q, t, w) := write_loop false (e_write e) (l_wp l) in
    let l1 := set_wp q l in
    match w with
    | WFail => (l1, g, t, Some (RReady true))
    | WBug => (l1, g, t, Some RBug)
    | WFull => (l1, g, t, None)
    | _ =>
        if wrote t then
          match e_flush e with
          | Some true => (l1, g, t, None)
          | Some false => (l1, g, t, Some (RReady true))
          | None => (l1, g, (t ++ [Waits WFlush])%list, None)
          end
        else (l1, g, t, None)
    end.

  (** flume [SendSink]: [start_send] only stores the item; [poll_ready] and
      [poll_flush] hand the stored item to the channel, and are ready when there is
      none.  Result: what became of it, and the remaining script. *)
  Inductive sink_res := KOk | KErr | KWait.
  Definition sink_poll (d : client_id) (hold : option Msg) (cs : list chan) : sink_res * list ev * list chan :=
    match hold with
    | None => (KOk, [], cs)
    | Some m =>
        match cs with
        | COk :: cs' => (KOk, [Delivered d m], cs')
        | CErr :: cs' => (KErr, [Gone d], cs')
        | [] => (KWait, [Waits (WChan d)], [])
        end
    end.

  (** online_loop.rs:506-561: the [while let] of the [retain] closure and the final
      flush.  Result: kept entry (queue, stored item, flushed), consumed, trace. *)
  Fixpoint send_all (d : client_id) (ms : list Msg) (hold : option Msg) (fl : bool) (cs : list chan) (ss : list bool)
      (used : N) : option (list Msg * option Msg * bool) * N * list ev :=
    match ms with
    | [] =>
        let '(r, t, _) := sink_poll d hold cs in
        match r with
        | KWait => (Some ([], hold, false), used, t)
        | _ => (None, used, t)
        end
    | m :: ms' =>
        let '(r, t, cs') := sink_poll d hold cs in
        match r with
        | KErr => (None, used + 1 + N.of_nat (length ms'), t)
        | KWait => (Some (m :: ms', hold, fl), used, t)
        | KOk =>
            if match ss with b :: _ => b | [] => true end then
              let '(kp, u, t') := send_all d ms' (Some m) fl cs' (tl ss) (used + 1) in (kp, u, (t ++ t')%list)
            else (None, used + 1 + N.of_nat (length ms'), (t ++ [Gone d])%list)
        end
    end.

  (** online_loop.rs:479-561: the closure for one destination. *)
  Definition serve (d : client_id) (ms : list Msg) (hold : option Msg) (fl : bool) (cs : list chan) (ss : list bool)
      : option (list Msg * option Msg * bool) * N * list ev :=
    if negb fl && match ms with [] => true | _ => false end then
      let '(r, t, _) := sink_poll d hold cs in
      match r with
      | KWait => (Some (ms, hold, fl), 0, t)
      | _ => (None, 0, t)
      end
    else send_all d ms hold fl cs ss 0.

  Fixpoint serve_all (e : env) (sinks : list (client_id * (option Msg * bool))) (b : list (client_id * list Msg))
      : list (client_id * list Msg) * list (client_id * (option Msg * bool)) * N * list ev :=
    match b with
    | [] => ([], [], 0, [])
    | (d, ms) :: b' =>
        let '(hold, fl) := match aget d sinks with Some x => x | None => (None, true) end in
        let '(kp, used, t) := serve d ms hold fl (e_chan e d) (e_send e d) in
        let '(b2, k2, u2, t2) := serve_all e sinks b' in
        match kp with
        | Some (ms', hold', fl') => ((d, ms') :: b2, (d, (hold', fl')) :: k2, used + u2, (t ++ t2)%list)
        | None => (b2, k2, used + u2, (t ++ t2)%list)
        end
    end.

  Definition total (b : list (client_id * list Msg)) : N :=
    fold_right (fun x n => N.of_nat (length (snd x)) + n) 0 b.

  (** online_loop.rs:466-578.  A failed assertion and a count that would become
      negative are panics.  The second component tells whether something was sent. *)
  Definition broadcast_phase (e : env) (l : lst) (g : G) : ph * bool :=
    let b := i_bc i (l_s l) in
    let '(b', k', used, t) := serve_all e (l_sinks l) b in
    if negb (total b' + used =? total b) then ((l, g, t, Some RBug), false)
    else if i_cnt i (l_s l) <? used then ((l, g, t, Some RBug), false)
    else ((set_sinks k' (set_s (i_set i b' (i_cnt i (l_s l) - used) (l_s l)) l), g, t, None), negb (used =? 0)).

  (** online_loop.rs:580-655 *)
  Definition drain_phase (e : env) (l : lst) (g : G) : ph :=
    let l := match l_drain l with None => set_drain (i_disc i (l_s l)) l | Some _ => l end in
    match l_drain l with
    | None => (l, g, [], None)
    | Some who =>
        let '(q, t, w) := write_loop true (e_write2 e) (l_wp l) in
        let l1 := set_wp q l in
        match w with
        | WFail => (l1, g, t, Some (RReady true))
        | WBug => (l1, g, t, Some RBug)
        | WFull | WShort => (l1, g, t, Some RPending)
        | WEmpty =>
            match e_flush2 e with
            | Some false => (l1, g, t, Some (RReady true))
            | None => (l1, g, (t ++ [Waits WFlush])%list, Some RPending)
            | Some true =>
                match e_shut e with
                | Some false => (l1, g, t, Some (RReady false))
                | None => (l1, g, (t ++ [Waits WFlush])%list, Some RPending)
                | Some true =>
                    match who with
                    | ByClient => (l1, g, t, Some (RReady false))
                    | ByServer =>
                        let l2 := set_sleep true l1 in
                        if e_slept e then (l2, g, t, Some (RReady false))
                        else
                          match e_drain e with
                          | Some true => (l2, g, t, Some (RReady false))
                          | Some false => (l2, g, (t ++ [Waits WSleep; Woke])%list, Some RPending)
                          | None => (l2, g, (t ++ [Waits WSleep; Waits WRead])%list, Some RPending)
                          end
                    end
                end
            end
        end
    end.

  (** online_loop.rs:109-683 [poll] *)
  Definition poll (e : env) (l : lst) (g : G) : lst * G * list ev * res :=
    let '(l1, g1, t1, r1) :=
      next (hook_phase e l g) (fun l g =>
      next (take_phase e l g) (fun l g =>
      next (read_phase (e_now e) (e_read e) l g) (fun l g =>
      next (control_phase (e_now e) (e_ctl e) l g) (fun l g =>
      normal_phase (e_now e) (e_norm e) l g)))) in
    match r1 with
    | Some r => (l1, g1, t1, r)
    | None =>
        let '(l2, g2, t2, r2) := write_phase e l1 g1 in
        match r2 with
        | Some r => (l2, g2, (t1 ++ t2)%list, r)
        | None =>
            let '(l3, g3, t3, r3, sent) := broadcast_phase e l2 g2 in
            match r3 with
            | Some r => (l3, g3, (t1 ++ t2 ++ t3)%list, r)
            | None =>
                let '(l4, g4, t4, r4) := drain_phase e l3 g3 in
                match r4 with
                | Some r => (l4, g4, (t1 ++ t2 ++ t3 ++ t4)%list, r)
                | None =>
                    let w := (wrote t2 && (l_ru l4 || l_nu l4)) || (sent && l_ru l4) in
                    (l4, g4, (t1 ++ t2 ++ t3 ++ t4 ++ (if w then [Woke] else []))%list, RPending)
                end
            end
        end
    end.

  (** The task's life: polled again and again until it is ready; between polls the
      shared state [G] may change in any way. *)
  Fixpoint life (es : list (env * G)) (l : lst) : lst * list ev * res :=
    match es with
    | [] => (l, [], RPending)
    | (e, g) :: r =>
        let '(l1, _, t, x) := poll e l g in
        match x with
        | RPending => let '(l2, t2, x2) := life r l1 in (l2, (t ++ t2)%list, x2)
        | _ => (l1, t, x)
        end
    end.

  (** v5/message.rs:943-965 [broadcast_packets], v3/message.rs:185-200: at the end
      of a connection the queues are emptied with awaiting sends, entry by entry,
      and every sink is dropped after its queue.  [alive d]: the destination's
      channel is open; [late d]: the receiver has already taken the item the sink
      had handed over.  While an awaiting send blocks, the items in front of it
      (that of the sink) enter the channel first; dropping a sink withdraws its
      item.  Sends that never complete are not modelled here. *)
  Definition finish1 (alive late : client_id -> bool) (sinks : list (client_id * (option Msg * bool)))
      (x : client_id * list Msg) : list ev :=
    let hold := match aget (fst x) sinks with Some (Some m, _) => [m] | _ => [] end in
    if alive (fst x) then
      match snd x with
      | [] => if late (fst x) then map (Delivered (fst x)) hold else []
      | ms => map (Delivered (fst x)) (hold ++ ms)
      end
    else [Gone (fst x)].
  Definition finish (alive late : client_id -> bool) (l : lst) : list ev :=
    flat_map (finish1 alive late (l_sinks l)) (i_bc i (l_s l)).
End Loop.
Arguments hp : clear implicits.
Arguments iface : clear implicits.
Arguments wp : clear implicits.
Arguments ev : clear implicits.
Arguments lst : clear implicits.
Arguments hook_res : clear implicits.
Arguments rd : clear implicits.
Arguments env : clear implicits.
Arguments ph : clear implicits.
