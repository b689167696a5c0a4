(** MQTT over WebSocket: the byte stream made of WebSocket messages.
    Models server/mod.rs:344-541 ([WebSocketWrapper] with a WebSocket, its poll_read,
    poll_write, poll_flush and poll_shutdown, and [ws_send_pong]).  The WebSocket
    protocol itself (tokio-tungstenite: frames, masking, handshake) is not modelled:
    its messages and the answers of its sink are inputs. *)
From Coq Require Import List Bool Arith.
Import ListNotations.

Section Ws.
  Context {byte : Type}.
  Notation bytes := (list byte).

  (** tungstenite [Message], or an error of the WebSocket stream. *)
  Inductive wsmsg := MBin (b : bytes) | MClose | MPing (d : bytes) | MPong (d : bytes) | MText (d : bytes) | MFrame | MErr.

  (** What happens when a message is sent: the sink is not ready; it failed; the
      message was refused; it was taken but flushing failed; it was taken (and perhaps
      flushed). *)
  Inductive snd_res := SNotReady | SFail | SRefused | SFlushFail | SOk.

  (** Messages handed to the WebSocket sink. *)
  Inductive wsout := OBin (b : bytes) | OPong (d : bytes) | OClose.

  (** server/mod.rs:345-354 *)
  Record ws := Ws { w_data : bytes; w_idx : nat; w_pong : option bytes; w_closed : bool }.
  (** server/mod.rs:314-321: after the handshake. *)
  Definition ws_new : ws := Ws [] 0 None false.
  Definition with_pong (p : option bytes) (w : ws) : ws := Ws (w_data w) (w_idx w) p (w_closed w).
  Definition with_data (b : bytes) (k : nat) (w : ws) : ws := Ws b k (w_pong w) (w_closed w).

  (** server/mod.rs:356-386 [ws_send_pong]: new state, messages sent, error. *)
  Definition send_pong (r : snd_res) (w : ws) : ws * list wsout * bool :=
    match w_pong w with
    | None => (w, [], false)
    | Some d =>
        match r with
        | SNotReady => (w, [], false)
        | SFail | SRefused => (with_pong None w, [], true)
        | SFlushFail => (with_pong None w, [OPong d], true)
        | SOk => (with_pong None w, [OPong d], false)
        end
    end.

  Inductive rres := RBytes (b : bytes) | REof | RErr | RPending.

  (** server/mod.rs:403-409 [copy_data]; [n]: room in the caller's buffer. *)
  Definition copy (n : nat) (w : ws) : ws * bytes :=
    let amt := Nat.min (length (w_data w) - w_idx w) n in
    (with_data (w_data w) (w_idx w + amt) w, firstn amt (skipn (w_idx w) (w_data w))).

  (** server/mod.rs:417-452: the loop.  [avail]: how many of the coming messages have
      arrived ([ms] empty and [avail] left: the stream has ended); [rs]: answers of the
      sink.  Result: state, messages not yet taken, messages sent, outcome. *)
  Fixpoint read_loop (n avail : nat) (rs : list snd_res) (ms : list wsmsg) (w : ws) : ws * list wsmsg * list wsout * rres :=
    match avail with
    | O => (w, ms, [], RPending)
    | S avail' =>
        match ms with
        | [] => (w, [], [], REof)
        | m :: ms' =>
            match m with
            | MBin [] => read_loop n avail' rs ms' w
            | MBin b => let '(w', out) := copy n (with_data b 0 w) in (w', ms', [], RBytes out)
            | MClose => (w, ms', [], REof)
            | MPing d =>
                let '(w1, o1, err) := send_pong (hd SNotReady rs) (with_pong (Some d) w) in
                if err then (w1, ms', o1, RErr)
                else let '(w2, ms2, o2, r) := read_loop n avail' (tl rs) ms' w1 in (w2, ms2, o1 ++ o2, r)
            | MPong _ | MText _ | MFrame | MErr => (w, ms', [], RErr)
            end
        end
    end.

  (** server/mod.rs:388-455 [poll_read] *)
  Definition poll_read (n avail : nat) (rs : list snd_res) (ms : list wsmsg) (w : ws) : ws * list wsmsg * list wsout * rres :=
    let '(w1, o1, err) := if w_closed w then (w, [], false) else send_pong (hd SNotReady rs) w in
    if err then (w1, ms, o1, RErr)
    else if Nat.ltb (w_idx w1) (length (w_data w1)) then
      let '(w2, out) := copy n w1 in (w2, ms, o1, RBytes out)
    else let '(w2, ms2, o2, r) := read_loop n avail (tl rs) ms w1 in (w2, ms2, o1 ++ o2, r).

  Inductive wres := WOk (n : nat) | WErr | WPending.

  (** server/mod.rs:457-494 [poll_write]: [r1] for a waiting pong, [r2] for the data. *)
  Definition poll_write (b : bytes) (r1 r2 : snd_res) (w : ws) : ws * list wsout * wres :=
    let '(w1, o1, err) := if w_closed w then (w, [], false) else send_pong r1 w in
    if err then (w1, o1, WErr)
    else match r2 with
         | SNotReady => (w1, o1, WPending)
         | SFail | SRefused => (w1, o1, WErr)
         | SFlushFail => (w1, o1 ++ [OBin b], WErr)
         | SOk => (w1, o1 ++ [OBin b], WOk (length b))
         end.

  (** server/mod.rs:508-540 [poll_shutdown]; [cl]: answer of poll_close. *)
  Definition poll_shutdown (r : snd_res) (cl : wres) (w : ws) : ws * list wsout * wres :=
    if w_closed w then (w, [], cl)
    else match r with
         | SNotReady => (w, [], WPending)
         | SFail | SRefused => (w, [], WErr)
         | SFlushFail => (w, [OClose], WErr)
         | SOk => (Ws (w_data w) (w_idx w) (w_pong w) true, [OClose], cl)
         end.

  (** Any sequence of calls on one connection. *)
  Inductive wsop := OpRead (n avail : nat) (rs : list snd_res) | OpWrite (b : bytes) (r1 r2 : snd_res) | OpShut (r : snd_res) (cl : wres).
  Inductive wsev := EvRead (r : rres) | EvWrite (b : bytes) (r : wres) | EvShut (r : wres) | EvSent (o : wsout).
  Fixpoint run (ops : list wsop) (ms : list wsmsg) (w : ws) : ws * list wsmsg * list wsev :=
    match ops with
    | [] => (w, ms, [])
    | OpRead n avail rs :: r =>
        let '(w1, ms1, o, x) := poll_read n avail rs ms w in
        let '(w2, ms2, t) := run r ms1 w1 in (w2, ms2, map EvSent o ++ EvRead x :: t)
    | OpWrite b r1 r2 :: r =>
        let '(w1, o, x) := poll_write b r1 r2 w in
        let '(w2, ms2, t) := run r ms w1 in (w2, ms2, map EvSent o ++ EvWrite b x :: t)
    | OpShut a cl :: r =>
        let '(w1, o, x) := poll_shutdown a cl w in
        let '(w2, ms2, t) := run r ms w1 in (w2, ms2, map EvSent o ++ EvShut x :: t)
    end.
End Ws.
Arguments wsmsg : clear implicits. Arguments wsout : clear implicits. Arguments ws : clear implicits.
Arguments rres : clear implicits. Arguments wsop : clear implicits. Arguments wsev : clear implicits.
