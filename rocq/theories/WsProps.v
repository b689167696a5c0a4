(** C36: MQTT over WebSocket. *)
From Coq Require Import List Bool Arith Lia.
From Verif Require Import WsModel WsSpec WsProofs WsLast.
Import ListNotations.

(** For every sequence of reads (of any buffer sizes), writes and shutdowns, and every
    sequence of messages from the peer: the bytes read so far, and then those received
    but not yet read, are the payloads of the binary messages taken so far, in order. *)
Theorem C36_bytes_in_order (byte : Type) (ops : list (wsop byte)) ms w rest t :
  run ops ms ws_new = (w, rest, t) ->
  exists used, ms = used ++ rest /\ bytes_read t ++ unread w = payload used.
Proof. exact (all_bytes ops ms w rest t). Qed.
Print Assumptions C36_bytes_in_order.

(** After any such history, a read with room in its buffer never returns zero bytes as
    data (which a reader would take for the end of the stream), and it reports the end
    only after a Close message or the end of the stream, when every byte received has
    been handed over. *)
Theorem C36_end_of_stream (byte : Type) (ops : list (wsop byte)) ms w rest t n avail rs w' rest' o r :
  run ops ms ws_new = (w, rest, t) -> 0 < n -> poll_read n avail rs rest w = (w', rest', o, r) ->
  r <> RBytes [] /\
  (r = REof -> exists used, ms = used ++ rest' /\ bytes_read t = payload used /\ (rest' = [] \/ exists u, used = u ++ [MClose])).
Proof. exact (next_read ops ms w rest t n avail rs w' rest' o r). Qed.
Print Assumptions C36_end_of_stream.

(** A read gets at least one byte whenever a byte has arrived (if no pong is waiting
    and only binary messages have arrived): empty frames are skipped. *)
Theorem C36_read_progress (byte : Type) (ops : list (wsop byte)) ms w rest t n avail rs :
  run ops ms ws_new = (w, rest, t) -> 0 < n -> w_pong w = None ->
  (forall m, In m (firstn avail rest) -> exists b, m = MBin b) -> unread w ++ payload (firstn avail rest) <> [] ->
  exists w' rest' b, poll_read n avail rs rest w = (w', rest', [], RBytes b) /\ b <> [].
Proof. exact (read_gets ops ms w rest t n avail rs). Qed.
Print Assumptions C36_read_progress.

(** As long as no write has failed, the binary messages sent are exactly the bytes whose
    writing was reported as done, in order: nothing is lost, repeated or cut. *)
Theorem C36_writes (byte : Type) (ops : list (wsop byte)) ms w rest t :
  run ops ms ws_new = (w, rest, t) -> ~ failed t ->
  concat (bins_sent t) = concat (accepted t) /\ bins_sent t = accepted t.
Proof. exact (writes ops ms w rest t). Qed.
Print Assumptions C36_writes.

(** Every pong sent answers a ping received, in order and each at most once. *)
Theorem C36_pongs (byte : Type) (ops : list (wsop byte)) ms w rest t :
  run ops ms ws_new = (w, rest, t) -> exists used, ms = used ++ rest /\ subseq (pongs t) (pings used).
Proof. exact (pongs_answer ops ms w rest t). Qed.
Print Assumptions C36_pongs.

(** A shutdown is reported as done only after a Close message was sent; if no shutdown
    failed, there is only one. *)
Theorem C36_close (byte : Type) (ops : list (wsop byte)) ms w rest t :
  run ops ms ws_new = (w, rest, t) ->
  (~ In (EvShut WErr) t -> closes t <= 1) /\ (forall a n b, t = a ++ EvShut (WOk n) :: b -> In (EvSent OClose) a).
Proof. exact (closing ops ms w rest t). Qed.
Print Assumptions C36_close.

(** An MQTT packet in two frames, with an empty frame and a ping between them, read in
    pieces of two bytes, while a reply is written; then the peer closes. *)
Definition exw_ms : list (wsmsg nat) := [MBin [1; 2; 3]; MBin []; MPing [9]; MBin [4; 5]; MClose].
Definition exw_ops : list (wsop nat) :=
  [OpRead 2 1 []; OpWrite [7; 8] SOk SOk; OpRead 2 0 []; OpRead 2 2 [SOk; SNotReady]; OpRead 2 1 [SOk]; OpRead 2 1 []].
Example C36_example :
  run exw_ops exw_ms ws_new =
    (Ws [4; 5] 2 None false, [], [EvRead (RBytes [1; 2]); EvSent (OBin [7; 8]); EvWrite [7; 8] (WOk 2); EvRead (RBytes [3]);
      EvRead RPending; EvSent (OPong [9]); EvRead (RBytes [4; 5]); EvRead REof]).
Proof. vm_compute. reflexivity. Qed.
Example C36_close_example :
  run [OpShut SNotReady (WOk 0); OpShut SOk WPending; OpShut SOk (WOk 0)] ([] : list (wsmsg nat)) ws_new =
    (Ws [] 0 None true, [], [EvShut WPending; EvSent OClose; EvShut WPending; EvShut (WOk 0)]).
Proof. reflexivity. Qed.
