(** From an accepted socket to the MQTT handler, and from the configuration to
    the listeners.  Models server/mod.rs:41-205 [handle_accept], :207-288
    [build_tls_context], server/rt.rs:12-155 [start], and the waits of
    v3/message.rs:97-131 and v5/message.rs:122-271 before a session exists.

    Times are milliseconds since the socket was accepted.  The server waits at one
    step at a time.  [ready] tells when the operation of a step is complete of its
    own, for instance when the last byte it needs has arrived; [None] is never.  A
    step that is ready before the server gets there does not wait.

    The TLS and WebSocket handshakes (crates rustls and tungstenite) are
    parameters.  Each gets all bytes of the stream it runs on and yields the stream
    inside. *)
From Coq Require Import List Bool Arith NArith.
From Verif Require Import Base ProxyModel.
Import ListNotations.
Local Open Scope list_scope.
Local Open Scope N_scope.

(** ** Configuration *)

(** mod.rs:235-285: whether clients must show a certificate. *)
Inductive client_auth := NoCert | OptionalCert | RequiredCert.

(** config.rs:92-97 [ProxyMode] *)
Inductive proxy_mode := Normal | TlsTermination.

(** config.rs:55-89.  For the files of a TLS listener: whether the
    certificate chain and key load, and whether the CA file, if any, loads. *)
Record listener := Listener { l_reuse : bool; l_mode : option proxy_mode }.
Record tls_listener := TlsListener {
  t_reuse : bool; t_proxy : bool; t_ca : option bool; t_files : bool; t_verify : bool; t_fail : bool }.
Record listeners := Listeners {
  ls_mqtt : option listener; ls_mqtts : option tls_listener; ls_ws : option listener; ls_wss : option tls_listener }.

(** mod.rs:290-298 [ConnectionArgs]; the acceptor is what it demands of clients. *)
Record conn_args := ConnArgs { a_reuse : bool; a_proxy : bool; a_term : bool; a_ws : bool; a_tls : option client_auth }.

(** mod.rs:207-288 [build_tls_context]; [None] is an error. *)
Definition build_tls (l : tls_listener) : option client_auth :=
  if t_verify l && match t_ca l with None => true | Some _ => false end then None
  else if negb (t_files l) then None
  else if t_verify l then
    match t_ca l with
    | Some true => Some (if t_fail l then RequiredCert else OptionalCert)
    | _ => None
    end
  else Some NoCert.

(** rt.rs:18-37 [.map(build_tls_context).transpose()?] *)
Definition tls_of (l : option tls_listener) : option (option client_auth) :=
  match l with
  | None => Some None
  | Some l => match build_tls l with Some a => Some (Some a) | None => None end
  end.

(** rt.rs:51-64 and 80-93 *)
Definition plain_args (ws : bool) (l : listener) : conn_args :=
  ConnArgs (l_reuse l) (match l_mode l with Some _ => true | None => false end)
    (match l_mode l with Some TlsTermination => true | _ => false end) ws None.
(** rt.rs:65-79 and 94-108 *)
Definition secure_args (ws : bool) (a : option client_auth) (l : tls_listener) : conn_args :=
  ConnArgs (t_reuse l) (t_proxy l) false ws a.

Definition opt_list {A B} (f : A -> B) (o : option A) : list B := match o with Some x => [f x] | None => [] end.

(** rt.rs:12-136 [start]: the accept loops it spawns, or an error.  [reuse] is
    [reuse_port_available]. *)
Definition start (reuse : bool) (ls : listeners) : option (list conn_args) :=
  match tls_of (ls_mqtts ls) with
  | None => None
  | Some am =>
      match tls_of (ls_wss ls) with
      | None => None
      | Some aw =>
          Some (flat_map (fun a => repeat a (if reuse && a_reuse a then 4 else 1)%nat)
            (opt_list (plain_args false) (ls_mqtt ls) ++ opt_list (secure_args false am) (ls_mqtts ls) ++
             opt_list (plain_args true) (ls_ws ls) ++ opt_list (secure_args true aw) (ls_wss ls)))
      end
  end.

(** ** Waiting *)

(** The steps the server waits at before a session exists: the PROXY header, the
    TLS and WebSocket handshakes, the fixed header, the protocol name and level, the
    rest of CONNECT, the answer to CONNECT or to an AUTH being written, and the AUTH
    packets. *)
Inductive stage := GProxy | GTls | GWs | GHeader | GProto | GConnect | GWrite (n : nat) | GAuth (n : nat).

(** mod.rs:41 CONNECT_TIMEOUT_SECS, in milliseconds. *)
Definition connect_timeout : N := 5000.

(** The end of a wait, [None] if it never ends. *)
Inductive waited := Reached (t : N) | TimedOut (t : N) | Never.

(** server/mod.rs:54-71, 106-113, 156-173 [op.or(timeout_receiver.recv_async())]: [or] polls the operation first.  The
    timer's message stays in the channel until a step receives it, so a step that
    begins after five seconds ends at once, with the operation if that is ready. *)
Definition wait_timed (ready : option N) (now : N) : waited :=
  match ready with
  | Some t => if t <=? N.max now connect_timeout then Reached (N.max now t) else TimedOut (N.max now connect_timeout)
  | None => TimedOut (N.max now connect_timeout)
  end.
(** [op.await], without the timer: server/mod.rs:138 *)
Definition wait_plain (ready : option N) (now : N) : waited :=
  match ready with Some t => Reached (N.max now t) | None => Never end.

(** ** The first packet *)

(** crate mqtt-proto, [decode_var_int_async]: at most four bytes; [None] is an error. *)
Fixpoint read_var (fuel : nat) (shift acc : N) (r : reader) : option (N * reader) :=
  match fuel with
  | O => None
  | S fuel' =>
      match read_exact 1 r with
      | Some ([b], r') =>
          let acc' := acc + (b mod 128) * shift in
          if b <? 128 then Some (acc', r') else read_var fuel' (shift * 128) acc' r'
      | _ => None
      end
  end.

(** [decode_raw_header_async]: the type byte and the remaining length. *)
Definition read_head (r : reader) : option (N * N * reader) :=
  match read_exact 1 r with
  | Some ([b], r1) => match read_var 4 1 0 r1 with Some (n, r2) => Some (b, n, r2) | None => None end
  | _ => None
  end.

Inductive protocol := V310 | V311 | V500.

(** [Protocol::decode_async]: a length-prefixed name and a level.  The name is
    validated as UTF-8 first; no invalid name equals a known one. *)
Definition read_protocol (r : reader) : option (protocol * reader) :=
  match read_exact 2 r with
  | Some ([h; l], r1) =>
      match read_exact (N.to_nat (be16 h l)) r1 with
      | Some (name, r2) =>
          match read_exact 1 r2 with
          | Some ([level], r3) =>
              if bytes_eqb name [77; 81; 73; 115; 100; 112] && (level =? 3) then Some (V310, r3)
              else if bytes_eqb name [77; 81; 84; 84] && (level =? 4) then Some (V311, r3)
              else if bytes_eqb name [77; 81; 84; 84] && (level =? 5) then Some (V500, r3)
              else None
          | _ => None
          end
      | None => None
      end
  | _ => None
  end.

(** ** Accepting *)

(** How [handle_accept] goes on: the v3 or v5 handler gets the stream, the
    connection is closed, the task panics, or it waits for ever.  v3 does not look
    at the remaining length (v3/message.rs:104 [_header]). *)
Inductive outcome :=
| Serve3 (t : N) (p : protocol) (peer : bytes * N) (r : reader)
| Serve5 (t : N) (peer : bytes * N) (len : N) (r : reader)
| Close (t : N)
| Panic (t : N)
| Hang (g : stage).

Section Accept.
  Variable crc : bytes -> N.
  Variable utf8 : bytes -> bool.
  (** The TLS handshake: the server name and the stream inside, or an error. *)
  Variable tls : client_auth -> bytes -> option (option bytes * reader).
  (** The WebSocket handshake: the Sec-WebSocket-Protocol header and the payload
      stream, or an error. *)
  Variable ws : bytes -> option (option bytes * reader).
  Variable ready : stage -> option N.

  Definition timed (g : stage) (now : N) (k : N -> outcome) : outcome :=
    match wait_timed (ready g) now with Reached t => k t | TimedOut t => Close t | Never => Hang g end.
  Definition untimed (g : stage) (now : N) (k : N -> outcome) : outcome :=
    match wait_plain (ready g) now with Reached t => k t | TimedOut t => Close t | Never => Hang g end.

  (** mod.rs:62-98 *)
  Definition proxy_step (a : conn_args) (peer : bytes * N) (r : reader) (now : N)
      (k : bytes * N -> reader -> N -> outcome) : outcome :=
    if a_proxy a then
      timed GProxy now (fun t =>
        match accept_proxy (parse_header crc utf8 r (a_term a)) with
        | Peer ip port _ r' => k (ip, port) r' t
        | Closed => Close t
        | Panicked => Panic t
        end)
    else k peer r now.

  (** mod.rs:100-118 *)
  Definition tls_step (a : conn_args) (r : reader) (now : N) (k : reader -> N -> outcome) : outcome :=
    match a_tls a with
    | Some ca => timed GTls now (fun t => match tls ca (concat r) with Some (_, r') => k r' t | None => Close t end)
    | None => k r now
    end.

  (** mod.rs:122-154 *)
  Definition ws_step (a : conn_args) (r : reader) (now : N) (k : reader -> N -> outcome) : outcome :=
    if a_ws a then
      untimed GWs now (fun t =>
        match ws (concat r) with
        | Some (None, r') => k r' t
        | Some (Some p, r') => if bytes_eqb p [109; 113; 116; 116] then k r' t else Close t
        | None => Close t
        end)
    else k r now.

  (** mod.rs:156-204 *)
  Definition first_packet (peer : bytes * N) (r : reader) (now : N) : outcome :=
    timed GHeader now (fun t =>
      match read_head r with
      | None => Close t
      | Some (ty, len, r1) =>
          if negb (ty =? 16) then Close t
          else timed GProto t (fun t =>
            match read_protocol r1 with
            | None => Close t
            | Some (V500, r2) => Serve5 t peer len r2
            | Some (p, r2) => Serve3 t p peer r2
            end)
      end).

  (** mod.rs:43-205 [handle_accept] *)
  Definition handle_accept (a : conn_args) (peer : bytes * N) (r : reader) : outcome :=
    proxy_step a peer r 0 (fun peer r t =>
      tls_step a r t (fun r t => ws_step a r t (fun r t => first_packet peer r t))).
End Accept.

(** v3/message.rs:112-131: when the rest of CONNECT has been read. *)
Definition connect3_wait (ready : stage -> option N) (now : N) : waited := wait_timed (ready GConnect) now.

(** v5/message.rs:134-271: when the [n]-th AUTH packet has been read, [n] at most 2;
    for 0, CONNECT.  Before each AUTH packet is read the answer to the packet before
    it is written. *)
Fixpoint auth5_wait (ready : stage -> option N) (n : nat) (now : N) : waited :=
  match n with
  | O => wait_timed (ready GConnect) now
  | S m =>
      match auth5_wait ready m now with
      | Reached t =>
          match wait_plain (ready (GWrite m)) t with
          | Reached t => wait_timed (ready (GAuth m)) t
          | w => w
          end
      | w => w
      end
  end.
