(** The server process: the [start] command, its accept loops and the HTTP endpoint.
    Models akasa/src/main.rs:97-125 [Commands::Start], server/rt.rs:109-155 (the loops
    around [listen] and what the process waits for), rt.rs:157-210 [listen] and
    server/http_api.rs:7-40 [serve].

    The operating system decides whether the calls that open a socket (socket, setsockopt,
    bind, listen) and [accept] succeed.  Clients that have connected wait in the queue of
    the listening socket until they are accepted; closing the socket cuts them off.  Time is
    in milliseconds.  It passes only while every loop waits ([tick_ok]): the time the loops
    themselves take is left out. *)
From Coq Require Import List Bool Arith NArith String.
From Verif Require Import Base AcceptModel GlobModel TextModel PassModel ScramModel ConfModel.
Import ListNotations.
Local Open Scope N_scope.

(** ** The accept loops *)

(** A loop is about to call [listen], waits in [accept] with these clients in the socket's
    queue, or sleeps since it failed. *)
Inductive ltask := LOpen | LListen (q : list N) | LSleep (since : N).
(** http_api.rs: [serve] is called once; [HEnded]: it returned. *)
Inductive htask := HOpen | HListen (q : list N) | HEnded.

(** [sv_http] is [None] when no HTTP endpoint is configured. *)
Record server := Server { sv_now : N; sv_tasks : list ltask; sv_http : option htask }.

(** rt.rs:109-148 *)
Definition server_new (now : N) (loops : list conn_args) (http : bool) : server :=
  Server now (map (fun _ => LOpen) loops) (if http then Some HOpen else None).

(** What happens: a loop opens its socket (with what result), a client connects to it, it
    accepts (or [accept] fails), it wakes up; the same for HTTP; time passes. *)
Inductive lev :=
| LvOpen (k : nat) (ok : bool) | LvArrive (k : nat) (c : N) | LvAccept (k : nat) (ok : bool) | LvWake (k : nat)
| HvOpen (ok : bool) | HvArrive (c : N) | HvAccept (ok : bool)
| LvTick (d : N).
(** What clients see: a client was refused, is being served ([handle_accept] in a task of
    its own), was cut off while it waited. *)
Inductive lout := Refused (c : N) | Served (k : nat) (c : N) | CutOff (c : N) | ServedHttp (c : N).

Fixpoint list_put {A} (k : nat) (x : A) (l : list A) : list A :=
  match l, k with
  | [], _ => []
  | _ :: r, O => x :: r
  | y :: r, S k' => y :: list_put k' x r
  end.
Definition put_task (k : nat) (t : ltask) (s : server) : server := Server (sv_now s) (list_put k t (sv_tasks s)) (sv_http s).
Definition put_http (t : htask) (s : server) : server := Server (sv_now s) (sv_tasks s) (Some t).

(** No loop is about to do something, and no sleep (rt.rs:127, one second) ends before. *)
Definition tick_ok (d : N) (s : server) : bool :=
  forallb (fun t => match t with LOpen => false | LListen _ => true | LSleep t0 => sv_now s + d <=? t0 + 1000 end) (sv_tasks s) &&
  match sv_http s with Some HOpen => false | _ => true end.

(** One step; [None] when the event cannot happen. *)
Definition lstep (e : lev) (s : server) : option (server * list lout) :=
  match e with
  | LvOpen k ok =>                                    (* rt.rs:163-180; an error: 124-128 *)
      match nth_error (sv_tasks s) k with
      | Some LOpen => Some (put_task k (if ok then LListen [] else LSleep (sv_now s)) s, [])
      | _ => None
      end
  | LvArrive k c =>
      match nth_error (sv_tasks s) k with
      | Some (LListen q) => Some (put_task k (LListen (q ++ [c])) s, [])
      | Some _ => Some (s, [Refused c])
      | None => None
      end
  | LvAccept k true =>                                (* rt.rs:201-209 *)
      match nth_error (sv_tasks s) k with
      | Some (LListen (c :: q)) => Some (put_task k (LListen q) s, [Served k c])
      | _ => None
      end
  | LvAccept k false =>                               (* the [?] of rt.rs:201 *)
      match nth_error (sv_tasks s) k with
      | Some (LListen q) => Some (put_task k (LSleep (sv_now s)) s, map CutOff q)
      | _ => None
      end
  | LvWake k =>                                       (* rt.rs:119-129 *)
      match nth_error (sv_tasks s) k with
      | Some (LSleep t0) => if t0 + 1000 <=? sv_now s then Some (put_task k LOpen s, []) else None
      | _ => None
      end
  | HvOpen ok =>                                      (* http_api.rs:12-35; an error: rt.rs:144-146 *)
      match sv_http s with
      | Some HOpen => Some (put_http (if ok then HListen [] else HEnded) s, [])
      | _ => None
      end
  | HvArrive c =>
      match sv_http s with
      | Some (HListen q) => Some (put_http (HListen (q ++ [c])) s, [])
      | Some _ => Some (s, [Refused c])
      | None => None
      end
  | HvAccept true =>                                  (* axum serves every connection *)
      match sv_http s with
      | Some (HListen (c :: q)) => Some (put_http (HListen q) s, [ServedHttp c])
      | _ => None
      end
  | HvAccept false =>                                 (* axum tries again after an error *)
      match sv_http s with Some (HListen q) => Some (s, []) | _ => None end
  | LvTick d => if tick_ok d s then Some (Server (sv_now s + d) (sv_tasks s) (sv_http s), []) else None
  end.

(** rt.rs:150-153: the process ends when every task has ended; accept loops never end. *)
Definition ended (s : server) : bool :=
  match sv_tasks s with [] => match sv_http s with None | Some HEnded => true | _ => false end | _ => false end.

(** ** The [start] command *)

(** An error message and exit, a panic, or a server with these loops, HTTP endpoint and
    passwords. *)
Inductive started := SFail | SPanic | SRun (loops : list conn_args) (http : bool) (passwords : table).

(** main.rs:97-125.  [conf]: what the configuration file parses to, if it can be read and
    parsed.  [file]: the contents of the password file, if it can be read. *)
Definition start_command (reuse : bool) (conf : option (full_config * listeners * bool)) (file : option text) : started :=
  match conf with
  | None => SFail
  | Some (c, ls, http) =>
      if negb (is_valid c) then SFail
      else
        match (if fc_auth c then
                 if fc_password_file c then
                   match file with Some f => match load_passwords f with Some t => inl t | None => inr SFail end | None => inr SFail end
                 else inr SPanic
               else inl []) with
        | inr r => r
        | inl t => match start reuse ls with None => SFail | Some loops => SRun loops http t end
        end
  end.

(** config.rs:183-250 [Config::default] and [Config::new_allow_anonymous], printed by the
    [default-config] command (main.rs:126-133).  That printing and reading YAML give the
    same configuration back is taken from serde. *)
Definition default_listeners : listeners := Listeners (Some (Listener true None)) None None None.
Definition default_config (anonymous : bool) : full_config :=
  FullConfig config_default (negb anonymous) (negb anonymous) [(lit "user", ScramUser (lit "***") 4096 (lit "salt"))] [MScram256] false
    [true; false; false; false; false].
