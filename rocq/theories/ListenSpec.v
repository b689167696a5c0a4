(** Vocabulary for C61: histories of a server process. *)
From Coq Require Import List Bool Arith NArith.
From Verif Require Import Base AcceptModel GlobModel ConfModel ListenModel.
Import ListNotations.
Local Open Scope N_scope.

(** A step: when, what happened, what clients saw.  A history has its latest step last. *)
Definition lpast := (N * lev * list lout)%type.
Inductive lrun (s0 : server) : list lpast -> server -> Prop :=
| lr_start : lrun s0 [] s0
| lr_step h s e s' o : lrun s0 h s -> lstep e s = Some (s', o) -> lrun s0 (h ++ [(sv_now s, e, o)]) s'.

(** Loop [k] accepts connections. *)
Definition listening (k : nat) (s : server) : Prop := exists q, nth_error (sv_tasks s) k = Some (LListen q).
(** The operating system refused loop [k] something at [t]: a socket, or [accept]. *)
Definition failed_at (k : nat) (t : N) (h : list lpast) : Prop :=
  exists o, In (t, LvOpen k false, o) h \/ In (t, LvAccept k false, o) h.
(** Clients that connected to loop [k], those it serves and those that were cut off, in order. *)
Definition connected_to (k : nat) (h : list lpast) : list N :=
  flat_map (fun x => match x with (_, LvArrive j c, []) => if (j =? k)%nat then [c] else [] | _ => [] end) h.
Definition served_by (k : nat) (h : list lpast) : list N :=
  flat_map (fun x => flat_map (fun o => match o with Served j c => if (j =? k)%nat then [c] else [] | _ => [] end) (snd x)) h.
Definition waiting_at (k : nat) (s : server) : list N :=
  match nth_error (sv_tasks s) k with Some (LListen q) => q | _ => [] end.
Definition served_http (h : list lpast) : list N :=
  flat_map (fun x => flat_map (fun o => match o with ServedHttp c => [c] | _ => [] end) (snd x)) h.
(** The loop an event concerns. *)
Definition about (e : lev) : option nat :=
  match e with LvOpen k _ | LvArrive k _ | LvAccept k _ | LvWake k => Some k | _ => None end.

(** The configuration says which listeners there are. *)
Definition is_set {A} (o : option A) : bool := match o with Some _ => true | None => false end.
Definition says (c : full_config) (ls : listeners) (http : bool) : Prop :=
  fc_listeners c = [is_set (ls_mqtt ls); is_set (ls_mqtts ls); is_set (ls_ws ls); is_set (ls_wss ls); http].
