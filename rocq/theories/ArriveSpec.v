(** Vocabulary for the order in which the messages of a session reach its client (C85).

    What the server transmits on one connection travels in order.  The client takes it
    from the front, as far as it likes; when the next connection begins, what is still
    under way is lost. *)
From Coq Require Import List Bool NArith.
From Verif Require Import Base MsgModel PendingModel OutModel OutSpec CliSpec.
Import ListNotations.
Local Open Scope list_scope.

Section Arrive.
  Context {M W : Type}.
  Variable wpid : W -> option pid.
  Variable carries : N -> N -> M -> W -> Prop.

  (** What is under way after an event of the log. *)
  Definition under_way (d : list (sent W)) (e : oev M W) : list (sent W) :=
    match e with EConn _ => [] | ESent _ s => d ++ [s] | _ => d end.

  (** [arrives log d r]: after [log], [d] is under way and the client has received [r], in
      this order, over all its connections. *)
  Inductive arrives : list (oev M W) -> list (sent W) -> list (sent W) -> Prop :=
  | ar_nil : arrives [] [] []
  | ar_event log d r e : arrives log d r -> arrives (log ++ [e]) (under_way d e) r
  | ar_take log s d r : arrives log (s :: d) r -> arrives log d (r ++ [s]).

  (** The PUBLISH packets with QoS 1 or 2. *)
  Definition pubs (r : list (sent W)) : list W :=
    flat_map (fun s => match s with SPub w => match wpid w with Some _ => [w] | None => [] end | SRel _ => [] end) r.

  (** [w] carries the message that was queued as number [i], under its identifier. *)
  Definition shows (log : list (oev M W)) (w : W) (i : nat) : Prop :=
    exists t p m t', nth_error (queued log) i = Some (t, p, m) /\ wpid w = Some p /\ carries t t' m w.

  (** Every number that has not come before is greater than all that have. *)
  Definition first_in_order (x : list nat) : Prop :=
    forall a i b, x = a ++ i :: b -> In i a \/ Forall (fun j => (j < i)%nat) a.

  (** Messages reach the client for the first time in the order in which they were queued. *)
  Definition arrive_in_order (log : list (oev M W)) : Prop :=
    forall d r, arrives log d r -> exists x, Forall2 (shows log) (pubs r) x /\ first_in_order x.
End Arrive.

(** With QoS 1 every PUBLISH that arrives is given to the application.  The application gets the
    messages, each for the first time, in the order in which they were queued; [met] is the client
    of CliSpec that also acknowledges them. *)
Definition with_qos1 {W} (wqp : W -> qospid) (l : list W) : list W := filter (fun w => match wqp w with Q1 _ => true | _ => false end) l.
Definition given_in_order {M W} (wqp : W -> qospid) (carries : N -> N -> M -> W -> Prop) (log : list (oev M W)) : Prop :=
  let wpid := fun w => qp_pid (wqp w) in
  let in_order l := exists x, Forall2 (shows wpid carries log) (with_qos1 wqp l) x /\ first_in_order x in
  (forall d r, arrives log d r -> in_order (pubs wpid r)) /\
  (forall c, met wqp client_new log c -> in_order (c_app c)).

(** With QoS 2: each at most once, and in the order in which they were queued. *)
Definition with_qos2 {W} (wqp : W -> qospid) (l : list W) : list W := filter (fun w => match wqp w with Q2 _ => true | _ => false end) l.
Definition each_once_in_order (x : list nat) : Prop := forall a i b, x = a ++ i :: b -> Forall (fun j => (j < i)%nat) a.
Definition given_once_in_order {M W} (wqp : W -> qospid) (carries : N -> N -> M -> W -> Prop) (log : list (oev M W)) : Prop :=
  forall c, met wqp client_new log c ->
  exists x, Forall2 (shows (fun w => qp_pid (wqp w)) carries log) (with_qos2 wqp (c_app c)) x /\ each_once_in_order x.
