(** What it takes for a connection that is over to be cleared away.  Stated on the states of a
    run of the broker (BrokerSpec). *)
From Coq Require Import List Bool NArith.
From Verif Require Import Base MsgModel GlobModel OutModel Sess5Model Sess3Model BrokerModel BrokerSpec DelivSpec.
Import ListNotations.
Local Open Scope N_scope.
Local Open Scope list_scope.

(** Connection [k] is over, or a timer woke its session while the client is away, and session
    [a] still has to pass on the messages it has queued for other clients. *)
Definition ending (b : broker) (k : N) (a : sess) : Prop :=
  aget k (b_tasks b) = Some (TDrain a) \/ exists stop, aget k (b_tasks b) = Some (TOffDrain a stop).
(** Task [j] takes the messages that wait for its client: the client is connected, or away. *)
Definition takes (b : broker) (j : N) (a : sess) : Prop :=
  (aget j (b_tasks b) = Some (TOnline a) /\ a_disc a = false) \/ aget j (b_tasks b) = Some (TOffline a).

(** The inbox of a client holds at most this many messages. *)
Definition inbox : nat := 8.
(** The connections [ks] are over, and each of them has a message for a client whose inbox is
    full and whose session is held by one of them. *)
Definition circle (b : broker) (ks : list N) : Prop :=
  forall k, In k ks -> exists a d j a', ending b k a /\ queue_of (a_bcast a) d <> [] /\
    (inbox <= List.length (waiting b d))%nat /\ In j ks /\ ending b j a' /\ a_id a' = d.

(** Nothing stands in the way of what session [a] of connection [k] has for client [d]: nobody
    receives for [d], or all of it fits into the inbox, or somebody else empties the inbox. *)
Definition clear_way (b : broker) (k : N) (a : sess) (d : client_id) : Prop :=
  (exists ch, aget d (b_chans b) = Some ch /\ ch_open ch = false) \/
  (List.length (waiting b d) + List.length (queue_of (a_bcast a) d) <= inbox)%nat \/
  (exists j a', j <> k /\ takes b j a' /\ a_id a' = d).

(** How much connection [k] still has to do: its messages and the clients it has some for. *)
Definition work (a : sess) : nat := fold_right (fun q n => (1 + List.length (snd q) + n)%nat) 0%nat (a_bcast a).
Definition work_at (b : broker) (k : N) : nat := match sess_at b k with Some a => work a | None => 0%nat end.

(** Connection [k] is cleared away by its last step: the client is removed, or is away from now
    on and its session waits for it. *)
Definition cleared (b : broker) (k : N) (a : sess) : Prop :=
  aget k (b_tasks b) = None \/ exists a', aget k (b_tasks b) = Some (TOffline a') /\ a_id a' = a_id a /\ a_ident a' = a_ident a.

(** What others do while connection [k] passes on what it has: connection [k] hands a message
    over, another session takes one from its inbox. *)
Definition helps (k : N) (e : bev) : Prop := (exists d, e = EFlush k d) \/ (exists j, j <> k /\ e = ENormal j).
