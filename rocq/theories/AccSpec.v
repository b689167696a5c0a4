(** What becomes of a message between the client that sends it and the client it is for, read
    off the history of a run of the broker (BrokerSpec).  A message is first in the queue that
    the sender's session keeps for the receiver, then among the messages waiting for the
    receiver, then with the receiver's session. *)
From Coq Require Import List Bool NArith.
From Verif Require Import Base MsgModel GlobModel OutModel Sess5Model Sess3Model BrokerModel BrokerSpec DelivSpec InSpec.
Import ListNotations.
Local Open Scope N_scope.
Local Open Scope list_scope.

(** Somebody receives for client [d]. *)
Definition received_for (b : broker) (d : client_id) : bool := match aget d (b_chans b) with Some ch => ch_open ch | None => false end.

(** Step [p] passes a message on to client [d]: the connection it comes from, the client that
    has the connection, and the message. *)
Definition passed (d : client_id) (p : past) : list (N * (client_id * nmsg)) :=
  match w_e p with
  | EFlush k d' =>
      if (d' =? d) && received_for (w_b p) d then
        match sess_at (w_b p) k with
        | Some a => map (fun m => (k, (a_id a, m))) (firstn 1 (queue_of (a_bcast a) d))
        | None => []
        end
      else []
  | _ => []
  end.
(** At step [p] the session of client [d] takes messages that wait for it: one, or all when a
    v3 session is taken over while its client is away. *)
Definition taken (d : client_id) (p : past) : list (client_id * nmsg) :=
  match w_e p with
  | ENormal k =>
      match sess_at (w_b p) k with
      | Some a => if a_id a =? d then firstn 1 (waiting (w_b p) d) else []
      | None => []
      end
  | EControl k =>
      match aget k (b_tasks (w_b p)), aget d (b_chans (w_b p)) with
      | Some (TOffline (A3 s)), Some (Chan (COnline3 _ :: _) ms _) => if z_id s =? d then ms else []
      | _, _ => []
      end
  | _ => []
  end.
(** The same over a history (most recent step first), in the order of time. *)
Fixpoint passed_in (d : client_id) (h : list past) : list (N * (client_id * nmsg)) :=
  match h with [] => [] | p :: h => passed_in d h ++ passed d p end.
Fixpoint taken_in (d : client_id) (h : list past) : list (client_id * nmsg) :=
  match h with [] => [] | p :: h => taken_in d h ++ taken d p end.
(** What connection [k] passed on. *)
Definition passed_by (k : N) (l : list (N * (client_id * nmsg))) : list nmsg :=
  flat_map (fun x => if fst x =? k then [snd (snd x)] else []) l.

(** What the session of connection [k] queued for client [d] at a step from [b] to [b']: the
    end of the queue afterwards. *)
Definition queued (k : N) (d : client_id) (b b' : broker) : list nmsg :=
  match sess_at b k, sess_at b' k with
  | Some a, Some a' => skipn (List.length (queue_of (a_bcast a) d)) (queue_of (a_bcast a') d)
  | _, _ => []
  end.
(** The same over the history that leads to [b]. *)
Fixpoint queued_in (k : N) (d : client_id) (h : list past) (b : broker) : list nmsg :=
  match h with [] => [] | p :: h => queued_in k d h (w_b p) ++ queued k d (w_b p) b end.
(** Connection [k] drops what it has queued for [d], since nobody receives for [d]. *)
Definition cut_off (k : N) (d : client_id) (p : past) : Prop := w_e p = EFlush k d /\ received_for (w_b p) d = false.

(** The messages from other clients among the events of a session. *)
Definition heard5 (l : list (sev5 * list pkt5)) : list nmsg :=
  flat_map (fun x => match fst x with VMsg _ m | VLost _ m => [m] | _ => [] end) l.
Definition heard3 (l : list (sev3 * list pkt3)) : list nmsg :=
  flat_map (fun x => match fst x with UMsg _ m | ULost _ m => [m] | _ => [] end) l.
