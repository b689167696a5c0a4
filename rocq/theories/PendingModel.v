(** The queue of QoS 1 and QoS 2 messages of one session.
    Models protocols/mqtt/pending.rs.

    Simplifications: [VecDeque] is a list and its capacity management
    (pending.rs:99-107) is left out; [get_unix_ts()] is the argument [now]; the
    64-bit sum [timeout + last_sent] (pending.rs:121, 127) does not overflow. *)
From Coq Require Import List Bool Arith NArith.
From Verif Require Import Base.
Import ListNotations.
Local Open Scope N_scope.

(** pending.rs:161-180 [PendingPacketStatus] *)
Inductive pstatus (P : Type) :=
| PNew (added_at last_sent : N) (p : pid) (packet : P) (dup : bool)
| PRec (last_sent : N) (p : pid)
| PDone.
Arguments PNew {P}. Arguments PRec {P}. Arguments PDone {P}.

(** pending.rs:11-17 [PendingPackets] *)
Record pendq (P : Type) := PendQ {
  pq_inflight : N;                (* max_inflight : u16 *)
  pq_max : N;                     (* max_packets *)
  pq_timeout : N;                 (* timeout, seconds *)
  pq : list (pstatus P)
}.
Arguments PendQ {P}. Arguments pq_inflight {P}. Arguments pq_max {P}. Arguments pq_timeout {P}. Arguments pq {P}.

Section Pending.
  Context {P : Type}.

  (** The entries replaced (no code of its own; pending.rs changes them in place). *)
  Definition pq_set (q : pendq P) (l : list (pstatus P)) : pendq P :=
    PendQ (pq_inflight q) (pq_max q) (pq_timeout q) l.

  (** pending.rs:30-47 [push_back]: the flag is "the queue was full, dropped". *)
  Definition push_back (now : N) (p : pid) (packet : P) (q : pendq P) : pendq P * bool :=
    if pq_max q <=? N.of_nat (length (pq q)) then (q, true)
    else (pq_set q (pq q ++ [PNew now 0 p packet false]), false).

  (** pending.rs:50, 71, 115: [cmp::min(self.max_inflight as usize, self.packets.len())] *)
  Definition current_inflight (q : pendq P) : nat :=
    N.to_nat (N.min (pq_inflight q) (N.of_nat (length (pq q)))).

  (** The loops of [pubrec] and [complete]: the first of the leading [n] entries
      that satisfies [f] is replaced by [g] of it. *)
  Fixpoint update_first (n : nat) (f : pstatus P -> bool) (g : pstatus P -> pstatus P)
      (l : list (pstatus P)) : list (pstatus P) * bool :=
    match n, l with
    | S n', x :: r =>
        if f x then (g x :: r, true)
        else let '(r', b) := update_first n' f g r in (x :: r', b)
    | _, _ => (l, false)
    end.

  Definition is_new (t : pid) (s : pstatus P) : bool :=
    match s with PNew _ _ p _ _ => p =? t | _ => false end.
  Definition is_rec (t : pid) (s : pstatus P) : bool :=
    match s with PRec _ p => p =? t | _ => false end.

  (** pending.rs:49-68 [pubrec] *)
  Definition pend_pubrec (now : N) (t : pid) (q : pendq P) : pendq P * bool :=
    let '(l, b) := update_first (current_inflight q) (is_new t) (fun _ => PRec now t) (pq q) in
    (pq_set q l, b).

  (** pending.rs:70-91 [complete] *)
  Definition pend_complete (t : pid) (qs : qos) (q : pendq P) : pendq P * bool :=
    let hit s := match qs with L1 => is_new t s | L2 => is_rec t s | L0 => false end in
    let '(l, b) := update_first (current_inflight q) hit (fun _ => PDone) (pq q) in
    (pq_set q l, b).

  (** pending.rs:93-108 [clean_complete] *)
  Fixpoint drop_done (l : list (pstatus P)) : list (pstatus P) :=
    match l with PDone :: r => drop_done r | _ => l end.
  Definition clean_complete (q : pendq P) : pendq P := pq_set q (drop_done (pq q)).

  (** pending.rs:119-131: is this entry due? *)
  Definition due (now timeout : N) (s : pstatus P) : bool :=
    match s with
    | PNew _ last _ _ _ => timeout + last <=? now
    | PRec last _ => timeout + last <=? now
    | PDone => false
    end.

  (** pending.rs:110-136 [get_ready_packet]: the index of the first due entry in
      [start_idx..current_inflight]. *)
  Definition get_ready_packet (now : N) (start : nat) (q : pendq P) : option nat :=
    find (fun i => match nth_error (pq q) i with Some s => due now (pq_timeout q) s | None => false end)
         (seq start (current_inflight q - start)).

  (** pending.rs:146-148 [set_max_inflight] *)
  Definition set_max_inflight (v : N) (q : pendq P) : pendq P :=
    PendQ v (pq_max q) (pq_timeout q) (pq q).

  (** pending.rs:150-158 [reset_last_sent] *)
  Definition reset_status (s : pstatus P) : pstatus P :=
    match s with
    | PNew a _ p x d => PNew a 0 p x d
    | PRec _ p => PRec 0 p
    | PDone => PDone
    end.
  Definition reset_last_sent (q : pendq P) : pendq P := pq_set q (map reset_status (pq q)).

  Fixpoint set_nth (i : nat) (s : pstatus P) (l : list (pstatus P)) : list (pstatus P) :=
    match l, i with
    | [], _ => []
    | _ :: r, O => s :: r
    | x :: r, S j => x :: set_nth j s r
    end.

  (** The loop shared by the two [handle_pendings] (v5/packet/common.rs:166-231,
      v3/packet/common.rs:27-58):
      [while let Some((idx, status)) = get_ready_packet(start_idx)].  [body] is the
      loop's match on the status: it returns the new status, the sender's auxiliary
      state, the packets pushed and the pids pushed on [expired_packets].
      [None]: the fuel ran out or the index was out of range (proved impossible:
      [PendingProofs.pend_loop_pass]). *)
  Section Loop.
    Context {A W : Type}.
    Variable body : pstatus P -> A -> pstatus P * A * list W * list pid.

    Fixpoint pend_loop (fuel : nat) (now : N) (start : nat) (q : pendq P) (a : A)
        (outs : list W) (expired : list pid) : option (pendq P * A * list W * list pid) :=
      match fuel with
      | O => None
      | S f =>
          match get_ready_packet now start q with
          | None => Some (q, a, outs, expired)
          | Some i =>
              match nth_error (pq q) i with
              | None => None
              | Some s =>
                  let '(s', a', o, e) := body s a in
                  pend_loop f now (S i) (pq_set q (set_nth i s' (pq q))) a' (outs ++ o) (expired ++ e)
              end
          end
      end.
  End Loop.
End Pending.

(** [Pid += 1] (mqtt-proto, assumed): packet identifiers run 1..65535 and wrap to 1. *)
Definition pid_first : pid := 1.
Definition pid_next (p : pid) : pid := if p =? 65535 then 1 else p + 1.
