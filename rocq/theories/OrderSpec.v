(** Vocabulary for the properties of outgoing messages that hold also when packet
    identifiers come round while they are in use (C09, C13, C14, C15).  Nothing here
    follows a single identifier: messages are matched with transmissions by their
    position in the log. *)
From Coq Require Import List Bool NArith Permutation.
From Verif Require Import Base MsgModel PendingModel OutModel OutSpec.
Import ListNotations.
Local Open Scope N_scope.
Local Open Scope list_scope.

Section Order.
  Context {M W : Type}.
  Variable wpid : W -> option pid.
  Variable wdup : W -> bool.
  Variable carries : N -> N -> M -> W -> Prop.
  Variable lifetime : M -> option N.

  (** [w], sent at [t], carries [m], queued at [t0], and [m] has not expired. *)
  Definition timely (t0 t : N) (m : M) (w : W) : Prop := carries t0 t m w /\ ~ elapsed lifetime t0 t m.

  (** The clock did not go back between transmissions. *)
  Definition steady (log : list (oev M W)) : Prop :=
    forall l1 t s l2 t' s' l3, log = l1 ++ ESent t s :: l2 ++ ESent t' s' :: l3 -> t <= t'.

  (** No message has a lifetime. *)
  Definition lasting (log : list (oev M W)) : Prop := forall t p m, In (t, p, m) (queued log) -> lifetime m = None.

  (** How often a PUBACK or PUBREC for [p] was accepted, and how often a message was
      first transmitted under [p]. *)
  Definition received (p : pid) (log : list (oev M W)) : nat :=
    List.length (filter (fun e => match e with
                                  | EAcked AckPuback _ q true | EAcked AckPubrec _ q true => q =? p
                                  | _ => false end) log).
  Definition first_under (p : pid) (log : list (oev M W)) : nat :=
    List.length (filter (fun s => snd (fst s) =? p) (first_sent wpid wdup log)).
  (** The client confirms nothing it has not been sent. *)
  Definition honest (log : list (oev M W)) : Prop :=
    forall l1 l2 p, log = l1 ++ l2 -> (received p l1 <= first_under p l1)%nat.

  (** Every first transmission is that of a queued message of its own, carries it, and
      comes before that message expires. *)
  Definition all_timely (log : list (oev M W)) : Prop :=
    exists matched rest, Permutation (queued log) (matched ++ rest) /\
      Forall2 (transmits timely) (first_sent wpid wdup log) matched.

  (** The unfinished messages of a queue: identifier, and unless it was received (PUBREC),
      the message with the time it was queued. *)
  Definition unfinished (q : pendq M) : list (pid * option (N * M)) :=
    flat_map (fun s => match s with
                       | PNew t _ p m _ => [(p, Some (t, m))]
                       | PRec _ p => [(p, None)]
                       | PDone => []
                       end) (pq q).
  Definition dead (now : N) (x : pid * option (N * M)) : bool :=
    match snd x with
    | Some (t, m) => match lifetime m with Some v => v <=? now - t | None => false end
    | None => false
    end.
  (** What is transmitted for an unfinished message: the message, or PUBREL. *)
  Definition sends (now : N) (s : sent W) (x : pid * option (N * M)) : Prop :=
    match s, x with
    | SPub w, (p, Some (t, m)) => wpid w = Some p /\ carries t now m w
    | SRel p', (p, None) => p' = p
    | _, _ => False
    end.

  (** The same told by the log, when nothing expires: a queued message is unfinished until
      its PUBACK or PUBCOMP is accepted. *)
  Fixpoint replace_first (f : pid * option (N * M) -> bool) (y l : list (pid * option (N * M))) : list (pid * option (N * M)) :=
    match l with [] => [] | x :: r => if f x then y ++ r else x :: replace_first f y r end.
  Definition to_deliver (p : pid) (x : pid * option (N * M)) : bool := (fst x =? p) && match snd x with Some _ => true | None => false end.
  Definition to_release (p : pid) (x : pid * option (N * M)) : bool := (fst x =? p) && match snd x with Some _ => false | None => true end.
  Definition ledger_step (l : list (pid * option (N * M))) (e : oev M W) : list (pid * option (N * M)) :=
    match e with
    | EQueued t p m => l ++ [(p, Some (t, m))]
    | EAcked AckPuback _ p true => replace_first (to_deliver p) [] l
    | EAcked AckPubrec _ p true => replace_first (to_deliver p) [(p, None)] l
    | EAcked AckPubcomp _ p true => replace_first (to_release p) [] l
    | _ => l
    end.
  Definition ledger (log : list (oev M W)) : list (pid * option (N * M)) := fold_left ledger_step log [].
End Order.

(** ** For MQTT 5 and MQTT 3 *)

(** First transmissions are those of queued messages, in the order of the queue, while the
    clock does not go back.  None is passed over if messages have no lifetime and the client
    confirms only what it was sent. *)
Definition orderly5 (log : list (oev pub5 wpub5)) : Prop :=
  (steady log -> in_order (timely carries5 lifetime5) (first_sent wpid5 w5_dup log) (queued log)) /\
  (lasting lifetime5 log -> honest wpid5 w5_dup log ->
   exists sent_ones waiting, queued log = sent_ones ++ waiting /\ Forall2 (transmits carries5) (first_sent wpid5 w5_dup log) sent_ones).
(** MQTT 3 messages have no lifetime. *)
Definition orderly3 (log : list (oev pub3 wpub3)) : Prop :=
  in_order carries3 (first_sent wpid3 w3_dup log) (queued log) /\
  (honest wpid3 w3_dup log ->
   exists sent_ones waiting, queued log = sent_ones ++ waiting /\ Forall2 (transmits carries3) (first_sent wpid3 w3_dup log) sent_ones).
(** The transmission is in time and announces what is left of the lifetime. *)
Definition announced (s : N * pid * wpub5) (q : N * pid * pub5) : Prop :=
  match s, q with
  | (t, p, w), (t0, p', m) => p = p' /\ carries5 t0 t m w /\
      (forall v, lifetime5 m = Some v -> v < 2 ^ 32 -> t - t0 < v /\ pp_expiry (w5_props w) = Some (v - (t - t0))) /\
      (lifetime5 m = None -> pp_expiry (w5_props w) = None)
  end.
(** Every PUBLISH with an identifier, also a repeated one, carries a message that was queued
    before under that identifier. *)
Definition sourced5 (log : list (oev pub5 wpub5)) : Prop :=
  forall l1 t w p l2, log = l1 ++ ESent t (SPub w) :: l2 -> wpid5 w = Some p -> exists t0 m, In (EQueued t0 p m) l1 /\ carries5 t0 t m w.
Definition sourced3 (log : list (oev pub3 wpub3)) : Prop :=
  forall l1 t w p l2, log = l1 ++ ESent t (SPub w) :: l2 -> wpid3 w = Some p -> exists t0 m, In (EQueued t0 p m) l1 /\ carries3 t0 t m w.

