(** What a connection's event trace shows, and what the loop expects of a session. *)
From Coq Require Import List Bool Arith NArith.
From Verif Require Import Base OnlineModel.
Import ListNotations.
Local Open Scope N_scope.

Section Spec.
  Context {P Msg In Err Ctl Act Req Ans S G : Type}.
  Notation iface := (iface P Msg In Err Ctl Act Req Ans S G).
  Notation ev := (ev P Msg Req).

  (** Packets queued for the client, in order. *)
  Definition queued (t : list ev) : list P :=
    flat_map (fun x => match x with Queued p => [p] | _ => [] end) t.
  (** The bytes its socket accepted, in order. *)
  Definition written (t : list ev) : list N :=
    flat_map (fun x => match x with Wrote b => b | _ => [] end) t.
  (** The wire format of a list of packets. *)
  Definition enc (i : iface) (p : P) : list N := match i_encode i p with Some b => b | None => [] end.
  Definition stream (i : iface) (ps : list P) : list N := flat_map (enc i) ps.

  (** Messages queued for client [d], and those its channel received. *)
  Definition asked_for (d : client_id) (t : list ev) : list Msg :=
    flat_map (fun x => match x with Asked c m => if N.eqb c d then [m] else [] | _ => [] end) t.
  Definition delivered_to (d : client_id) (t : list ev) : list Msg :=
    flat_map (fun x => match x with Delivered c m => if N.eqb c d then [m] else [] | _ => [] end) t.

  (** The bytes not yet written of the packets in the write queue. *)
  Definition unsent_bytes (i : iface) (q : list (wp P)) : list N :=
    flat_map (fun w => match w with Data d k => skipn k d | Pkt p => enc i p end) q.
  (** The messages for [d] not yet accepted by its channel, in order: the one held
      by the channel's sink, then the queue. *)
  Definition hold_of (k : list (client_id * (option Msg * bool))) (d : client_id) : list Msg :=
    match aget d k with Some (Some m, _) => [m] | _ => [] end.
  Definition waiting_for (i : iface) (l : lst P Msg Req S) (d : client_id) : list Msg :=
    hold_of (l_sinks l) d ++ queue_of (i_bc i (l_s l)) d.
  (** During a poll the task registered with a hook or a takeover in progress, or
      woke itself. *)
  Definition held (t : list ev) : Prop := List.In (Waits WHook) t \/ List.In (Waits WTake) t \/ List.In Woke t.

  (** ** What the loop relies on *)

  (** One queue per client, and the count is the number of queued messages. *)
  Definition tidy (i : iface) (s : S) : Prop :=
    NoDup (keys (i_bc i s)) /\
    i_cnt i s = total (i_bc i s).
  (** A handler only adds messages at the ends of the queues. *)
  Definition grows (i : iface) (s s' : S) : Prop :=
    tidy i s -> tidy i s' /\
      incl (keys (i_bc i s)) (keys (i_bc i s')) /\
      forall d, exists ms, queue_of (i_bc i s') d = queue_of (i_bc i s) d ++ ms.

  Record well_behaved (i : iface) : Prop := {
    wb_set : forall b n s, i_bc i (i_set i b n s) = b /\
                           i_cnt i (i_set i b n s) = n;
    wb_decode : forall e s s' out, i_decode_error i e s = Some (s', out) -> grows i s s';
    wb_packet : forall n x s g s' g' out r, i_packet i n x s g = HpOk s' g' out r -> grows i s s';
    wb_packet_err : forall n x s g s' g' out, i_packet i n x s g = HpErr s' g' out -> grows i s s';
    wb_hook : forall n q a s g s' g' out r, i_hook i n q a s g = HpOk s' g' out r -> grows i s s';
    wb_hook_err : forall n q a s g s' g' out, i_hook i n q a s g = HpErr s' g' out -> grows i s s';
    wb_after : forall n s, grows i s (fst (i_after i n s));
    wb_action : forall n a s g s' g' out r, i_action i n a s g = HpOk s' g' out r -> grows i s s';
    wb_action_err : forall n a s g s' g' out, i_action i n a s g = HpErr s' g' out -> grows i s s';
    wb_control : forall n c s g s' g' a b, i_control i n c s g = (s', g', a, b) -> grows i s s';
    wb_normal : forall n f m s g s' g' r, i_normal i n f m s g = (s', g', r) -> grows i s s';
    wb_pendings : forall n s, grows i s (fst (i_pendings i n s))
  }.

  (** A session that is disconnecting stays so. *)
  Record sticky (i : iface) : Prop := {
    st_set : forall b n s, i_disc i s <> None -> i_disc i (i_set i b n s) <> None;
    st_control : forall n c s g s' g' a b, i_control i n c s g = (s', g', a, b) -> i_disc i s <> None -> i_disc i s' <> None;
    st_normal : forall n f m s g s' g' r, i_normal i n f m s g = (s', g', r) -> i_disc i s <> None -> i_disc i s' <> None;
    st_pendings : forall n s, i_disc i s <> None -> i_disc i (fst (i_pendings i n s)) <> None
  }.
End Spec.
