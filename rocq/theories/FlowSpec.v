(** What a connection holds back for a client that reads slowly, as its event trace shows it. *)
From Coq Require Import List NArith.
From Verif Require Import Base OnlineModel OnlineSpec.
Import ListNotations.
Local Open Scope N_scope.

Section Flow.
  Context {P Msg In Err Ctl Act Req Ans S G : Type}.
  Notation iface := (iface P Msg In Err Ctl Act Req Ans S G).
  Notation ev := (ev P Msg Req).

  Definition size {A} (l : list A) : N := N.of_nat (length l).
  (** The bytes of the packets queued for the client. *)
  Definition bytes (i : iface) (t : list ev) : N := size (stream i (queued t)).
  (** Those its socket has not accepted yet. *)
  Definition backlog (i : iface) (t : list ev) : N := bytes i t - size (written t).
  (** No packet queued for the client is longer than [m] bytes on the wire. *)
  Definition up_to (i : iface) (m : N) (t : list ev) : Prop := forall p, List.In p (queued t) -> size (enc i p) <= m.
  (** How often something was taken: a packet off the client's socket or a message
      out of its inbox. *)
  Definition takes (t : list ev) : N := size (filter (fun x => match x with Took => true | _ => false end) t).
  (** What fifteen packets can amount to, or fourteen and a buffer of less than 2048 bytes. *)
  Definition room (m : N) : N := N.max 2047 m + 14 * m.
  (** How many messages wait for a place in other clients' inboxes. *)
  Definition undelivered (i : iface) (s : S) : N := size (List.concat (map snd (i_bc i s))).
  (** [e], except that reading the client's socket yields [rs]. *)
  Definition reading (rs : list (rd In Err Ans)) (e : env Msg In Err Ctl Ans) : env Msg In Err Ctl Ans :=
    Env (e_now e) (e_hook e) (e_ready e) (e_start e) (e_tflush e) rs (e_ctl e) (e_norm e) (e_write e) (e_flush e) (e_chan e) (e_send e)
      (e_write2 e) (e_flush2 e) (e_shut e) (e_slept e) (e_drain e).
End Flow.
