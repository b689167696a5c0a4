(** What a WebSocket connection looks like from outside. *)
From Coq Require Import List Bool Arith.
From Verif Require Import WsModel.
Import ListNotations.

Section Spec.
  Context {byte : Type}.
  (** The MQTT bytes in a sequence of messages. *)
  Definition payload (ms : list (wsmsg byte)) : list byte :=
    flat_map (fun m => match m with MBin b => b | _ => [] end) ms.
  (** The bytes handed to the reader. *)
  Definition bytes_read (t : list (wsev byte)) : list byte :=
    flat_map (fun e => match e with EvRead (RBytes b) => b | _ => [] end) t.
  (** Received, but not yet handed over. *)
  Definition unread (w : ws byte) : list byte := skipn (w_idx w) (w_data w).
  (** The binary messages sent, and the buffers whose writing was reported as done. *)
  Definition bins_sent (t : list (wsev byte)) : list (list byte) :=
    flat_map (fun e => match e with EvSent (OBin b) => [b] | _ => [] end) t.
  Definition accepted (t : list (wsev byte)) : list (list byte) :=
    flat_map (fun e => match e with EvWrite b (WOk n) => [firstn n b] | _ => [] end) t.
  Definition failed (t : list (wsev byte)) : Prop := exists b, In (EvWrite b WErr) t.
  (** Ping messages received, pong messages sent. *)
  Definition pings (ms : list (wsmsg byte)) : list (list byte) :=
    flat_map (fun m => match m with MPing d => [d] | _ => [] end) ms.
  Definition pongs (t : list (wsev byte)) : list (list byte) :=
    flat_map (fun e => match e with EvSent (OPong d) => [d] | _ => [] end) t.
  (** Close messages sent. *)
  Definition closes (t : list (wsev byte)) : nat := length (filter (fun e => match e with EvSent OClose => true | _ => false end) t).
  Inductive subseq {A} : list A -> list A -> Prop :=
  | sub_nil : subseq [] []
  | sub_take x a b : subseq a b -> subseq (x :: a) (x :: b)
  | sub_skip x a b : subseq a b -> subseq a (x :: b).
End Spec.
