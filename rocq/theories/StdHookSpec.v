(** Vocabulary for C60: what a client, the other clients and the socket see of a poll of the
    event loop. *)
From Coq Require Import List Bool NArith.
From Verif Require Import Base OnlineModel.
Import ListNotations.

(** Everything of the trace except that a message was put into a queue inside the session
    and that the application was asked. *)
Definition visible {P Msg Req} (t : list (ev P Msg Req)) : list (ev P Msg Req) :=
  filter (fun x => match x with Asked _ _ | Requested _ => false | _ => true end) t.
(** Whenever a packet is read for which a question may be asked, the answer to it comes at once. *)
Definition prompt_answers {Msg X Err Ctl Req Ans} (asks : Req -> X -> Prop) (answer : Req -> Ans) (e : env Msg X Err Ctl Ans) : Prop :=
  forall x h, In (RdPacket x h) (e_read e) -> forall q, asks q x -> h = HDone (answer q).
