(** Vocabulary for the order of QoS 0 messages (C86). *)
From Coq Require Import List Bool NArith String.
From Verif Require Import Base MsgModel GlobModel Sess5Model Sess3Model InSpec LinkSpec AccSpec PubOrderSpec.
Import ListNotations.
Local Open Scope list_scope.

(** The QoS 0 PUBLISH packets among some packets. *)
Definition zero5 (out : list pkt5) : list wpub5 :=
  flat_map (fun k => match k with KPub w => match w5_qp w with Q0 => [w] | _ => [] end | _ => [] end) out.
Definition zero3 (out : list pkt3) : list wpub3 :=
  flat_map (fun k => match k with JPub w => match w3_qp w with Q0 => [w] | _ => [] end | _ => [] end) out.

(** The QoS 0 PUBLISH packets a session wrote, in this order.  Each comes with the number of the
    message the session was just handed, or [None] if it was handed none ([from5], PubOrderSpec).
    [before] are the events before those of [l]. *)
Fixpoint zeros5 (before l : list (sev5 * list pkt5)) : list (wpub5 * option nat) :=
  match l with
  | [] => []
  | x :: l => map (fun w => (w, from5 before (fst x))) (zero5 (snd x)) ++ zeros5 (before ++ [x]) l
  end.
Fixpoint zeros3 (before l : list (sev3 * list pkt3)) : list (wpub3 * option nat) :=
  match l with
  | [] => []
  | x :: l => map (fun w => (w, from3 before (fst x))) (zero3 (snd x)) ++ zeros3 (before ++ [x]) l
  end.

(** The numbers, in this order. *)
Definition numbers {W} (z : list (W * option nat)) : list nat :=
  flat_map (fun x => match snd x with Some n => [n] | None => [] end) z.
