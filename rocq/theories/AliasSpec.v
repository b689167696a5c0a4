(** A client that follows the topic alias rules of MQTT 5 (3.3.2.3.4), for C16. *)
From Coq Require Import List Bool String NArith.
From Verif Require Import Base MsgModel OutModel OutSpec.
Import ListNotations.
Local Open Scope N_scope.

(** Reading one PUBLISH with the aliases known so far on this connection: the
    topic, if the packet is valid, and the aliases known afterwards. *)
Definition client_read (amax : N) (known : list (N * string)) (w : wpub5) : option string * list (N * string) :=
  match pp_alias (w5_props w) with
  | None => (if String.eqb (w5_topic w) "" then None else Some (w5_topic w), known)
  | Some a =>
      if (a =? 0) || (amax <? a) then (None, known)
      else if String.eqb (w5_topic w) "" then (aget a known, known)
      else (Some (w5_topic w), aset a (w5_topic w) known)
  end.

(** Every PUBLISH of a log with the topic the client finds.  [maxima] are the
    Topic Alias Maximum values of the successive connections. *)
Fixpoint client_reads (maxima : list N) (amax : N) (known : list (N * string))
    (log : list (oev pub5 wpub5)) : list (wpub5 * option string) :=
  match log with
  | [] => []
  | EConn _ :: r =>
      match maxima with
      | m :: ms => client_reads ms m [] r
      | [] => client_reads [] 0 [] r
      end
  | ESent _ (SPub w) :: r =>
      let '(t, known') := client_read amax known w in (w, t) :: client_reads maxima amax known' r
  | _ :: r => client_reads maxima amax known r
  end.

Definition alias_maxima (amax : N) (ops : list op5) : list N :=
  amax :: flat_map (fun op => match op with O5Resume _ a => [a] | _ => [] end) ops.

(** Message [op] has this topic, and [w] is a copy of it up to topic, alias,
    packet identifier, DUP and expiry. *)
Definition copy_of (topic : string) (w : wpub5) (op : op5) : Prop :=
  match op with
  | O5Msg _ x =>
      topic = p5_topic x /\ w5_payload w = p5_payload x /\ w5_retain w = p5_retain x /\
      qp_qos (w5_qp w) = p5_qos x /\ pp_subids (w5_props w) = pp_subids (p5_props x) /\
      pp_other (w5_props w) = pp_other (p5_props x)
  | O5Zero _ t retain payload props =>
      topic = t /\ w5_payload w = payload /\ w5_retain w = retain /\ w5_qp w = Q0 /\
      pp_subids (w5_props w) = pp_subids props /\ pp_other (w5_props w) = pp_other props
  | _ => False
  end.

(** Messages to deliver have a topic and no alias of their own. *)
Definition plain_topic (op : op5) : Prop :=
  match op with
  | O5Msg _ x => p5_topic x <> ""%string /\ pp_alias (p5_props x) = None
  | O5Zero _ t _ _ props => t <> ""%string /\ pp_alias props = None
  | _ => True
  end.
