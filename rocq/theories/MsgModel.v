(** Messages and packets.  Models the parts of mqtt-proto's packet types and of
    the internal message types that the server reads or writes. *)
From Coq Require Import List Bool String Ascii NArith.
From Verif Require Import Base TopicModel.
Import ListNotations.
Local Open Scope string_scope.

(** mqtt-proto v5 [PublishProperties].  The properties the server only copies
    (payload_is_utf8, response_topic, correlation_data, user_properties,
    content_type) are one opaque value [pp_other]. *)
Record pprops := PProps {
  pp_expiry : option N;            (* message_expiry_interval *)
  pp_alias : option N;             (* topic_alias *)
  pp_subids : list N;              (* subscription_ids *)
  pp_other : string
}.
Definition pprops_default : pprops := PProps None None [] "".

Definition set_expiry (e : option N) (p : pprops) : pprops := PProps e (pp_alias p) (pp_subids p) (pp_other p).
Definition set_alias (a : option N) (p : pprops) : pprops := PProps (pp_expiry p) a (pp_subids p) (pp_other p).
Definition set_subids (l : list N) (p : pprops) : pprops := PProps (pp_expiry p) (pp_alias p) l (pp_other p).

(** mqtt-proto [QosPid] *)
Inductive qospid := Q0 | Q1 (p : pid) | Q2 (p : pid).
Definition qp_qos (x : qospid) : qos := match x with Q0 => L0 | Q1 _ => L1 | Q2 _ => L2 end.
Definition qp_make (q : qos) (p : pid) : qospid := match q with L0 => Q0 | L1 => Q1 p | L2 => Q2 p end.

(** mqtt-proto v5 [Publish], as received or sent. *)
Record wpub5 := WPub5 {
  w5_dup : bool; w5_qp : qospid; w5_retain : bool;
  w5_topic : string; w5_payload : string; w5_props : pprops
}.

(** mqtt-proto v3 [Publish]. *)
Record wpub3 := WPub3 {
  w3_dup : bool; w3_qp : qospid; w3_retain : bool; w3_topic : string; w3_payload : string
}.

(** v5/session.rs:171-177 [PubPacket]: a message waiting in the pending queue. *)
Record pub5 := Pub5 {
  p5_topic : string; p5_qos : qos; p5_retain : bool; p5_payload : string; p5_props : pprops
}.

(** v3/session.rs:99-104 [PubPacket]. *)
Record pub3 := Pub3 { p3_topic : string; p3_qos : qos; p3_retain : bool; p3_payload : string }.
