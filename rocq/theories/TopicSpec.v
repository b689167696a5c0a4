(** What it means for an MQTT topic filter to match a topic name, written from
    the MQTT 3.1.1 / 5.0 specification (section 4.7), independently of the
    server's tree walks. *)
From Coq Require Import List Bool String Ascii.
From Verif Require Import TopicModel.
Import ListNotations.
Local Open Scope string_scope.

(** [filter_matches fs ts]: filter levels [fs] match topic levels [ts]. *)
Inductive filter_matches : list string -> list string -> Prop :=
| fm_end : filter_matches [] []
| fm_hash ts : filter_matches ["#"] ts                 (* parent level and everything below *)
| fm_plus t fs ts : filter_matches fs ts -> filter_matches ("+" :: fs) (t :: ts)
| fm_literal l fs ts : l <> "+" -> l <> "#" ->
    filter_matches fs ts -> filter_matches (l :: fs) (l :: ts).

Definition begins_with_wildcard (f : string) : Prop :=
  exists r, f = String "+"%char r \/ f = String "#"%char r.
Definition begins_with_dollar (t : string) : Prop := exists r, t = String "$"%char r.

(** [topic_matches f t]: the plain filter [f] matches the topic name [t].
    [MQTT-4.7.2-1]: a wildcard at the start does not match a '$' topic. *)
Definition topic_matches (f t : string) : Prop :=
  filter_matches (levels f) (levels t) /\
  (begins_with_dollar t -> ~ begins_with_wildcard f).

(** Topic names contain no wildcard character (checked by mqtt-proto). *)
Fixpoint has_char (c : ascii) (s : string) : bool :=
  match s with "" => false | String d r => Ascii.eqb d c || has_char c r end.
Definition valid_topic_name (t : string) : Prop :=
  has_char "+" t = false /\ has_char "#" t = false.

(** Topic filters: "#" only as the last level, wildcards only as whole levels. *)
Definition plain_level (l : string) : Prop := has_char "+" l = false /\ has_char "#" l = false.
Inductive valid_levels : list string -> Prop :=
| vl_nil : valid_levels []
| vl_hash : valid_levels ["#"]
| vl_plus r : valid_levels r -> valid_levels ("+" :: r)
| vl_lit l r : plain_level l -> valid_levels r -> valid_levels (l :: r).
Definition valid_filter (f : string) : Prop := valid_levels (levels f).
