(** Specification for C63: the features a server does not offer (protocol 5 announces them in
    CONNACK: Maximum QoS, Retain / Wildcard / Shared Subscription / Subscription Identifier
    Available). *)
From Coq Require Import List NArith String.
From Verif Require Import Base TopicModel MsgModel RouteModel RouteSpec GlobModel Sess5Model Sess3Model.
Import ListNotations.
Local Open Scope N_scope.

(** A filter with a wildcard character. *)
Definition wild (f : string) : Prop := exists a b, f = (a ++ "+" ++ b)%string \/ f = (a ++ "#" ++ b)%string.

(** A subscription a server with configuration [cfg] may have accepted. *)
Definition allowed_sub (cfg : config) (f : string) (q : qos) (id : option N) : Prop :=
  qos_num q <= cf_max_qos cfg /\
  (wild f -> cf_wildcard cfg = true) /\
  (~ plain f -> cf_shared cfg = true) /\
  (id <> None -> cf_subid cfg = true).

(** A will it may have accepted. *)
Definition allowed_will (cfg : config) (q : qos) (retain : bool) : Prop :=
  qos_num q <= cf_max_qos cfg /\ (retain = true -> cf_retain cfg = true).
