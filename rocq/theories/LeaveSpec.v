(** Share groups that nobody has left (C50, C84): vocabulary. *)
From Coq Require Import List NArith String.
From Verif Require Import Base RouteModel RouteSpec Sess5Model Sess3Model BrokerModel BrokerSpec LifeSpec.
Import ListNotations.
Local Open Scope list_scope.

(** Between [b] and [b'] some session loses a shared subscription: it is on record for the session before, and
    on no record of that session afterwards. *)
Definition left_group (b b' : broker) : Prop :=
  exists k d ms f q, held b k = Some (d, ms) /\ aget f ms = Some q /\ ~ plain f /\ forall k' ms', held b' k' = Some (d, ms') -> aget f ms' = None.
(** In the history [h], which led to [b], nobody left a share group. *)
Fixpoint stayed (h : list past) (b : broker) : Prop :=
  match h with [] => True | p :: h' => ~ left_group (w_b p) b /\ stayed h' (w_b p) end.

(** The next event is not an UNSUBSCRIBE that names a shared filter twice. *)
Definition leaves_once (e : bev) : Prop :=
  match e with
  | EPacket5 _ _ (IUnsub _ fs) | EPacket3 _ _ (YUnsub _ fs) => forall f l1 l2, fs = l1 ++ f :: l2 -> ~ plain f -> ~ In f l1
  | _ => True
  end.
