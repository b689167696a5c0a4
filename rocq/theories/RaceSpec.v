(** Specification for publishers and subscribers running at the same time. *)
From Coq Require Import List Bool String NArith.
From Verif Require Import Base TopicModel MsgModel RouteModel RetainModel RaceModel.
Import ListNotations.

(** Every interleaving of the tasks [ts], with what happened so far (oldest
    first: which task, what it did). *)
Inductive races (ts : list task) : list (nat * event) -> world -> Prop :=
| races_start : races ts [] (world_new ts)
| races_step tr w i e w' : races ts tr w -> race_step i w = Some (e, w') -> races ts (tr ++ [(i, e)]) w'.

(** Tasks that have not begun. *)
Definition fresh (k : task) : Prop :=
  match k with TPub _ _ | TSub _ _ _ _ | TUnsub _ _ => True | _ => False end.

(** The calls made on the routing table, and on the retained store. *)
Definition route_calls (tr : list (nat * event)) : list rop :=
  flat_map (fun ie => match snd ie with VRoute o => [o] | _ => [] end) tr.
Definition retain_calls (tr : list (nat * event)) : list retop :=
  flat_map (fun ie => match snd ie with VKeep (Some o) => [o] | _ => [] end) tr.

(** Publisher [i] gave the message to client [c], because of its plain
    subscription to [f] with QoS [q]. *)
Definition gave (tr : list (nat * event)) (i : nat) (f : string) (c : client_id) (q : qos) : Prop :=
  exists ct, In (i, VRead ct) tr /\ c_filter ct = Some f /\ In (c, q) (c_clients ct).

(** The sets of subscribers publisher [i] read, in order. *)
Definition reads_by (i : nat) (tr : list (nat * event)) : list content :=
  flat_map (fun ie => if Nat.eqb (fst ie) i then match snd ie with VRead ct => [ct] | _ => [] end else []) tr.

(** The filter behind a shared subscription, or the filter itself. *)
Definition bare (f : string) : string := match shared_info f with Some (_, inner) => inner | None => f end.

(** Task [i] has done nothing yet. *)
Definition idle (tr : list (nat * event)) (i : nat) : Prop := forall e, ~ In (i, e) tr.

(** Task [i] has finished a publish without a panic. *)
Definition published (w : world) (i : nat) : Prop := exists x, nth_error (w_tasks w) i = Some (TRead x []).
Definition panicked (w : world) (i : nat) : Prop := nth_error (w_tasks w) i = Some TPanic.

(** A run computed from a schedule. *)
Fixpoint play (sched : list nat) (tr : list (nat * event)) (w : world) : option (list (nat * event) * world) :=
  match sched with
  | [] => Some (tr, w)
  | i :: r => match race_step i w with Some (e, w') => play r (tr ++ [(i, e)]) w' | None => None end
  end.
