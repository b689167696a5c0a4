(** Specification of the routing table: a history of subscribe/unsubscribe calls
    determines, for every (filter, client), the QoS of the subscription. *)
From Coq Require Import List Bool String NArith.
From Verif Require Import Base TopicModel RouteModel.
Import ListNotations.

(** The subscription of [c] to the filter string [f] after history [h] (oldest
    call first): the QoS of the last call naming ([f], [c]) if that was a
    subscribe. *)
Definition current (h : list rop) (f : string) (c : client_id) : option qos :=
  fold_left (fun cur o =>
    match o with
    | Sub f' c' q => if String.eqb f' f && N.eqb c' c then Some q else cur
    | Unsub f' c' => if String.eqb f' f && N.eqb c' c then None else cur
    end) h None.

(** A filter that is not of the form "$share/<group>/<filter>". *)
Definition plain (f : string) : Prop := shared_info f = None.

(** The full filter string of group [g] on [inner]. *)
Definition share_filter (g inner : string) : string :=
  ("$share" ++ String slash (g ++ String slash inner))%string.

(** The members of a shared group in the order the server keeps them: joining
    appends, leaving moves the last member into the freed place. *)
Definition leave (c : client_id) (l : list client_id) : list client_id :=
  if existsb (N.eqb c) l then
    match rev l with
    | [] => []
    | z :: r => if N.eqb c z then rev r
                else map (fun x => if N.eqb x c then z else x) (rev r)
    end
  else l.

Definition members (h : list rop) (f : string) : list client_id :=
  fold_left (fun l o =>
    match o with
    | Sub f' c _ => if String.eqb f' f then (if existsb (N.eqb c) l then l else l ++ [c]) else l
    | Unsub f' c => if String.eqb f' f then leave c l else l
    end) h [].

(** The trigger of the index defect: the member in the last place of a shared
    group with at least two members leaves it. *)
Definition last_member_leaves (h : list rop) : Prop :=
  exists h1 f c h2 l, h = h1 ++ Unsub f c :: h2 /\ ~ plain f /\
    members h1 f = l ++ [c] /\ l <> [].

(** What a user of the lookup sees: entry for the plain subscription of [c] to
    [f] with QoS [q]. *)
Definition routes_to (t : route_table) (topic f : string) (c : client_id) (q : qos) : Prop :=
  exists ct, In ct (rt_get_matches t topic) /\ c_filter ct = Some f /\ In (c, q) (c_clients ct).

(** The lookup offers the shared group [g] on filter [inner] with members [s]. *)
Definition offers_group (t : route_table) (topic inner g : string) (s : shared) : Prop :=
  exists ct, In ct (rt_get_matches t topic) /\ c_filter ct = Some inner /\ In (g, s) (c_groups ct).
