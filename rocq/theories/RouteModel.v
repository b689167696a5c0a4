(** Routing table.  Models protocols/mqtt/route.rs.

    The nested [RwLock]s and [Arc]s are dropped: every operation holds the
    top-level lock of [RouteTable::nodes] for its whole duration (route.rs:42,
    79-83, 101), so operations are atomic.  What [get_matches] returns is a list
    of shared pointers in the code; here it is a list of the contents at that
    moment.  The race between a lookup and the later reading of its result is
    modelled separately in RaceModel. *)
From Coq Require Import List Bool String Ascii NArith.
From Verif Require Import Base TopicModel.
Import ListNotations.

(** route.rs:30-35 [SharedClients] (the hash builder is an argument of the
    selection functions below). *)
Record shared := Shared {
  sh_items : list (client_id * qos);
  sh_index : list (client_id * nat)
}.

(** route.rs:22-28 [RouteContent] *)
Record content := Content {
  c_filter : option string;
  c_clients : list (client_id * qos);
  c_groups : list (string * shared)
}.

(** route.rs:17-20 [RouteNode] *)
Inductive rnode := RNode (ct : content) (kids : list (string * rnode)).
Definition r_content (n : rnode) : content := match n with RNode c _ => c end.
Definition r_kids (n : rnode) : list (string * rnode) := match n with RNode _ k => k end.

(** route.rs:13-15 [RouteTable] *)
Definition route_table := list (string * rnode).

(** route.rs:237-239 *)
Definition content_is_empty (c : content) : bool := is_nil (c_clients c) && is_nil (c_groups c).

(** route.rs:112-121 [RouteNode::new] *)
Definition content_new : content := Content None [] [].
Definition rnode_new : rnode := RNode content_new [].

(** Replace the element at an index; [None] when out of range (a panic of the
    slice index). *)
Fixpoint list_set {A} (i : nat) (x : A) (l : list A) : option (list A) :=
  match l, i with
  | [], _ => None
  | _ :: r, O => Some (x :: r)
  | y :: r, S j => option_map (cons y) (list_set j x r)
  end.

(** [Vec::swap_remove]: the removed element is replaced by the last one; [None]
    when the index is out of range (it panics). *)
Definition swap_remove {A} (i : nat) (l : list A) : option (list A) :=
  match rev l with
  | [] => None
  | x :: r =>
      if Nat.eqb i (List.length l - 1) then Some (rev r)
      else list_set i x (rev r)
  end.

Definition sh_empty : shared := Shared [] [].
Definition sh_is_empty (s : shared) : bool := is_nil (sh_items s).

(** route.rs:259-266 [SharedClients::insert].  The boolean is "panicked": the
    index [self.items[*idx]] is checked before anything is written. *)
Definition sh_insert (s : shared) (id : client_id) (q : qos) : shared * bool :=
  match aget id (sh_index s) with
  | Some idx =>
      match nth_error (sh_items s) idx with
      | Some (old_id, _) =>
          (* self.items[*idx].1 = item.1 : only the QoS is written *)
          match list_set idx (old_id, q) (sh_items s) with
          | Some items' => (Shared items' (sh_index s), false)
          | None => (s, true)
          end
      | None => (s, true)
      end
  | None =>
      (Shared (sh_items s ++ [(id, q)]) (aset id (List.length (sh_items s)) (sh_index s)), false)
  end.

(** route.rs:268-281 [SharedClients::remove].  [index.remove] happens first, so a
    panicking [swap_remove] leaves the index entry removed.  Capacity shrinking
    has no observable effect and is dropped. *)
Definition sh_remove (s : shared) (id : client_id) : shared * bool :=
  match aget id (sh_index s) with
  | None => (s, false)
  | Some idx =>
      let index1 := adel id (sh_index s) in
      if Nat.eqb (List.length (sh_items s)) 1 then (Shared [] index1, false)
      else
        match rev (sh_items s) with
        | [] => (Shared (sh_items s) index1, true)         (* expect("shared items") *)
        | (last_id, _) :: _ =>
            match swap_remove idx (sh_items s) with
            | Some items' => (Shared items' (aset last_id idx index1), false)
            | None => (Shared (sh_items s) index1, true)
            end
        end
  end.

(** route.rs:248-253 [SharedClients::get_by_number]; [None] is the division by
    zero / index panic on an empty group. *)
Definition sh_get_by_number (s : shared) (number : N) : option (client_id * qos) :=
  match sh_items s with
  | [] => None
  | _ => nth_error (sh_items s) (N.to_nat (N.modulo number (N.of_nat (List.length (sh_items s)))))
  end.

(** route.rs:174-186: the leaf part of [RouteNode::insert]. *)
Definition content_insert (c : content) (flt : string) (id : client_id) (q : qos)
    (group : option string) : content * bool :=
  let tf := match c_filter c with None => Some flt | Some f => Some f end in
  match group with
  | Some name =>
      let s := match aget name (c_groups c) with Some s => s | None => sh_empty end in
      let '(s', p) := sh_insert s id q in
      (Content tf (c_clients c) (aset name s' (c_groups c)), p)
  | None => (Content tf (aset id q (c_clients c)) (c_groups c), false)
  end.

(** route.rs:158-188 [RouteNode::insert] *)
Fixpoint node_insert (rest : list string) (flt : string) (id : client_id) (q : qos)
    (group : option string) (n : rnode) : rnode * bool :=
  match rest with
  | [] =>
      let '(c', p) := content_insert (r_content n) flt id q group in
      (RNode c' (r_kids n), p)
  | item :: rest' =>
      let child := match aget item (r_kids n) with Some m => m | None => rnode_new end in
      let '(child', p) := node_insert rest' flt id q group child in
      (RNode (r_content n) (aset item child' (r_kids n)), p)
  end.

(** route.rs:70-84 [subscribe_shared] *)
Definition subscribe_shared (t : route_table) (flt : string) (id : client_id) (q : qos)
    (group : option string) : route_table * bool :=
  match levels flt with
  | [] => (t, true)                                   (* unreachable: [levels] is never empty *)
  | item :: rest =>
      let child := match aget item t with Some m => m | None => rnode_new end in
      let '(child', p) := node_insert rest flt id q group child in
      (aset item child' t, p)
  end.

(** route.rs:58-69 [RouteTable::subscribe] *)
Definition rt_subscribe (t : route_table) (flt : string) (id : client_id) (q : qos)
    : route_table * bool :=
  match shared_info flt with
  | Some (g, inner) => subscribe_shared t inner id q (Some g)
  | None => subscribe_shared t flt id q None
  end.

(** route.rs:213-231: the leaf part of [RouteNode::remove].  Returns the new
    content, whether the caller should drop the node, and "panicked". *)
Definition content_remove (c : content) (kids_empty : bool) (id : client_id)
    (group : option string) : content * bool * bool :=
  let '(c1, p) :=
    match group with
    | Some name =>
        match aget name (c_groups c) with
        | Some s =>
            let '(s', p) := sh_remove s id in
            if p then (Content (c_filter c) (c_clients c) (aset name s' (c_groups c)), true)
            else if sh_is_empty s'
            then (Content (c_filter c) (c_clients c) (adel name (c_groups c)), false)
            else (Content (c_filter c) (c_clients c) (aset name s' (c_groups c)), false)
        | None => (c, false)
        end
    | None => (Content (c_filter c) (adel id (c_clients c)) (c_groups c), false)
    end in
  if p then (c1, false, true)
  else if content_is_empty c1
  then (Content None (c_clients c1) (c_groups c1), kids_empty, false)
  else (c1, false, false).

(** route.rs:190-233 [RouteNode::remove]: new node, "remove me from the parent",
    "panicked". *)
Fixpoint node_remove (rest : list string) (id : client_id) (group : option string)
    (n : rnode) : rnode * bool * bool :=
  match rest with
  | [] =>
      let '(c', rm, p) := content_remove (r_content n) (is_nil (r_kids n)) id group in
      (RNode c' (r_kids n), rm, p)
  | item :: rest' =>
      match aget item (r_kids n) with
      | None => (n, false, false)
      | Some child =>
          let '(child', rm, p) := node_remove rest' id group child in
          if rm then
            let kids' := adel item (r_kids n) in
            (RNode (r_content n) kids', content_is_empty (r_content n) && is_nil kids', p)
          else (RNode (r_content n) (aset item child' (r_kids n)), false, p)
      end
  end.

(** route.rs:97-108 [unsubscribe_shared] *)
Definition unsubscribe_shared (t : route_table) (flt : string) (id : client_id)
    (group : option string) : route_table * bool :=
  match levels flt with
  | [] => (t, true)
  | item :: rest =>
      match aget item t with
      | None => (t, false)
      | Some child =>
          let '(child', rm, p) := node_remove rest id group child in
          if rm then (adel item t, p) else (aset item child' t, p)
      end
  end.

(** route.rs:86-96 [RouteTable::unsubscribe] *)
Definition rt_unsubscribe (t : route_table) (flt : string) (id : client_id)
    : route_table * bool :=
  match shared_info flt with
  | Some (g, inner) => unsubscribe_shared t inner id (Some g)
  | None => unsubscribe_shared t flt id None
  end.

Definition nonempty_content (c : content) : list content :=
  if content_is_empty c then [] else [c].

(** route.rs:123-156 [RouteNode::get_matches] *)
Fixpoint node_matches (prev : string) (topic : list string) (n : rnode) : list content :=
  if String.eqb prev MATCH_ALL then nonempty_content (r_content n)
  else
    match topic with
    | item :: rest =>
        flat_map (fun it => match aget it (r_kids n) with
                            | Some m => node_matches it rest m
                            | None => []
                            end) [item; MATCH_ALL; MATCH_ONE]
    | [] =>
        nonempty_content (r_content n) ++
        match aget MATCH_ALL (r_kids n) with
        | Some m => nonempty_content (r_content m)
        | None => []
        end
    end.

(** route.rs:38-56 [RouteTable::get_matches] *)
Definition rt_get_matches (t : route_table) (topic : string) : list content :=
  match levels topic with
  | [] => []
  | item :: rest =>
      let at_key k := match aget k t with Some n => node_matches k rest n | None => [] end in
      at_key item ++
      (if starts_with_dollar topic then [] else at_key MATCH_ALL ++ at_key MATCH_ONE)
  end.

(** Histories of the table. *)
Inductive rop :=
| Sub (flt : string) (id : client_id) (q : qos)
| Unsub (flt : string) (id : client_id).

Definition rt_step (t : route_table) (o : rop) : route_table * bool :=
  match o with
  | Sub f c q => rt_subscribe t f c q
  | Unsub f c => rt_unsubscribe t f c
  end.

Definition rt_empty : route_table := [].
Definition rt_run (h : list rop) : route_table :=
  fold_left (fun t o => fst (rt_step t o)) h rt_empty.
