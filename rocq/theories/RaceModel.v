(** The routing table with its shared pointers, and publishers and subscribers
    that run at the same time on different worker threads.

    RouteModel makes a lookup return the contents of the matching nodes.  In the
    code it returns [Arc]s to them (route.rs:38), and [send_publish] locks and
    reads them one by one after the table's lock has been released
    (v5/packet/publish.rs:351-353, v3/packet/publish.rs:196-198).  Between the
    lookup and each of these reads other threads may subscribe, unsubscribe and
    drop nodes.  Here every node's content has an address in a heap, so that a
    reader can still hold the address of a node that left the table.

    What is atomic: the update of the retained store, the lookup, each read of
    one content, a subscribe or unsubscribe call on the routing table (it holds
    the top lock, and writes one content under one lock: route.rs:79-83, 101,
    174-186, 213-231), and the lookup of retained messages. *)
From Coq Require Import List Bool String Ascii NArith.
From Verif Require Import Base TopicModel MsgModel RouteModel RetainModel.
Import ListNotations.
Local Open Scope N_scope.

(** ** The heap of [Arc<RwLock<RouteContent>>] *)

Definition addr := N.
Record mem := Mem { m_cells : list (addr * content); m_next : addr }.
Definition mget (m : mem) (a : addr) : content :=
  match aget a (m_cells m) with Some c => c | None => content_new end.
Definition mset (m : mem) (a : addr) (c : content) : mem := Mem (aset a c (m_cells m)) (m_next m).

(** route.rs:17-20 [RouteNode]: the content is behind a pointer.  The children
    are only reached through the table, under its lock. *)
Inductive hnode := HNode (ptr : addr) (kids : list (string * hnode)).
Definition h_ptr (n : hnode) : addr := match n with HNode a _ => a end.
Definition h_kids (n : hnode) : list (string * hnode) := match n with HNode _ k => k end.

(** route.rs:112-121 [RouteNode::new] *)
Definition hnode_new (m : mem) : hnode * mem :=
  (HNode (m_next m) [], Mem (aset (m_next m) content_new (m_cells m)) (m_next m + 1)).

(** [entry(..).or_insert_with(RouteNode::new)] (route.rs:79-82, 168-172) *)
Definition h_entry (item : string) (kids : list (string * hnode)) (m : mem) : hnode * mem :=
  match aget item kids with Some c => (c, m) | None => hnode_new m end.

(** route.rs:158-188 [RouteNode::insert]: new node, heap, "panicked". *)
Fixpoint h_insert (rest : list string) (flt : string) (id : client_id) (q : qos)
    (group : option string) (n : hnode) (m : mem) : hnode * mem * bool :=
  match rest with
  | [] =>
      let '(c', p) := content_insert (mget m (h_ptr n)) flt id q group in
      (n, mset m (h_ptr n) c', p)
  | item :: rest' =>
      let '(child, m1) := h_entry item (h_kids n) m in
      let '(child', m2, p) := h_insert rest' flt id q group child m1 in
      (HNode (h_ptr n) (aset item child' (h_kids n)), m2, p)
  end.

(** route.rs:190-233 [RouteNode::remove]: new node, heap, "remove me from the
    parent", "panicked". *)
Fixpoint h_remove (rest : list string) (id : client_id) (group : option string)
    (n : hnode) (m : mem) : hnode * mem * bool * bool :=
  match rest with
  | [] =>
      let '(c', rm, p) := content_remove (mget m (h_ptr n)) (is_nil (h_kids n)) id group in
      (n, mset m (h_ptr n) c', rm, p)
  | item :: rest' =>
      match aget item (h_kids n) with
      | None => (n, m, false, false)
      | Some child =>
          let '(child', m1, rm, p) := h_remove rest' id group child m in
          if rm then
            let kids' := adel item (h_kids n) in
            (HNode (h_ptr n) kids', m1, content_is_empty (mget m1 (h_ptr n)) && is_nil kids', p)
          else (HNode (h_ptr n) (aset item child' (h_kids n)), m1, false, p)
      end
  end.

(** route.rs:13-15 [RouteTable] *)
Record htable := HTable { ht_kids : list (string * hnode); ht_mem : mem }.
Definition ht_empty : htable := HTable [] (Mem [] 1).

(** route.rs:70-84 [subscribe_shared] *)
Definition h_subscribe_shared (t : htable) (flt : string) (id : client_id) (q : qos)
    (group : option string) : htable * bool :=
  match levels flt with
  | [] => (t, true)                                   (* unreachable: [levels] is never empty *)
  | item :: rest =>
      let '(child, m1) := h_entry item (ht_kids t) (ht_mem t) in
      let '(child', m2, p) := h_insert rest flt id q group child m1 in
      (HTable (aset item child' (ht_kids t)) m2, p)
  end.

(** route.rs:97-108 [unsubscribe_shared] *)
Definition h_unsubscribe_shared (t : htable) (flt : string) (id : client_id)
    (group : option string) : htable * bool :=
  match levels flt with
  | [] => (t, true)
  | item :: rest =>
      match aget item (ht_kids t) with
      | None => (t, false)
      | Some child =>
          let '(child', m1, rm, p) := h_remove rest id group child (ht_mem t) in
          if rm then (HTable (adel item (ht_kids t)) m1, p)
          else (HTable (aset item child' (ht_kids t)) m1, p)
      end
  end.

(** route.rs:58-69 [RouteTable::subscribe], route.rs:86-96 [RouteTable::unsubscribe] *)
Definition h_step (t : htable) (o : rop) : htable * bool :=
  match o with
  | Sub f id q =>
      match shared_info f with
      | Some (g, inner) => h_subscribe_shared t inner id q (Some g)
      | None => h_subscribe_shared t f id q None
      end
  | Unsub f id =>
      match shared_info f with
      | Some (g, inner) => h_unsubscribe_shared t inner id (Some g)
      | None => h_unsubscribe_shared t f id None
      end
  end.

(** route.rs:131-133, 143-145, 151-155: keep the pointer unless the content is empty. *)
Definition h_nonempty (m : mem) (n : hnode) : list addr :=
  if content_is_empty (mget m (h_ptr n)) then [] else [h_ptr n].

(** route.rs:123-156 [RouteNode::get_matches] *)
Fixpoint h_node_matches (m : mem) (prev : string) (topic : list string) (n : hnode) : list addr :=
  if String.eqb prev MATCH_ALL then h_nonempty m n
  else
    match topic with
    | item :: rest =>
        flat_map (fun it => match aget it (h_kids n) with
                            | Some k => h_node_matches m it rest k
                            | None => []
                            end) [item; MATCH_ALL; MATCH_ONE]
    | [] =>
        h_nonempty m n ++
        match aget MATCH_ALL (h_kids n) with
        | Some k => h_nonempty m k
        | None => []
        end
    end.

(** route.rs:38-56 [RouteTable::get_matches] *)
Definition h_get_matches (t : htable) (topic : string) : list addr :=
  match levels topic with
  | [] => []
  | item :: rest =>
      let at_key k := match aget k (ht_kids t) with
                      | Some n => h_node_matches (ht_mem t) k rest n | None => [] end in
      at_key item ++
      (if starts_with_dollar topic then [] else at_key MATCH_ALL ++ at_key MATCH_ONE)
  end.

(** ** Tasks

    A packet with several filters is treated as several tasks, which only adds
    interleavings.  What is done with the contents read by a publisher (queueing
    the message for the clients found) is in Sess5Model and Sess3Model. *)
Inductive task :=
| TPub (retain : bool) (x : rcontent)                (* publish.rs:309 / v3 163: called with message x *)
| TLook (x : rcontent)                               (* publish.rs:347 / v3 194 *)
| TRead (x : rcontent) (todo : list addr)            (* publish.rs:351-353 / v3 196-198 *)
| TSub (f : string) (c : client_id) (q : qos) (want : bool)  (* subscribe.rs:73 / v3 38; [want]: subscribe.rs:77-83 *)
| TRet (f : string) (c : client_id)                  (* subscribe.rs:86 / v3 44 *)
| TUnsub (f : string) (c : client_id)                (* a call of [unsubscribe] *)
| TEnd
| TPanic.

(** What a step does, as seen from outside. *)
Inductive event :=
| VKeep (o : option retop)         (* the retained store was updated, or not *)
| VLook (topic : string)           (* the routing table was looked up *)
| VRead (ct : content)             (* a publisher read one set of subscribers *)
| VRoute (o : rop)                 (* the routing table was updated *)
| VRet (l : list rcontent)         (* a subscriber read the retained messages *)
| VPanic.                          (* the task's thread panicked *)

(** The two tables every connection shares (state.rs:19-40 [GlobalState]) and the tasks. *)
Record world := World { w_route : htable; w_ret : tnode; w_tasks : list task }.
Definition world_new (ts : list task) : world := World ht_empty ret_empty ts.

(** One call of [subscribe] or [unsubscribe], under the top lock (route.rs). *)
Definition call_route (o : rop) (next : task) (w : world) : event * htable * tnode * task :=
  let '(t', p) := h_step (w_route w) o in
  (VRoute o, t', w_ret w, if p then TPanic else next).

(** One atomic step of a task; the lines of each are at [task]. *)
Definition turn (k : task) (w : world) : option (event * htable * tnode * task) :=
  match k with
  | TPub retain x =>
      (* publish.rs:314-329, v3 164-178 *)
      if retain then
        let o := if String.eqb (rc_payload x) "" then RDel (rc_topic x) else RIns x in
        Some (VKeep (Some o), w_route w, fst (ret_step (w_ret w) o), TLook x)
      else Some (VKeep None, w_route w, w_ret w, TLook x)
  | TLook x =>
      Some (VLook (rc_topic x), w_route w, w_ret w, TRead x (h_get_matches (w_route w) (rc_topic x)))
  | TRead x [] => None
  | TRead x (a :: r) =>
      (* content.read(), then topic_filter.as_ref().unwrap() *)
      let ct := mget (ht_mem (w_route w)) a in
      match c_filter ct with
      | Some _ => Some (VRead ct, w_route w, w_ret w, TRead x r)
      | None => Some (VPanic, w_route w, w_ret w, TPanic)
      end
  | TSub f c q want => Some (call_route (Sub f c q) (if want then TRet f c else TEnd) w)
  | TRet f c =>
      match ret_get_matches (w_ret w) f with
      | Some l => Some (VRet l, w_route w, w_ret w, TEnd)
      | None => Some (VPanic, w_route w, w_ret w, TPanic)
      end
  | TUnsub f c => Some (call_route (Unsub f c) TEnd w)
  | TEnd | TPanic => None
  end.

(** The scheduler lets task [i] take one step. *)
Definition race_step (i : nat) (w : world) : option (event * world) :=
  match nth_error (w_tasks w) i with
  | None => None
  | Some k =>
      match turn k w with
      | None => None
      | Some (e, t', r', k') =>
          match list_set i k' (w_tasks w) with
          | Some ts => Some (e, World t' r' ts)
          | None => None
          end
      end
  end.
