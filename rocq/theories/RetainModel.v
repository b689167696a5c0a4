(** Retained messages.  Models protocols/mqtt/retain.rs.

    Every operation holds the lock of the root's [nodes] for its whole duration
    (retain.rs:74, 86, 102, 122, 144), so operations are atomic steps. *)
From Coq Require Import List Bool String Ascii NArith.
From Verif Require Import Base TopicModel MsgModel.
Import ListNotations.
Local Open Scope string_scope.

(** retain.rs:24-33 [RetainContent] *)
Record rcontent := RContent {
  rc_client : string;                (* client identifier of the publisher *)
  rc_qos : qos;
  rc_topic : string;
  rc_payload : string;
  rc_props : option pprops;          (* None for a v3 publisher *)
  rc_len : N                         (* encode_len *)
}.

(** retain.rs:18-22 [RetainNode] *)
Inductive tnode := TNode (ct : option rcontent) (kids : list (string * tnode)).
Definition t_content (n : tnode) := match n with TNode c _ => c end.
Definition t_kids (n : tnode) := match n with TNode _ k => k end.
Definition tnode_new : tnode := TNode None [].

(** retain.rs:60-62 [is_empty] *)
Definition t_is_empty (n : tnode) : bool :=
  match t_content n with None => is_nil (t_kids n) | Some _ => false end.

(** retain.rs:79-83, 93-97, 106-110: push the content unless hidden. *)
Definition keep (wildcard_first : bool) (c : option rcontent) : list rcontent :=
  match c with
  | Some x => if starts_with_dollar (rc_topic x) && wildcard_first then [] else [x]
  | None => []
  end.

(** retain.rs:72-84: "#" collects the whole subtree, children first. *)
Fixpoint t_all (wf : bool) (n : tnode) : list rcontent :=
  match n with
  | TNode c kids => flat_map (fun kn => t_all wf (snd kn)) kids ++ keep wf c
  end.

Definition oapp {A} (a b : option (list A)) : option (list A) :=
  match a, b with Some x, Some y => Some (x ++ y)%list | _, _ => None end.

(** retain.rs:64-114 [RetainNode::get_matches]; [items] is (prev_item, filter_items).
    [None] is the failed assertion "invalid topic filter". *)
Fixpoint t_matches (wf : bool) (items : list string) (n : tnode) : option (list rcontent) :=
  match items with
  | [] => Some []                                         (* not called with no item *)
  | item :: rest =>
      if String.eqb item MATCH_ALL then
        match rest with [] => Some (t_all wf n) | _ => None end
      else if String.eqb item MATCH_ONE then
        match rest with
        | [] => Some (flat_map (fun kn => keep wf (t_content (snd kn))) (t_kids n))
        | _ => fold_right (fun kn acc => oapp (t_matches wf rest (snd kn)) acc) (Some []) (t_kids n)
        end
      else
        match aget item (t_kids n) with
        | None => Some []
        | Some m => match rest with
                    | [] => Some (keep wf (t_content m))
                    | _ => t_matches wf rest m
                    end
        end
  end.

(** retain.rs:39: [topic_filter.starts_with(['+', '#'])] *)
Definition starts_with_wildcard (f : string) : bool :=
  match f with String c _ => Ascii.eqb c "+" || Ascii.eqb c "#" | "" => false end.

(** retain.rs:36-45 [RetainTable::get_matches] *)
Definition ret_get_matches (t : tnode) (f : string) : option (list rcontent) :=
  t_matches (starts_with_wildcard f) (levels f) t.

(** retain.rs:116-139 [RetainNode::insert]: new node and the replaced content. *)
Fixpoint t_insert (items : list string) (x : rcontent) (n : tnode) : tnode * option rcontent :=
  match items with
  | [] => (n, None)                                       (* not called with no item *)
  | item :: rest =>
      match aget item (t_kids n) with
      | Some m =>
          match rest with
          | [] => (TNode (t_content n) (aset item (TNode (Some x) (t_kids m)) (t_kids n)), t_content m)
          | _ => let '(m', old) := t_insert rest x m in
                 (TNode (t_content n) (aset item m' (t_kids n)), old)
          end
      | None =>
          match rest with
          | [] => (TNode (t_content n) (aset item (TNode (Some x) []) (t_kids n)), None)
          | _ => let '(m', _) := t_insert rest x tnode_new in
                 (TNode (t_content n) (aset item m' (t_kids n)), None)
          end
      end
  end.

(** retain.rs:47-51 [RetainTable::insert] *)
Definition ret_insert (t : tnode) (x : rcontent) : tnode * option rcontent :=
  t_insert (levels (rc_topic x)) x t.

(** retain.rs:141-157 [RetainNode::remove] *)
Fixpoint t_remove (items : list string) (n : tnode) : tnode * option rcontent :=
  match items with
  | [] => (n, None)                                       (* not called with no item *)
  | item :: rest =>
      match aget item (t_kids n) with
      | None => (n, None)
      | Some m =>
          let '(m', old) := match rest with
                            | [] => (TNode None (t_kids m), t_content m)
                            | _ => t_remove rest m
                            end in
          if t_is_empty m' then (TNode (t_content n) (adel item (t_kids n)), old)
          else (TNode (t_content n) (aset item m' (t_kids n)), old)
      end
  end.

(** retain.rs:53-56 [RetainTable::remove] *)
Definition ret_remove (t : tnode) (topic : string) : tnode * option rcontent :=
  t_remove (levels topic) t.

(** Histories. *)
Inductive retop := RIns (x : rcontent) | RDel (topic : string).
Definition ret_step (t : tnode) (o : retop) : tnode * option rcontent :=
  match o with RIns x => ret_insert t x | RDel tp => ret_remove t tp end.
Definition ret_empty : tnode := tnode_new.
Definition ret_run (h : list retop) : tnode := fold_left (fun t o => fst (ret_step t o)) h ret_empty.
