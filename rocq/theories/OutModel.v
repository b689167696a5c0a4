(** What a session sends to its client: the two [handle_pendings] and the parts
    of [recv_publish] that touch the pending queue and the outgoing aliases.
    Models v5/packet/common.rs:152-241, v5/packet/publish.rs:457-503,
    v3/packet/common.rs:22-60, v3/packet/publish.rs:246-272. *)
From Coq Require Import List Bool String NArith.
From Verif Require Import Base MsgModel PendingModel AliasModel.
Import ListNotations.
Local Open Scope N_scope.

(** Packets a session transmits on its own account. *)
Inductive sent (W : Type) := SPub (w : W) | SRel (p : pid).
Arguments SPub {W}. Arguments SRel {W}.

(** ** MQTT 5 *)

(** The fields of v5 [Session] (v5/session.rs:20-75) that concern transmission:
    server_packet_id, pending_packets, topic_alias_max and the alias tables. *)
Record out5 := Out5 {
  o5_next : pid;
  o5_q : pendq pub5;
  o5_amax : N;
  o5_al : aliases
}.

(** common.rs:196-209 and publish.rs:484-497: choose an alias and blank the
    topic when the client already knows the alias. *)
Definition apply_alias (amax : N) (topic : string) (props : pprops) (al : aliases)
    : aliases * string * pprops :=
  if 0 <? amax then
    let '(al', (a, is_new)) := get_or_assign_alias amax topic al in
    if 0 <? a then (al', if is_new then topic else EmptyString, set_alias (Some a) props)
    else (al', topic, props)
  else (al, topic, props).

(** common.rs:169-230: the body of the loop.  [now - added_at] is truncated
    subtraction here; the code underflows if the clock went back.
    [passed as u32] is the remainder modulo 2^32. *)
Definition pendings_body5 (now amax : N) (s : pstatus pub5) (al : aliases)
    : pstatus pub5 * aliases * list (sent wpub5) * list pid :=
  match s with
  | PNew added last p x dup =>
      let passed := now - added in
      let expired := match pp_expiry (p5_props x) with
                     | Some v => (last =? 0) && (v <=? passed)
                     | None => false
                     end in
      if expired then (s, al, [], [p])
      else
        let expiry := match pp_expiry (p5_props x) with
                      | Some v => Some (v - passed mod 2 ^ 32)
                      | None => None
                      end in
        let props := set_expiry expiry (p5_props x) in
        let '(al', topic, props') :=
          if dup then (al, p5_topic x, props) else apply_alias amax (p5_topic x) props al in
        (PNew added now p x true, al',
         [SPub (WPub5 dup (qp_make (p5_qos x) p) (p5_retain x) topic (p5_payload x) props')], [])
  | PRec last p => (PRec now p, al, [SRel p], [])
  | PDone => (s, al, [], [])                                    (* unreachable!() *)
  end.

(** common.rs:152-241 [handle_pendings].  The default branch is never taken
    ([PendingProofs.pend_loop_pass]). *)
Definition handle_pendings5 (now : N) (o : out5) : out5 * list (sent wpub5) :=
  let q0 := clean_complete (o5_q o) in
  match pend_loop (pendings_body5 now (o5_amax o)) (S (List.length (pq q0))) now 0 q0 (o5_al o) [] [] with
  | Some (q, al, outs, expired) =>
      let q' := fold_left (fun q p => fst (pend_complete p L1 q)) expired q in
      let q'' := if is_nil expired then q' else clean_complete q' in
      (Out5 (o5_next o) q'' (o5_amax o) al, outs)
  | None => (o, [])
  end.

(** publish.rs:457-475, the QoS 1/2 branch of [recv_publish]: take a packet
    identifier (session.rs:145-149), drop finished entries, queue the message.
    The flag is "the queue was full, the message is dropped". *)
Definition out5_push (now : N) (x : pub5) (o : out5) : out5 * bool :=
  let '(q, full) := push_back now (o5_next o) x (clean_complete (o5_q o)) in
  (Out5 (pid_next (o5_next o)) q (o5_amax o) (o5_al o), full).

(** publish.rs:483-506, the QoS 0 branch of [recv_publish]: build the packet. *)
Definition out5_qos0 (topic : string) (retain : bool) (payload : string) (props : pprops) (o : out5)
    : out5 * wpub5 :=
  let '(al, topic', props') := apply_alias (o5_amax o) topic props (o5_al o) in
  (Out5 (o5_next o) (o5_q o) (o5_amax o) al, WPub5 false Q0 retain topic' payload props').

Definition out5_on_queue (f : pendq pub5 -> pendq pub5 * bool) (o : out5) : out5 * bool :=
  let '(q, b) := f (o5_q o) in (Out5 (o5_next o) q (o5_amax o) (o5_al o), b).

(** v5/packet/connect.rs:231-247: the outgoing part of a resumed session: the
    pending queue and the packet identifiers of the old connection, the alias
    state of a new [Session] (session.rs:92-139) and the client's limits. *)
Definition out5_resume (rm amax : N) (o : out5) : out5 :=
  Out5 (o5_next o) (set_max_inflight rm (reset_last_sent (o5_q o))) amax aliases_empty.

(** session.rs:92-139 [Session::new], then connect.rs:246 [set_max_inflight]. *)
Definition out5_new (rm max_packets timeout amax : N) : out5 :=
  Out5 pid_first (PendQ rm max_packets timeout []) amax aliases_empty.

(** ** MQTT 3 *)

(** The fields of v3 [Session]: server_packet_id, pending_packets. *)
Record out3 := Out3 { o3_next : pid; o3_q : pendq pub3 }.

(** v3/packet/common.rs:29-57: the body of the loop. *)
Definition pendings_body3 (now : N) (s : pstatus pub3) (u : unit)
    : pstatus pub3 * unit * list (sent wpub3) * list pid :=
  match s with
  | PNew added last p x dup =>
      (PNew added now p x true, u,
       [SPub (WPub3 dup (qp_make (p3_qos x) p) (p3_retain x) (p3_topic x) (p3_payload x))], [])
  | PRec last p => (PRec now p, u, [SRel p], [])
  | PDone => (s, u, [], [])                                     (* unreachable!() *)
  end.

(** v3/packet/common.rs:22-60 [handle_pendings]. *)
Definition handle_pendings3 (now : N) (o : out3) : out3 * list (sent wpub3) :=
  let q0 := clean_complete (o3_q o) in
  match pend_loop (pendings_body3 now) (S (List.length (pq q0))) now 0 q0 tt [] [] with
  | Some (q, _, outs, _) => (Out3 (o3_next o) q, outs)
  | None => (o, [])
  end.

(** v3/packet/publish.rs:246-261, the QoS 1/2 branch of [recv_publish]. *)
Definition out3_push (now : N) (x : pub3) (o : out3) : out3 * bool :=
  let '(q, full) := push_back now (o3_next o) x (clean_complete (o3_q o)) in
  (Out3 (pid_next (o3_next o)) q, full).

Definition out3_on_queue (f : pendq pub3 -> pendq pub3 * bool) (o : out3) : out3 * bool :=
  let '(q, b) := f (o3_q o) in (Out3 (o3_next o) q, b).

(** v3/packet/connect.rs: the outgoing part of a resumed session. *)
Definition out3_resume (o : out3) : out3 := Out3 (o3_next o) (reset_last_sent (o3_q o)).
Definition out3_new (rm max_packets timeout : N) : out3 := Out3 pid_first (PendQ rm max_packets timeout []).
