(** Words for C71: the event loop of a connection (OnlineModel, with the sessions of HookModel)
    next to the same connection in the broker (BrokerModel). *)
From Coq Require Import List Bool NArith String.
From Verif Require Import Base MsgModel PendingModel OutModel GlobModel Sess5Model Sess3Model ConnModel RegModel OnlineModel HookModel OnlineSpec BrokerModel BrokerSpec ApartSpec LifeSpec AccSpec InSpec.
Import ListNotations.
Local Open Scope N_scope.
Local Open Scope list_scope.

(** No hooks. *)
Definition no_hooks : hooks := Hooks false false false.

(** ** The session *)
(** All that waits for other clients: what a channel's sink holds, then the queue. *)
Definition outgoing (sinks : list (client_id * (option nmsg * bool))) (bc : bcast) : bcast :=
  map (fun x => (fst x, hold_of sinks (fst x) ++ snd x)) bc.
(** The session of the loop as the broker's task sees it. *)
Definition seen5 (l : lst pkt5 nmsg req5 sess5) : sess :=
  let q := outgoing (l_sinks l) (s_bcast (l_s l)) in A5 (with_bcast q (OnlineModel.total q) (l_s l)).
Definition seen3 (l : lst pkt3 nmsg req3 sess3) : sess :=
  let q := outgoing (l_sinks l) (z_bcast (l_s l)) in A3 (zwith_bcast q (OnlineModel.total q) (l_s l)).

(** ** The outside world *)
Definition plain (m : ctl) : HookModel.control :=
  match m with
  | BrokerModel.COnline5 _ => HookModel.COnline5
  | BrokerModel.COnline3 _ => HookModel.COnline3
  | BrokerModel.CKick => HookModel.CKick
  | BrokerModel.CExpired t => HookModel.CExpired t
  | CWill t => CWillDelay t
  end.
Definition requests (b : broker) (c : client_id) : list ctl := match aget c (b_chans b) with Some ch => ch_ctl ch | None => [] end.
(** During a poll the task of client [c] finds its inbox and the channels of the others as
    they are in [b]: it takes messages from the front, and puts in no more than fits. *)
Definition answers {In Ans} (b : broker) (c : client_id) (e : env nmsg In derr HookModel.control Ans) : Prop :=
  e_now e = seconds b /\
  (exists n, e_norm e = map Some (firstn n (waiting b c))) /\
  (exists n, e_ctl e = map (fun m => Some (plain m)) (firstn n (requests b c))) /\
  forall d ch, aget d (b_chans b) = Some ch ->
    if ch_open ch then (forall x, List.In x (e_chan e d) -> x = COk) /\ (List.length (e_chan e d) + List.length (ch_norm ch) <= 8)%nat /\ ~ List.In false (e_send e d)
    else forall x, List.In x (e_chan e d) -> x = CErr.

(** ** What a poll did, told by steps of the broker *)
(** All steps are those of connection [k]. *)
Definition own (k : N) (h : list past) : Prop := Forall (fun p => who (w_e p) = Some k) h.
(** What was seen, in the order of time. *)
Definition shown (h : list past) : list bout := List.concat (map w_out (rev h)).
(** The packets that were handled, in the order of time. *)
Definition arrivals (h : list past) : list bev :=
  flat_map (fun p => match w_e p with EPacket5 _ _ _ | EPacket3 _ _ _ | EMalformed _ _ => [w_e p] | _ => [] end) (rev h).
Definition arrival5 (k : N) (r : rd (N * in5) derr ans5) : list bev :=
  match r with RdPacket (len, x) _ => [EPacket5 k len x] | RdErr (DMalformed s) => [EMalformed k s] | RdErr DIo => [] end.
Definition arrival3 (k : N) (r : rd (N * in3) derr ans3) : list bev :=
  match r with RdPacket (len, x) _ => [EPacket3 k len x] | RdErr _ => [] end.
(** The connection lost its session to another one, which waits to be told. *)
Definition handed (b : broker) (k : N) (a : sess) : Prop :=
  aget k (b_tasks b) = None /\
  exists j x, aget j (b_tasks b) = Some (TJoin x (match a with A5 s => ROld5 (snd (build_state5 s)) | A3 s => ROld3 (snd (build_state3 s)) end)).

(** ** The loop and the broker's task agree *)
(** Only the first of the packets to be written is begun, at most to its end; there is one
    queue per client, the count is right, and a sink belongs to a queue. *)
Definition orderly {P In Err Ctl Act Req Ans S G} (i : iface P nmsg In Err Ctl Act Req Ans S G) (l : lst P nmsg Req S) : Prop :=
  let whole := Forall (fun w : wp P => match w with Pkt _ => True | _ => False end) in
  match l_wp l with Data d n :: r => (n <= List.length d)%nat /\ whole r | q => whole q end /\
  tidy i (l_s l) /\ incl (keys (l_sinks l)) (keys (i_bc i (l_s l))).

Section Agree.
  Variables (hash5 : wpub5 -> N) (hash3 : wpub3 -> N) (pick : string -> string -> N) (enc5 : pkt5 -> option (list N)) (enc3 : pkt3 -> option (list N)).
  Definition loop5 := online5 no_hooks hash5 pick enc5.
  Definition loop3 := online3 no_hooks hash3 enc3.
  (** Simplification: here the choice of a member of a shared group is the same all the time. *)
  Definition reached (b : broker) : Prop := exists c h, brun hash5 hash3 (fun _ _ => pick) c h b.
  (** In a reachable state, task [k] of the broker serves the session of the loop, which waits
      neither for a hook nor to hand its session over. *)
  Definition agrees5 (k : N) (b : broker) (l : lst pkt5 nmsg req5 sess5) : Prop :=
    reached b /\ aget k (b_tasks b) = Some (TOnline (seen5 l)) /\ l_hook l = None /\ l_take l = None /\ orderly loop5 l.
  Definition agrees3 (k : N) (b : broker) (l : lst pkt3 nmsg req3 sess3) : Prop :=
    reached b /\ aget k (b_tasks b) = Some (TOnline (seen3 l)) /\ l_hook l = None /\ l_take l = None /\ orderly loop3 l.
End Agree.
