(** What can be said about a run of the broker without looking into its steps: the history,
    the wills, the sessions. *)
From Coq Require Import List Bool NArith String.
From Verif Require Import Base MsgModel PendingModel OutModel GlobModel Sess5Model Sess3Model ConnModel RegModel BrokerModel.
Import ListNotations.
Local Open Scope N_scope.

(** One past step: the state before it, what happened, what could be seen. *)
Record past := Past { w_b : broker; w_e : bev; w_out : list bout }.

Section Run.
  Variables (hash5 : wpub5 -> N) (hash3 : wpub3 -> N) (pick : draw -> broker -> string -> string -> N).
  (** [brun c h b]: starting empty with configuration [c], the steps [h] (latest first) lead to [b]. *)
  Inductive brun (c : config) : list past -> broker -> Prop :=
  | run_nil : brun c [] (broker_new c)
  | run_cons h b e b' out : brun c h b -> bstep hash5 hash3 pick e b = BOk b' out -> brun c (Past b e out :: h) b'.
  (** Going on from a state. *)
  Inductive bgo : broker -> list past -> broker -> Prop :=
  | go_nil b : bgo b [] b
  | go_cons b0 h b e b' out : bgo b0 h b -> bstep hash5 hash3 pick e b = BOk b' out -> bgo b0 (Past b e out :: h) b'.
  (** The same by computation, for examples. *)
  Fixpoint exec (es : list bev) (b : broker) : option (broker * list bout) :=
    match es with
    | [] => Some (b, [])
    | e :: es => match bstep hash5 hash3 pick e b with
                 | BOk b1 o1 => match exec es b1 with Some (b2, o2) => Some (b2, o1 ++ o2)%list | None => None end
                 | _ => None
                 end
    end.
  Fixpoint trace (es : list bev) (h : list past) (b : broker) : option (list past * broker) :=
    match es with
    | [] => Some (h, b)
    | e :: es => match bstep hash5 hash3 pick e b with BOk b1 o1 => trace es (Past b e o1 :: h) b1 | _ => None end
    end.
End Run.

(** ** Sessions *)
Definition a_v5 (a : sess) : bool := match a with A5 _ => true | A3 _ => false end.
Definition a_conn (a : sess) : bool := match a with A5 s => s_connected s | A3 s => z_connected s end.
(** When the connection was made. *)
Definition a_ctime (a : sess) : option N := match a with A5 s => s_ctime s | A3 s => z_ctime s end.
(** A DISCONNECT arrived. *)
Definition a_quit (a : sess) : bool := match a with A5 s => s_cdisc s | A3 s => z_disc s end.
(** The session expiry interval, in seconds. *)
Definition a_expiry (a : sess) : N := match a with A5 s => s_expiry s | A3 _ => 0 end.
(** Clean start (clean session) was asked for. *)
Definition a_clean (a : sess) : bool := match a with A5 s => s_clean s | A3 s => z_clean s end.
Definition e_clean (e : bev) : option bool := match e with EConnect5 _ _ p _ => Some (co_clean p) | EConnect3 _ _ p => Some (c3_clean p) | _ => None end.
(** The session a task holds once CONNACK was sent. *)
Definition t_sess (t : task) : option sess :=
  match t with
  | TSend _ _ | TReply _ _ | TJoin _ _ => None
  | TReady a | TOnline a | TEnd a | TDrain a | TOffline a | TOffDrain a _ => Some a
  end.
(** Connected: from the successful CONNACK until the connection's end is dealt with. *)
Definition t_connected (t : task) : bool := match t with TReady _ | TOnline _ | TEnd _ | TDrain _ => true | _ => false end.
Definition connected (b : broker) (k : N) : Prop := exists t, aget k (b_tasks b) = Some t /\ t_connected t = true.
Definition connected_count (b : broker) : nat := List.length (filter (fun kt => t_connected (snd kt)) (b_tasks b)).
(** Up to the end of its event loop, and afterwards. *)
Definition t_early (t : task) : bool := match t with TReady _ | TOnline _ | TEnd _ => true | _ => false end.
Definition t_late (t : task) : bool := match t with TDrain _ | TOffline _ | TOffDrain _ _ => true | _ => false end.
(** Connecting or connected, with no DISCONNECT received or sent. *)
Definition t_going (t : task) : bool :=
  match t with TSend _ _ | TReply _ _ | TJoin _ _ | TReady _ => true | TOnline a => negb (a_disc a) | _ => false end.
(** The session connection [k] holds. *)
Definition sess_at (b : broker) (k : N) : option sess := match aget k (b_tasks b) with Some t => t_sess t | None => None end.
(** The client identifier of a task's connection. *)
Definition t_ident (t : task) : string :=
  match t with
  | TSend x _ | TReply x _ | TJoin x _ => p_ident x
  | TReady a | TOnline a | TEnd a | TDrain a | TOffline a | TOffDrain a _ => a_ident a
  end.
Definition t_offline (t : task) : bool := match t with TOffline _ | TOffDrain _ _ => true | _ => false end.
Definition t_connecting (t : task) : bool := match t with TSend _ _ | TReply _ _ | TJoin _ _ => true | _ => false end.
(** The client identifier a CONNECT asks for (an empty one is replaced by a fresh UUID). *)
Definition asks (e : bev) : option string :=
  match e with
  | EConnect5 _ uuid p _ => Some (if String.eqb (co_ident p) "" then uuid else co_ident p)
  | EConnect3 _ uuid p => Some (if String.eqb (c3_ident p) "" then uuid else c3_ident p)
  | _ => None
  end.
(** The identifier is known to the server. *)
Definition known (b : broker) (i : string) (c : client_id) : Prop := aget i (r_idents (b_reg b)) = Some c.

(** The task has the session of identifier [i], or is about to get it. *)
Definition in_charge (t : task) (i : string) : Prop :=
  match t with TSend _ _ | TReply _ _ | TOffDrain _ true => False | _ => t_ident t = i end.
(** The connection in charge of [i] was given up without putting its session in order. *)
Definition gave_up (i : string) (p : past) : Prop :=
  exists k t, In (OClosed k) (w_out p) /\ aget k (b_tasks (w_b p)) = Some t /\ in_charge t i.

(** A message to client [c] saying that its session of time [t] expired, or that its will is
    due: the timer still runs (until [due]), or the message is on its way. *)
Definition token (b : broker) (c : client_id) (m : ctl) (d : option N) : Prop :=
  match d with
  | Some due => match m with CExpired t => In (IExpire c t due) (b_timers b) | CWill t => In (IWill c t due) (b_timers b) | _ => False end
  | None => In (IPut c m) (b_timers b) \/ exists ch, aget c (b_chans b) = Some ch /\ In m (ch_ctl ch)
  end.

(** Nobody is turned away, and no identifier connects while an earlier connection of it is up. *)
Definition calm (p : past) : Prop :=
  (forall k, ~ In (OClosed k) (w_out p)) /\
  (forall i k t, asks (w_e p) = Some i -> aget k (b_tasks (w_b p)) = Some t -> t_ident t = i -> t_offline t = true).

(** ** Wills *)
Inductive awill := W5 (w : will5) | W3 (w : will3).
Definition a_will (a : sess) : option awill := match a with A5 s => option_map W5 (s_will s) | A3 s => option_map W3 (z_will s) end.
Definition p_will (x : pre) : option awill := match x with B5 cn _ => option_map W5 (s_will (cn_s cn)) | B3 s => option_map W3 (z_will s) end.
Definition t_will (t : task) : option awill :=
  match t with
  | TSend x _ | TReply x _ | TJoin x _ => p_will x
  | TReady a | TOnline a | TEnd a | TDrain a | TOffline a | TOffDrain a _ => a_will a
  end.
(** It can be written as a PUBLISH packet. *)
Definition aw_ok (w : awill) : bool :=
  match w with
  | W5 w => match enc_len5 (WPub5 false (qp_make (wl_qos w) 1) false (wl_topic w) (wl_payload w) (set_alias None (set_subids [] (wl_props w)))) with Some _ => true | None => false end
  | W3 w => match enc_len3 (WPub3 false (qp_make (wl3_qos w) 1) false (wl3_topic w) (wl3_payload w)) with Some _ => true | None => false end
  end.
(** The wills published for connection [k]. *)
Definition will_out (k : N) (o : bout) : list awill :=
  match o with
  | OWill5 j w => if j =? k then [W5 w] else []
  | OWill3 j w => if j =? k then [W3 w] else []
  | _ => []
  end.
Definition wills_of (k : N) (out : list bout) : list awill := flat_map (will_out k) out.
Definition wills_in (k : N) (h : list past) : list awill := flat_map (fun p => wills_of k (w_out p)) h.
(** The will that the CONNECT of connection [k] asked for. *)
Definition connect_will (k : N) (p : past) : list awill :=
  if b_conns (w_b p) =? k then
    match w_e p with
    | EConnect5 _ _ p _ => opt_list (option_map W5 (co_will p))
    | EConnect3 _ _ p => opt_list (option_map W3 (c3_will p))
    | _ => []
    end
  else [].
Definition asked_will (k : N) (h : list past) : list awill := flat_map (connect_will k) h.

(** ** Keep-alive *)
(** When connection [k] was last heard of: it was accepted, its event loop began, a packet
    arrived. *)
Definition heard_now (k : N) (p : past) : option N :=
  match w_e p with
  | EConnect5 t0 _ _ _ | EConnect3 t0 _ _ => if b_conns (w_b p) =? k then Some t0 else None
  | EStart j | EPacket5 j _ _ | EPacket3 j _ _ => if j =? k then Some (b_now (w_b p)) else None
  | _ => None
  end.
Fixpoint heard (k : N) (h : list past) : N :=
  match h with
  | [] => 0
  | p :: h => match heard_now k p with Some t => t | None => heard k h end
  end.
(** A request to end the connection of client [c] is on its way. *)
Definition kick_coming (b : broker) (c : client_id) : Prop :=
  In (IPut c CKick) (b_timers b) \/ exists ch, aget c (b_chans b) = Some ch /\ In CKick (ch_ctl ch).

(** ** What a session carries from one connection to the next *)
(** A queued message, without the times of sending: the identifier, and the message itself
    until PUBREC arrived; [None] if it is complete. *)
Definition entry {P} (x : pstatus P) : option (pid * option P) :=
  match x with PNew _ _ p m _ => Some (p, Some m) | PRec _ p => Some (p, None) | PDone => None end.
Definition queued5 (s : sess5) : list (option (pid * option pub5)) := map entry (pq (o5_q (s_out s))).
Definition queued3 (s : sess3) : list (option (pid * option pub3)) := map entry (pq (o3_q (z_out s))).
(** Subscriptions, open QoS 2 identifiers, packet identifier counter and queued messages. *)
Definition carried5 (s s' : sess5) : Prop :=
  s_subs s' = s_subs s /\ s_qos2 s' = s_qos2 s /\ o5_next (s_out s') = o5_next (s_out s) /\ queued5 s' = queued5 s.
Definition carried3 (s s' : sess3) : Prop :=
  z_subs s' = z_subs s /\ z_qos2 s' = z_qos2 s /\ o3_next (z_out s') = o3_next (z_out s) /\ queued3 s' = queued3 s.
Definition empty5 (s : sess5) : Prop := s_subs s = [] /\ s_qos2 s = [] /\ o5_next (s_out s) = 1 /\ queued5 s = [].
Definition empty3 (s : sess3) : Prop := z_subs s = [] /\ z_qos2 s = [] /\ o3_next (z_out s) = 1 /\ queued3 s = [].
(** The control message session [a] finds first is the request of connection [k] for it. *)
Definition requested (b : broker) (a : sess) (k : N) : Prop :=
  exists ch r, aget (a_id a) (b_chans b) = Some ch /\ ch_ctl ch = (if a_v5 a then COnline5 k else COnline3 k) :: r.
(** At step [q], the session [a] of connection [j], online or offline, went to connection
    [k], which had asked for it; [j] is over since ([b] is a later state). *)
Definition gave_session (h : list past) (b : broker) (q : past) (j : N) (online : bool) (a : sess) (k : N) : Prop :=
  In q h /\ w_e q = EControl j /\ aget j (b_tasks (w_b q)) = Some (if online then TOnline a else TOffline a) /\
  requested (w_b q) a k /\ aget j (b_tasks b) = None.
(** The messages waiting for a client. *)
Definition waiting (b : broker) (c : client_id) : list (client_id * nmsg) :=
  match aget c (b_chans b) with Some ch => ch_norm ch | None => [] end.
(** Connection [k] was made by CONNECT [e] at step [q]. *)
Definition made_by (h : list past) (q : past) (k : N) : Prop := In q h /\ b_conns (w_b q) = k.

(** ** Subscriptions *)
(** Connection [k] asked for filter [f] in a SUBSCRIBE. *)
Definition asked_filter (k : N) (f : string) (p : past) : Prop :=
  (exists len pid id fs, w_e p = EPacket5 k len (ISub pid id fs) /\ In f (map fst fs)) \/
  (exists len pid fs, w_e p = EPacket3 k len (YSub pid fs) /\ In f (map fst fs)).
(** The filters a message was routed by. *)
Definition msg_filters (m : nmsg) : list string := match m with NM3 m => [n3_filter m] | NM5 m => n5_filters m end.
