(** C26-C34: client identifiers, sessions, wills, expiry and keep-alive of the whole broker.

    [brun hash5 hash3 pick c h b]: [b] is a state the server can be in after the steps [h]
    (latest first), started empty with configuration [c]: any interleaving of connection
    attempts, packets, failures, disconnections, timers and messages between clients.  Each
    element of [h] has the state before the step, what happened and what could be seen.
    [bgo b h b'] goes on from [b].  [hash5], [hash3], [pick] are arbitrary; [pick], the
    choice of a member of a shared group, may be another one at every step.  BrokerSpec has
    the other words used here: [known b i c] (identifier [i] has id [c]), [sess_at b k] (the
    session that connection [k] holds), [wills_in k h] (wills published for it), ... *)
From Coq Require Import List Bool NArith String Lia.
From Verif Require Import Base BaseLemmas TopicModel MsgModel PendingModel OutModel RouteModel RetainModel GlobModel Sess5Model Sess3Model ConnModel RegModel BrokerModel
  BrokerSpec FrameProofs CoreProofs BrokerInv TaskMove StepProofs RunProofs RegProofs GaugeProofs TimeProofs WillProofs KeepProofs EvolProofs HistProofs BrokerFacts.
Import ListNotations.
Local Open Scope N_scope.

(** ** Example runs *)
Definition x_pick : draw -> broker -> string -> string -> N := fun _ _ _ _ => 0.
Definition x_h5 : wpub5 -> N := fun _ => 0.
Definition x_h3 : wpub3 -> N := fun _ => 0.
Definition x_run := brun x_h5 x_h3 x_pick config_default.
Definition x_step := bstep x_h5 x_h3 x_pick.
(** Connection attempts of protocol 5, 3.1.1 and 3.1. *)
Definition x_c5 (i : string) (clean : bool) (keep : N) (expiry : option N) (w : option will5) : bev :=
  EConnect5 0 "u" (Connect5 clean keep i None None w expiry None None None None None None) None.
Definition x_c3 (v310 : bool) (i : string) (clean : bool) (keep : N) (w : option will3) : bev :=
  EConnect3 0 "u" (Connect3 v310 clean keep i None None w).
Definition x_will (delay : option N) : will5 := Will5 L0 false "w" "bye" delay (PProps None None [] "").
Definition x_up (k : N) : list bev := [ETick 1; EJoin k; EStart k].
Definition x_over (k j : N) : list bev := [EPut j; EControl k].
Definition x_down (k : N) : list bev := [EClose k; EEnd k true; EDone k].
Ltac run_of es :=
  let r := eval vm_compute in (trace x_h5 x_h3 x_pick es [] (broker_new config_default)) in
  match r with Some (?h, ?b) => exists h, b; split; [apply (trace_new x_h5 x_h3 x_pick config_default es); vm_compute; reflexivity|] end.
Ltac go_of es :=
  match goal with |- exists b' o, exec _ _ _ _ ?b = Some (b', o) /\ _ =>
    let r := eval vm_compute in (exec x_h5 x_h3 x_pick es b) in
    match r with Some (?b', ?o) => exists b', o; split; [vm_compute; reflexivity|] end
  end.

Section Props.
  Variables (hash5 : wpub5 -> N) (hash3 : wpub3 -> N) (pick : draw -> broker -> string -> string -> N).
  Local Notation bstep := (bstep hash5 hash3 pick).
  Local Notation brun := (brun hash5 hash3 pick).
  Local Notation bgo := (bgo hash5 hash3 pick).
  Local Notation exec := (exec hash5 hash3 pick).

  (** ** C26 *)

  (** Identifiers and ids are in one-to-one correspondence. *)
  Theorem ids_one_to_one : forall c h b i j d d', brun c h b -> known b i d -> known b j d' -> (i = j <-> d = d').
  Proof. exact (ids_bijective hash5 hash3 pick). Qed.
  (** An id that once belonged to [i] never belongs to another identifier. *)
  Theorem ids_never_reused : forall c h b p i j d, brun c h b -> In p h -> known (w_b p) i d -> known b j d -> i = j.
  Proof. exact (ids_stay hash5 hash3 pick). Qed.
  (** Once removed, an id never comes back at all. *)
  Theorem ids_removed_for_good : forall c h b1 h1 b2 h2 b3 i d, brun c h b1 -> bgo b1 h1 b2 -> bgo b2 h2 b3 ->
    known b1 i d -> (forall j, ~ known b2 j d) -> forall j, ~ known b3 j d.
  Proof. intros c h b1 h1 b2 h2 b3 i d R. exact (id_gone hash5 hash3 pick b1 h1 b2 h2 b3 i d (run_good _ _ _ _ _ _ R)). Qed.
  (** A session has the id of its identifier. *)
  Theorem session_has_its_id : forall c h b k a, brun c h b -> sess_at b k = Some a ->
    (forall a', aget k (b_tasks b) <> Some (TOffDrain a' true)) -> known b (a_ident a) (a_id a).
  Proof. exact (session_id hash5 hash3 pick). Qed.
  (** Connecting never panics. *)
  Theorem connect_never_panics : forall c h b e i, brun c h b -> asks e = Some i -> bstep e b <> BPanic.
  Proof. exact (connect_fine hash5 hash3 pick). Qed.

  (** ** C27 *)

  (** The gauge never reports fewer clients than are connected. *)
  Theorem gauge_at_least : forall c h b, brun c h b -> N.of_nat (connected_count b) <= r_online (b_reg b).
  Proof. exact (run_count hash5 hash3 pick). Qed.
  (** No decrement underflows: neither for a removal nor when a client goes offline. *)
  Theorem gauge_no_underflow : forall c h b, brun c h b ->
    (forall d, reg_remove d (b_reg b) <> None) /\
    (forall k a, aget k (b_tasks b) = Some (TDrain a) -> reg_offline (a_id a) (b_reg b) <> None).
  Proof.
    exact (fun c h b R => conj (fun d => remove_ok hash5 hash3 pick c h b d R) (fun k a => offline_ok hash5 hash3 pick c h b k a R)).
  Qed.
  (** The gauge is exact as long as nobody is turned away and no client connects while an
      earlier connection of it is up.  Missing: takeovers ([gauge_refuted]). *)
  Theorem gauge_exact_partial : forall c h b, brun c h b -> (forall p, In p h -> calm p) ->
    (forall k t, aget k (b_tasks b) = Some t -> t_connecting t = false) -> N.of_nat (connected_count b) = r_online (b_reg b).
  Proof. exact (gauge_exact hash5 hash3 pick). Qed.

  (** ** C28 *)

  (** At most one connection holds the session of an identifier. *)
  Theorem one_session_per_identifier : forall c h b k1 k2 t1 t2 i, brun c h b -> aget k1 (b_tasks b) = Some t1 -> aget k2 (b_tasks b) = Some t2 ->
    in_charge t1 i -> in_charge t2 i -> k1 = k2.
  Proof. exact (one_charge hash5 hash3 pick). Qed.
  (** A known identifier is served by a live task, unless some connection in charge of it
      was given up half-way.  Missing: the latter case ([lockout_refuted]). *)
  Theorem identifier_served_partial : forall c h b i d, brun c h b -> known b i d -> (forall p, In p h -> ~ gave_up i p) ->
    exists k t, aget k (b_tasks b) = Some t /\ in_charge t i.
  Proof. exact (served_by hash5 hash3 pick). Qed.
  (** If the session is online or offline and its control queue is empty, a new connection of
      the same protocol gets it in two steps. *)
  Theorem takeover_possible : forall c h b k j x a (on : bool) ms, brun c h b ->
    aget k (b_tasks b) = Some (if on then TOnline a else TOffline a) -> aget j (b_tasks b) = Some (TSend x (a_id a)) -> k <> j ->
    aget (a_id a) (b_chans b) = Some (Chan [] ms true) -> a_v5 a = p_v5 x ->
    exists b' r, exec [EPut j; EControl k] b = Some (b', []) /\ aget k (b_tasks b') = None /\ aget j (b_tasks b') = Some (TJoin x r) /\ rc_id r = a_id a.
  Proof. exact (takeover hash5 hash3 pick). Qed.

  (** ** C29 *)

  (** Protocol 5: Session Present tells whether clean start was not asked for and the server
      knew the identifier when CONNECT arrived; then the state is that of the session some
      connection of the same identifier gave up for this one, otherwise it is empty. *)
  Theorem session_present5 : forall c h b k b' out ack, brun c h b -> bstep (EJoin k) b = BOk b' out -> In (OConnack5 k ack) out -> ka_code ack = RC_success ->
    exists q t0 uuid p data s, made_by h q k /\ w_e q = EConnect5 t0 uuid p data /\ aget k (b_tasks b') = Some (TReady (A5 s)) /\
      (ka_present ack = true <-> co_clean p = false /\ exists i cid, asks (w_e q) = Some i /\ known (w_b q) i cid) /\
      (if ka_present ack
       then exists q2 j online s0, gave_session h b q2 j online (A5 s0) k /\ asks (w_e q) = Some (s_ident s0) /\ carried5 s0 s
       else empty5 s).
  Proof. exact (present5 hash5 hash3 pick). Qed.
  (** Protocol 3: likewise.  Missing: a session of the other protocol level (3.1 or 3.1.1) is
      discarded ([session_present3_refuted]). *)
  Theorem session_present3_partial : forall c h b k b' out pr code, brun c h b -> bstep (EJoin k) b = BOk b' out -> In (OConnack3 k (Connack3 pr code)) out ->
    exists q t0 uuid p s, made_by h q k /\ w_e q = EConnect3 t0 uuid p /\ aget k (b_tasks b') = Some (TReady (A3 s)) /\ code = 0 /\
      (pr = true -> c3_clean p = false) /\
      (pr = true -> exists q2 j online s0 s1, gave_session h b q2 j online (A3 s0) k /\ asks (w_e q) = Some (z_ident s0) /\ z_v310 s0 = c3_v310 p /\
         s1 = (if online then s0 else v3_take_all (seconds (w_b q2)) (waiting (w_b q2) (z_id s0)) s0) /\ carried3 s1 s) /\
      (pr = false -> empty3 s) /\
      (pr = false -> c3_clean p = true \/ (exists i, asks (w_e q) = Some i /\ forall cid, ~ known (w_b q) i cid) \/
         exists q2 j online s0, gave_session h b q2 j online (A3 s0) k /\ asks (w_e q) = Some (z_ident s0) /\ z_v310 s0 <> c3_v310 p).
  Proof. exact (present3 hash5 hash3 pick). Qed.

  (** ** C30 *)

  (** A connection made with clean start has only subscriptions it asked for itself. *)
  Theorem clean_start_subscriptions : forall c h b k q a f, brun c h b -> made_by h q k -> e_clean (w_e q) = Some true -> sess_at b k = Some a ->
    In f (a_filters a) -> exists p, In p h /\ asked_filter k f p.
  Proof. exact (clean_subs hash5 hash3 pick). Qed.
  (** It drops every message routed to it by other subscriptions only.  Missing: such
      messages are still routed to it ([clean_start_routing_refuted]). *)
  Theorem clean_start_delivery_partial : forall c h b k b' out q a m r cs o, brun c h b -> bstep (ENormal k) b = BOk b' out -> made_by h q k ->
    e_clean (w_e q) = Some true -> sess_at b k = Some a -> aget (a_id a) (b_chans b) = Some (Chan cs (m :: r) o) ->
    (forall f p, In f (msg_filters (snd m)) -> In p h -> ~ asked_filter k f p) -> out = [] /\ sess_at b' k = Some a.
  Proof. exact (old_ignored hash5 hash3 pick). Qed.

  (** ** C31 *)

  (** At most one will is published for a connection: the one its CONNECT asked for. *)
  Theorem will_at_most_once : forall c h b k, brun c h b -> (List.length (wills_in k h) <= 1)%nat /\ forall w, In w (wills_in k h) -> asked_will k h = [w].
  Proof. exact (will_once hash5 hash3 pick). Qed.
  (** No will after an accepted DISCONNECT with reason 0. *)
  Theorem no_will_after_disconnect : forall c h b k e b1 out a hh b2, brun c h b -> bstep e b = BOk b1 out ->
    ((exists len x, e = EPacket5 k len (IDisconnect 0 x)) \/ (exists len, e = EPacket3 k len YDisconnect)) ->
    sess_at b1 k = Some a -> a_quit a = true -> bgo b1 hh b2 -> wills_in k hh = [] /\ wills_of k out = [].
  Proof. exact (disconnect_no_will hash5 hash3 pick). Qed.
  (** No will of connection [k] once another connection [k'] of its identifier is up. *)
  Theorem no_will_after_reconnect : forall c h b hh b' k k' p t0 a0 t' a', brun c h b -> bgo b hh b' -> In p h ->
    aget k (b_tasks (w_b p)) = Some t0 -> t_sess t0 = Some a0 -> aget k' (b_tasks b) = Some t' -> t_sess t' = Some a' -> t_connected t' = true ->
    a_ident a' = a_ident a0 -> k' <> k -> wills_in k hh = [].
  Proof. exact (no_will_taken hash5 hash3 pick). Qed.
  (** A will is published when the connection ends, or after its delay or the expiry of the
      session; not before. *)
  Theorem will_not_too_early : forall c h b e b' out k w, brun c h b -> bstep e b = BOk b' out -> In w (wills_of k out) ->
    (exists a, e = EEnd k true /\ aget k (b_tasks b) = Some (TEnd a) /\ a_will a = Some w /\ a_quit a = false /\ match a with A5 s => will_due s = None | A3 _ => True end) \/
    (exists p s w5, In p h /\ w_e p = EEnd k true /\ aget k (b_tasks (w_b p)) = Some (TEnd (A5 s)) /\ w = W5 w5 /\ s_will s = Some w5 /\
       b_now (w_b p) + N.min (opt_or (wl_delay w5) 0) (s_expiry s) * 1000 <= b_now b).
  Proof. exact (will_not_before hash5 hash3 pick). Qed.
  (** Without delay it is published as the connection ends. *)
  Theorem will_without_delay : forall c h b k b' out a w, brun c h b -> bstep (EEnd k true) b = BOk b' out -> aget k (b_tasks b) = Some (TEnd a) ->
    a_quit a = false -> a_will a = Some w -> aw_ok w = true -> match a with A5 s => will_due s = None | A3 _ => True end -> wills_of k out = [w].
  Proof. exact (fun c h b k b' out a w R => will_at_once hash5 hash3 pick b k b' out a w (run_good _ _ _ _ _ _ R)). Qed.
  (** With a delay shorter than the session's, a message that will publish it is pending. *)
  Theorem will_delay_pending : forall c h b k t s dl ct, brun c h b -> aget k (b_tasks b) = Some t -> t_sess t = Some (A5 s) -> t_late t = true ->
    (forall a, t <> TOffDrain a true) -> s_cdisc s = false -> will_due s = Some dl -> dl < s_expiry s -> s_ctime s = Some ct ->
    exists d, token b (s_id s) (CWill ct) d.
  Proof. exact (will_pending hash5 hash3 pick). Qed.
  (** When a session ends, the will of its last connection has been published unless that
      connection sent a DISCONNECT.  Missing: DISCONNECT with a reason other than 0, and
      wills of connections that were taken over or given up ([will_lost_refuted],
      [will_takeover_refuted]). *)
  Theorem will_by_session_end_partial : forall c h b e b' out i cid, brun c h b -> bstep e b = BOk b' out -> known b i cid -> ~ known b' i cid ->
    exists k t a, aget k (b_tasks b) = Some t /\ t_sess t = Some a /\ a_ident a = i /\
      (a_quit a = true \/ ((forall w, In w (asked_will k h) -> aw_ok w = true) -> wills_in k (Past b e out :: h) = asked_will k h)).
  Proof. exact (session_end_will hash5 hash3 pick). Qed.

  (** ** C32 *)

  (** An identifier is forgotten only when a connection of expiry interval 0 (clean session)
      has ended, or when its interval has elapsed since the connection's end was dealt with. *)
  Theorem session_kept_long_enough : forall c h b e b' out i cid, brun c h b -> bstep e b = BOk b' out -> known b i cid -> ~ known b' i cid ->
    exists k t a, aget k (b_tasks b) = Some t /\ t_sess t = Some a /\ a_ident a = i /\ a_id a = cid /\
      (e = EDone k /\ t = TDrain a /\ a_ends a = true \/
       t = TOffline a /\ a_v5 a = true /\ exists p a0, In p h /\ w_e p = EDone k /\ aget k (b_tasks (w_b p)) = Some (TDrain a0) /\ a_expiry a0 = a_expiry a /\
         b_now (w_b p) + a_expiry a * 1000 <= b_now b).
  Proof. exact (session_not_before hash5 hash3 pick). Qed.
  (** Interval 0 (clean session): the identifier is forgotten at the end of the connection. *)
  Theorem session_zero_gone : forall c h b k b' out a, brun c h b -> bstep (EDone k) b = BOk b' out -> aget k (b_tasks b) = Some (TDrain a) -> a_ends a = true ->
    aget k (b_tasks b') = None /\ forall i, ~ known b' i (a_id a).
  Proof. exact (zero_gone hash5 hash3 pick). Qed.
  (** An offline v5 session always has a message coming that ends it; its timer is set to the
      end of the interval. *)
  Theorem session_expiry_pending : forall c h b k a ct, brun c h b -> aget k (b_tasks b) = Some (TOffline a) -> a_v5 a = true -> a_ctime a = Some ct ->
    exists d p a0, token b (a_id a) (CExpired ct) d /\ In p h /\ w_e p = EDone k /\ aget k (b_tasks (w_b p)) = Some (TDrain a0) /\ a_expiry a0 = a_expiry a /\
      forall due, d = Some due -> due = b_now (w_b p) + a_expiry a * 1000.
  Proof. exact (expiry_coming hash5 hash3 pick). Qed.
  (** That message makes the server forget the identifier. *)
  Theorem session_expired_gone : forall c h b k b' out a ct ch, brun c h b -> bstep (EControl k) b = BOk b' out -> aget k (b_tasks b) = Some (TOffline a) -> a_v5 a = true ->
    a_ctime a = Some ct -> aget (a_id a) (b_chans b) = Some ch -> ch_ctl ch = [CExpired ct] -> forall i, ~ known b' i (a_id a).
  Proof. exact (expiry_gone hash5 hash3 pick). Qed.
  (** A session of interval 0 keeps it: DISCONNECT cannot raise it. *)
  Theorem session_zero_stays : forall c h b k b1 out len code x s s1, brun c h b -> bstep (EPacket5 k len (IDisconnect code x)) b = BOk b1 out ->
    aget k (b_tasks b) = Some (TOnline (A5 s)) -> aget k (b_tasks b1) = Some (TOnline (A5 s1)) -> s_expiry s = 0 -> s_expiry s1 = 0.
  Proof. exact (disconnect_zero hash5 hash3 pick). Qed.

  (** ** C33 and C34 *)

  (** Every request to end a live connection by keep-alive comes from a timer of the same
      identifier; if it is this connection's own, it had been silent for more than 1.5
      intervals.  Missing: timers of earlier connections ([stale_timer_refuted]). *)
  Theorem keep_alive_reason_partial : forall c h b k t a, brun c h b -> aget k (b_tasks b) = Some t -> t_sess t = Some a -> t_going t = true -> kick_coming b (a_id a) ->
    exists h2 p h1 n k0 half due, h = (h2 ++ p :: h1)%list /\ w_e p = EFire n /\ nth_error (b_timers (w_b p)) n = Some (IKeep (a_id a) k0 half due) /\
      (k0 = k /\ 0 < a_keep a /\ heard k h1 + a_keep a * 1500 < b_now (w_b p) \/
       k0 <> k /\ exists q, In q h /\ asks (w_e q) = Some (a_ident a) /\ b_conns (w_b q) = k0).
  Proof. exact (kick_reason hash5 hash3 pick). Qed.
  (** The only connection of its identifier is not asked to end if it was never silent for
      more than 1.5 intervals, counted from when it was accepted.  Missing: counting from
      CONNECT ([slow_connect_refuted]), and identifiers with earlier connections. *)
  Theorem keep_alive_regular_partial : forall c h b k t a, brun c h b -> aget k (b_tasks b) = Some t -> t_sess t = Some a -> t_going t = true ->
    (forall q, In q h -> asks (w_e q) = Some (a_ident a) -> b_conns (w_b q) = k) ->
    (forall h2 p h1, h = (h2 ++ p :: h1)%list -> k < b_conns (w_b p) -> b_now (w_b p) <= heard k h1 + a_keep a * 1500) ->
    ~ kick_coming b (a_id a).
  Proof. exact (regular_kept hash5 hash3 pick). Qed.
  (** With keep-alive 0 it is never asked to end. *)
  Theorem keep_alive_zero : forall c h b k t a, brun c h b -> aget k (b_tasks b) = Some t -> t_sess t = Some a -> t_going t = true ->
    (forall q, In q h -> asks (w_e q) = Some (a_ident a) -> b_conns (w_b q) = k) -> a_keep a = 0 -> ~ kick_coming b (a_id a).
  Proof. exact (zero_kept hash5 hash3 pick). Qed.
  (** A connection silent for 2 intervals has been asked to end, or a timer that asks it to is
      overdue. *)
  Theorem keep_alive_silent : forall c h b k a, brun c h b -> aget k (b_tasks b) = Some (TOnline a) -> a_disc a = false -> 0 < a_keep a ->
    heard k h + a_keep a * 2000 <= b_now b ->
    kick_coming b (a_id a) \/ exists n b', bstep (EFire n) b = BOk b' [] /\ kick_coming b' (a_id a).
  Proof. exact (silent_kicked hash5 hash3 pick). Qed.
  (** A connection asked to end ends. *)
  Theorem keep_alive_ends : forall k b b' out a ch, bstep (EControl k) b = BOk b' out -> aget k (b_tasks b) = Some (TOnline a) ->
    aget (a_id a) (b_chans b) = Some ch -> ch_ctl ch = [CKick] -> aget k (b_tasks b') = Some (TEnd a).
  Proof. exact (kicked_ends hash5 hash3 pick). Qed.
End Props.

(** ** Cases that meet the hypotheses *)
Definition x_a (clean : bool) : bev := x_c5 "a" clean 60 (Some 100) None.
Definition x_sub (k : N) (f : string) : bev := EPacket5 k 10 (ISub 1 None [(f, SubOpts L1 false false RH_send)]).
Definition x_pub (k : N) (t : string) : bev := EPacket5 k 10 (IPub (WPub5 false (Q1 7) false t "m" (PProps None None [] ""))).

(** Two clients are known; one is removed and comes back with a new id. *)
Definition x_two : list bev := x_a true :: x_up 0 ++ [x_c5 "b" true 60 None None] ++ x_up 1 ++ x_down 1 ++ [x_c5 "b" true 60 None None] ++ x_up 2.
Example ids_case : exists h b, x_run h b /\ known b "a" 0 /\ known b "b" 2 /\ exists p, In p h /\ known (w_b p) "b" 1.
Proof.
  run_of x_two. split; [reflexivity|split; [reflexivity|]]. eexists. split; [do 4 right; left; reflexivity|]. reflexivity.
Qed.
Example ids_removed_case : exists h b, x_run h b /\ known b "b" 1 /\ exists b2 o2, exec x_h5 x_h3 x_pick (x_down 1) b = Some (b2, o2) /\ (forall j, ~ known b2 j 1) /\
  exists b3 o3, exec x_h5 x_h3 x_pick ([x_c5 "b" true 60 None None] ++ x_up 2) b2 = Some (b3, o3) /\ known b3 "b" 2.
Proof.
  run_of (x_a true :: x_up 0 ++ [x_c5 "b" true 60 None None] ++ x_up 1). split; [reflexivity|]. go_of (x_down 1). split.
  - intros j. unfold known. cbn. destruct (String.eqb j "a"); discriminate.
  - go_of ([x_c5 "b" true 60 None None] ++ x_up 2)%list. reflexivity.
Qed.
Example session_id_case : exists h b, x_run h b /\ exists a, sess_at b 0 = Some a /\ a_ident a = "a"%string /\ forall a', aget 0 (b_tasks b) <> Some (TOffDrain a' true).
Proof. run_of x_two. eexists. split; [reflexivity|]. split; [reflexivity|]. intros a'. vm_compute. discriminate. Qed.
(** A known identifier connects. *)
Example connect_case : exists h b, x_run h b /\ known b "a" 0 /\ asks (x_a true) = Some "a"%string /\ exists b', x_step (x_a true) b = BOk b' [].
Proof. run_of (x_a true :: x_up 0). split; [reflexivity|split; [reflexivity|]]. eexists. vm_compute. reflexivity. Qed.

Example gauge_case : exists h b, x_run h b /\ connected_count b = 2%nat /\ (forall p, In p h -> calm p) /\ (forall k t, aget k (b_tasks b) = Some t -> t_connecting t = false).
Proof.
  run_of x_two. split; [reflexivity|]. split.
  - apply Forall_forall. repeat (constructor; [split; cbn [w_out w_e asks]; [cbn; intuition discriminate|
      first [intros i k t E; discriminate E | intros i k t E A T; vm_compute in E; injection E as <-; cbn [w_b b_tasks] in A;
        repeat (cbn [aget] in A; match type of A with (if ?x then _ else _) = _ => destruct x end); try discriminate; injection A as <-; try (vm_compute in T; discriminate T); reflexivity]]|]). constructor.
  - intros k t A. cbn [b_tasks] in A. repeat (cbn [aget] in A; match type of A with (if ?x then _ else _) = _ => destruct x end); try discriminate; injection A as <-; reflexivity.
Qed.
Example underflow_case : exists h b, x_run h b /\ exists a, aget 0 (b_tasks b) = Some (TDrain a) /\ r_online (b_reg b) = 1.
Proof. run_of (x_a true :: x_up 0 ++ [EClose 0; EEnd 0 true]). eexists. split; reflexivity. Qed.
(** C27 fails: after a takeover two clients are counted, one is connected. *)
Theorem gauge_refuted : exists h b, x_run h b /\ (forall k t, aget k (b_tasks b) = Some t -> t_connecting t = false) /\ connected_count b = 1%nat /\ r_online (b_reg b) = 2.
Proof.
  run_of (x_a true :: x_up 0 ++ [x_a false] ++ x_over 0 1 ++ x_up 1). split; [|split; reflexivity].
  intros k t A. cbn [b_tasks] in A. repeat (cbn [aget] in A; match type of A with (if ?x then _ else _) = _ => destruct x end); try discriminate; injection A as <-; reflexivity.
Qed.

Example served_case : exists h b, x_run h b /\ known b "a" 0 /\ forall p, In p h -> ~ gave_up "a" p.
Proof.
  run_of (x_a true :: x_up 0 ++ x_down 0). split; [reflexivity|]. apply Forall_forall. repeat (constructor; [intros (k & t & O & _); cbn [w_out] in O; cbn in O; intuition discriminate|]). constructor.
Qed.
Example one_session_case : exists h b, x_run h b /\ exists t, aget 0 (b_tasks b) = Some t /\ in_charge t "a".
Proof. run_of (x_a true :: x_up 0). eexists. split; reflexivity. Qed.
Example takeover_case : exists h b, x_run h b /\ exists a x ms, aget 0 (b_tasks b) = Some (TOffline a) /\ aget 1 (b_tasks b) = Some (TSend x (a_id a)) /\
  aget (a_id a) (b_chans b) = Some (Chan [] ms true) /\ a_v5 a = p_v5 x.
Proof. run_of (x_a true :: x_up 0 ++ x_down 0 ++ [x_a false]). do 3 eexists. repeat split. Qed.
(** C28 fails: a connection that is lost between its registration and CONNACK locks its
    identifier out for good; nobody ever gets a session of it. *)
Theorem lockout_refuted : exists h b, x_run h b /\ known b "a" 0 /\
  forall h' b', BrokerSpec.bgo x_h5 x_h3 x_pick b h' b' -> known b' "a" 0 /\ forall k a, sess_at b' k = Some a -> a_ident a <> "a"%string.
Proof.
  assert (X : exists h b, x_run h b /\ known b "a" 0 /\ b_tasks b = [] /\ exists ms, aget 0 (b_chans b) = Some (Chan [] ms false)).
  { run_of [x_a true; EFail 0]. split; [reflexivity|]. split; [reflexivity|]. eexists. reflexivity. }
  destruct X as (h & b & R & K & T & ms & C). exists h, b. split; [exact R|]. split; [exact K|]. intros h' b' G.
  pose proof (run_good _ _ _ _ _ _ R) as GB. assert (D : dead b "a" 0). { split; [exact K|]. exists []. exact (f_equal (option_map cview) C). }
  split; [apply (dead_go _ _ _ _ _ _ _ _ GB G D)|]. apply (dead_for_good x_h5 x_h3 x_pick b h' b' "a" 0 GB D); auto.
  intros k a A. unfold sess_at in A. rewrite T in A. discriminate.
Qed.
(** ... and a client of the other protocol version is refused while the session lives. *)
Theorem other_protocol_refuted : exists h b, x_run h b /\ exists b' t, x_step (EControl 0) b = BOk b' [OClosed 1] /\
  aget 0 (b_tasks b') = Some t /\ in_charge t "a" /\ exists q, In q h /\ w_e q = x_c3 false "a" false 60 None /\ b_conns (w_b q) = 1.
Proof.
  run_of (x_a true :: x_up 0 ++ [x_c3 false "a" false 60 None; EPut 1]). eexists. eexists. split; [vm_compute; reflexivity|]. split; [vm_compute; reflexivity|]. split; [reflexivity|].
  eexists. split; [right; left; reflexivity|]. split; reflexivity.
Qed.

(** A session with a subscription is taken over; CONNACK says present. *)
Definition x_resume : list bev := x_a true :: x_up 0 ++ [x_sub 0 "t"] ++ x_down 0 ++ [x_a false] ++ x_over 0 1 ++ [ETick 1].
Example present5_case : exists h b, x_run h b /\ exists b' ack s, x_step (EJoin 1) b = BOk b' [OConnack5 1 ack] /\ ka_code ack = RC_success /\ ka_present ack = true /\
  aget 1 (b_tasks b') = Some (TReady (A5 s)) /\ keys (s_subs s) = ["t"%string].
Proof. run_of x_resume. do 3 eexists. split; [vm_compute; reflexivity|]. split; [reflexivity|]. split; [reflexivity|]. split; [vm_compute; reflexivity|]. reflexivity. Qed.
Definition x_s3 (k : N) (f : string) : bev := EPacket3 k 10 (YSub 1 [(f, L1)]).
Example present3_case : exists h b, x_run h b /\ exists b' s, x_step (EJoin 1) b = BOk b' [OConnack3 1 (Connack3 true 0)] /\
  aget 1 (b_tasks b') = Some (TReady (A3 s)) /\ keys (z_subs s) = ["t"%string].
Proof.
  run_of (x_c3 false "a" false 60 None :: x_up 0 ++ [x_s3 0 "t"] ++ x_down 0 ++ [x_c3 false "a" false 60 None] ++ x_over 0 1 ++ [ETick 1]).
  do 2 eexists. split; [vm_compute; reflexivity|]. split; [vm_compute; reflexivity|]. reflexivity.
Qed.
(** C29 fails for protocol 3.1 after 3.1.1: clean session was not asked for and a session
    existed, yet it is discarded. *)
Theorem session_present3_refuted : exists h b, x_run h b /\ exists b' s, x_step (EJoin 1) b = BOk b' [OConnack3 1 (Connack3 false 0)] /\
  aget 1 (b_tasks b') = Some (TReady (A3 s)) /\ z_subs s = [] /\
  exists q, made_by h q 1 /\ w_e q = x_c3 true "a" false 60 None /\ exists s0, sess_at (w_b q) 0 = Some (A3 s0) /\ z_ident s0 = "a"%string /\ keys (z_subs s0) = ["t"%string].
Proof.
  run_of (x_c3 false "a" false 60 None :: x_up 0 ++ [x_s3 0 "t"] ++ x_down 0 ++ [x_c3 true "a" false 60 None] ++ x_over 0 1 ++ [ETick 1]).
  do 2 eexists. split; [vm_compute; reflexivity|]. split; [vm_compute; reflexivity|]. split; [reflexivity|]. eexists. split; [split; [do 3 right; left; reflexivity|reflexivity]|].
  split; [reflexivity|]. eexists. split; [vm_compute; reflexivity|]. split; reflexivity.
Qed.

(** Client "a" shares a subscription with "b", comes back with clean start, "p" publishes. *)
Definition x_stale : list bev :=
  x_a true :: x_up 0 ++ [x_sub 0 "$share/g/t"; x_c5 "b" true 60 None None] ++ x_up 1 ++ [x_sub 1 "$share/g/t"; x_a true] ++ x_over 0 2 ++ x_up 2 ++
  [x_sub 2 "u"; x_c5 "p" true 60 None None] ++ x_up 3 ++ [x_pub 3 "t"].
Example clean_start_case : exists h b, x_run h b /\ exists q a m r, made_by h q 2 /\ e_clean (w_e q) = Some true /\ sess_at b 2 = Some a /\ a_filters a = ["u"%string] /\
  aget (a_id a) (b_chans b) = Some (Chan [] (m :: r) true) /\ msg_filters (snd m) = ["$share/g/t"%string] /\ (exists b', x_step (ENormal 2) b = BOk b' []) /\
  forall f p, In f (msg_filters (snd m)) -> In p h -> ~ asked_filter 2 f p.
Proof.
  run_of (x_stale ++ [EFlush 3 0]). eexists. do 3 eexists. split; [split; [do 12 right; left; reflexivity|reflexivity]|]. split; [reflexivity|]. split; [vm_compute; reflexivity|].
  split; [reflexivity|]. split; [vm_compute; reflexivity|]. split; [reflexivity|]. split; [eexists; vm_compute; reflexivity|].
  intros f p [<-|[]]. revert p. apply Forall_forall. repeat (constructor; [intros [(len & pid & id & fs & E & I)|(len & pid & fs & E & I)]; cbn [w_e] in E; first [discriminate E|
    injection E; intros; subst; cbn in I; intuition discriminate]|]). constructor.
Qed.
(** C30 fails: the message is routed to the client by its earlier session's subscription; it
    drops the message, and the other member of the group, who is online, gets nothing. *)
Theorem clean_start_routing_refuted : exists h b, x_run h b /\
  (exists a p, sess_at b 2 = Some a /\ a_id a = 0 /\ a_filters a = ["u"%string] /\ sess_at b 3 = Some p /\ exists m, aget 0 (a_bcast p) = Some [m] /\ msg_filters m = ["$share/g/t"%string]) /\
  exists b' p, exec x_h5 x_h3 x_pick [EFlush 3 0; ENormal 2; EFlush 3 0] b = Some (b', []) /\ sess_at b' 3 = Some p /\ a_bcast p = [] /\
    (exists a, sess_at b' 1 = Some a /\ a_filters a = ["$share/g/t"%string]) /\ forall d, waiting b' d = [].
Proof.
  run_of x_stale. split.
  - do 2 eexists. split; [vm_compute; reflexivity|]. split; [reflexivity|]. split; [reflexivity|]. split; [vm_compute; reflexivity|]. eexists. split; reflexivity.
  - do 2 eexists. split; [vm_compute; reflexivity|]. split; [vm_compute; reflexivity|]. split; [reflexivity|]. split; [eexists; split; vm_compute; reflexivity|].
    intros d. unfold waiting. cbn [b_chans]. repeat (cbn [aget]; match goal with |- match (if ?x then _ else _) with _ => _ end = _ => destruct x; [reflexivity|] end). reflexivity.
Qed.

(** A will with delay 5 is published; one more connection, taken over, loses its own. *)
Definition x_w (delay : option N) (expiry : option N) : bev := x_c5 "a" true 60 expiry (Some (x_will delay)).
Example will_once_case : exists h b, x_run h b /\ wills_in 0 h = [W5 (x_will (Some 5))].
Proof. run_of (x_w (Some 5) (Some 100) :: x_up 0 ++ x_down 0 ++ [ETick 6000; EFire 1; EFire 1; EControl 0]). reflexivity. Qed.
Example no_will_case : exists h b, x_run h b /\ exists b1 a, x_step (EPacket5 0 4 (IDisconnect 0 None)) b = BOk b1 [] /\ sess_at b1 0 = Some a /\ a_quit a = true /\
  asked_will 0 h = [W5 (x_will None)].
Proof. run_of (x_w None None :: x_up 0). do 2 eexists. split; [vm_compute; reflexivity|]. split; [vm_compute; reflexivity|]. split; reflexivity. Qed.
Example no_will_case3 : exists h b, x_run h b /\ exists b1 a, x_step (EPacket3 0 2 YDisconnect) b = BOk b1 [] /\ sess_at b1 0 = Some a /\ a_quit a = true /\
  asked_will 0 h = [W3 (Will3 L0 false "w" "bye")].
Proof.
  run_of (x_c3 false "a" true 60 (Some (Will3 L0 false "w" "bye")) :: x_up 0). do 2 eexists. split; [vm_compute; reflexivity|]. split; [vm_compute; reflexivity|]. split; reflexivity.
Qed.
(** The client is back within the delay. *)
Example reconnect_case : exists h b, x_run h b /\ exists p t0 a0 t' a', In p h /\ aget 0 (b_tasks (w_b p)) = Some t0 /\ t_sess t0 = Some a0 /\
  a_will a0 = Some (W5 (x_will (Some 5))) /\ aget 1 (b_tasks b) = Some t' /\ t_sess t' = Some a' /\ t_connected t' = true /\ a_ident a' = a_ident a0.
Proof.
  run_of (x_w (Some 5) (Some 100) :: x_up 0 ++ x_down 0 ++ [x_a false] ++ x_over 0 1 ++ x_up 1). do 5 eexists. split; [do 4 right; left; reflexivity|].
  split; [vm_compute; reflexivity|]. split; [reflexivity|]. split; [reflexivity|]. split; [vm_compute; reflexivity|]. split; [reflexivity|]. split; reflexivity.
Qed.
Example will_early_case : exists h b, x_run h b /\ exists b' out, x_step (EControl 0) b = BOk b' out /\ In (W5 (x_will (Some 5))) (wills_of 0 out).
Proof. run_of (x_w (Some 5) (Some 100) :: x_up 0 ++ x_down 0 ++ [ETick 6000; EFire 1; EFire 1]). do 2 eexists. split; [vm_compute; reflexivity|]. left. reflexivity. Qed.
Example will_now_case : exists h b, x_run h b /\ exists b' out s, x_step (EEnd 0 true) b = BOk b' out /\ aget 0 (b_tasks b) = Some (TEnd (A5 s)) /\ s_cdisc s = false /\
  a_will (A5 s) = Some (W5 (x_will None)) /\ aw_ok (W5 (x_will None)) = true /\ will_due s = None.
Proof. run_of (x_w None (Some 100) :: x_up 0 ++ [EClose 0]). do 3 eexists. split; [vm_compute; reflexivity|]. split; [vm_compute; reflexivity|]. repeat split. Qed.
Example will_pending_case : exists h b, x_run h b /\ exists t s, aget 0 (b_tasks b) = Some t /\ t_sess t = Some (A5 s) /\ t_late t = true /\ (forall a, t <> TOffDrain a true) /\
  s_cdisc s = false /\ will_due s = Some 5 /\ 5 < s_expiry s /\ exists ct, s_ctime s = Some ct.
Proof.
  run_of (x_w (Some 5) (Some 100) :: x_up 0 ++ x_down 0). do 2 eexists. split; [vm_compute; reflexivity|]. split; [reflexivity|]. split; [reflexivity|]. split; [discriminate|].
  split; [reflexivity|]. split; [reflexivity|]. split; [reflexivity|]. eexists. reflexivity.
Qed.
Example session_end_case : exists h b, x_run h b /\ exists b' out, x_step (EControl 0) b = BOk b' out /\ known b "a" 0 /\ ~ known b' "a" 0 /\ wills_of 0 out = [W5 (x_will (Some 500))].
Proof.
  run_of (x_w (Some 500) (Some 100) :: x_up 0 ++ x_down 0 ++ [ETick 100000; EFire 1; EFire 1]). do 2 eexists. split; [vm_compute; reflexivity|]. split; [reflexivity|].
  split; [discriminate|reflexivity].
Qed.
(** C31 fails: DISCONNECT with reason 4 ("disconnect with will message") and no session
    expiry: the session ends and the will is never published. *)
Theorem will_lost_refuted : exists h b, x_run h b /\ asked_will 0 h = [W5 (x_will None)] /\ (exists p, In p h /\ w_e p = EPacket5 0 4 (IDisconnect 4 None)) /\
  (forall d, ~ known b "a" d) /\ wills_in 0 h = [] /\ forall hh b', BrokerSpec.bgo x_h5 x_h3 x_pick b hh b' -> wills_in 0 hh = [].
Proof.
  assert (X : exists h b, x_run h b /\ asked_will 0 h = [W5 (x_will None)] /\ (exists p, In p h /\ w_e p = EPacket5 0 4 (IDisconnect 4 None)) /\
    (forall d, ~ known b "a" d) /\ wills_in 0 h = [] /\ b_tasks b = [] /\ b_conns b = 1).
  { run_of (x_w None None :: x_up 0 ++ [EPacket5 0 4 (IDisconnect 4 None)] ++ x_down 0). split; [reflexivity|]. split; [eexists; split; [do 3 right; left; reflexivity|reflexivity]|].
    split; [intros d; discriminate|]. repeat split. }
  destruct X as (h & b & R & W & P & K & N0 & T & C). exists h, b. do 5 (split; auto). intros hh b' G.
  apply (no_will_later _ _ _ b hh b' 0 (run_good _ _ _ _ _ _ R) G); [rewrite C; reflexivity|]. unfold will_at. rewrite T. reflexivity.
Qed.
(** ... and a connection without will delay that is taken over loses its will. *)
Theorem will_takeover_refuted : exists h b, x_run h b /\ asked_will 0 h = [W5 (x_will None)] /\ aget 0 (b_tasks b) = None /\
  wills_in 0 h = [] /\ forall hh b', BrokerSpec.bgo x_h5 x_h3 x_pick b hh b' -> wills_in 0 hh = [].
Proof.
  assert (X : exists h b, x_run h b /\ asked_will 0 h = [W5 (x_will None)] /\ aget 0 (b_tasks b) = None /\ wills_in 0 h = [] /\ b_conns b = 2).
  { run_of (x_w None (Some 100) :: x_up 0 ++ [x_a false] ++ x_over 0 1 ++ x_up 1). repeat split. }
  destruct X as (h & b & R & W & T & N0 & C). exists h, b. do 4 (split; auto). intros hh b' G.
  apply (no_will_later _ _ _ b hh b' 0 (run_good _ _ _ _ _ _ R) G); [rewrite C; reflexivity|]. unfold will_at. rewrite T. reflexivity.
Qed.

Example kept_case : exists h b, x_run h b /\ exists b' out, x_step (EControl 0) b = BOk b' out /\ known b "a" 0 /\ ~ known b' "a" 0.
Proof. run_of (x_a true :: x_up 0 ++ x_down 0 ++ [ETick 100000; EFire 1; EFire 1]). do 2 eexists. split; [vm_compute; reflexivity|]. split; [reflexivity|discriminate]. Qed.
Example zero_case : exists h b, x_run h b /\ exists b' a, x_step (EDone 0) b = BOk b' [] /\ aget 0 (b_tasks b) = Some (TDrain a) /\ a_ends a = true.
Proof. run_of (x_c5 "a" true 60 None None :: x_up 0 ++ [EClose 0; EEnd 0 true]). do 2 eexists. split; [vm_compute; reflexivity|]. split; reflexivity. Qed.
Example expiry_pending_case : exists h b, x_run h b /\ exists a ct, aget 0 (b_tasks b) = Some (TOffline a) /\ a_v5 a = true /\ a_ctime a = Some ct.
Proof. run_of (x_a true :: x_up 0 ++ x_down 0). do 2 eexists. split; [vm_compute; reflexivity|]. split; reflexivity. Qed.
Example expired_case : exists h b, x_run h b /\ exists b' a ct ch, x_step (EControl 0) b = BOk b' [] /\ aget 0 (b_tasks b) = Some (TOffline a) /\ a_v5 a = true /\ a_ctime a = Some ct /\
  aget (a_id a) (b_chans b) = Some ch /\ ch_ctl ch = [CExpired ct].
Proof.
  run_of (x_a true :: x_up 0 ++ x_down 0 ++ [ETick 100000; EFire 1; EFire 1]). do 4 eexists. split; [vm_compute; reflexivity|]. split; [vm_compute; reflexivity|].
  split; [reflexivity|]. split; [reflexivity|]. split; reflexivity.
Qed.
Example zero_stays_case : exists h b, x_run h b /\ exists b1 out s s1, x_step (EPacket5 0 9 (IDisconnect 0 (Some 50))) b = BOk b1 out /\
  aget 0 (b_tasks b) = Some (TOnline (A5 s)) /\ aget 0 (b_tasks b1) = Some (TOnline (A5 s1)) /\ s_expiry s = 0.
Proof. run_of (x_c5 "a" true 60 None None :: x_up 0). do 4 eexists. split; [vm_compute; reflexivity|]. split; [vm_compute; reflexivity|]. split; [vm_compute; reflexivity|]. reflexivity. Qed.
(** C32 fails: with the maximum interval (never expire) the session is removed after
    2^32-1 seconds. *)
Theorem session_max_refuted : exists h b, x_run h b /\ (forall d, ~ known b "a" d) /\
  exists p s, In p h /\ sess_at (w_b p) 0 = Some (A5 s) /\ s_ident s = "a"%string /\ s_expiry s = 4294967295.
Proof.
  run_of (x_c5 "a" true 60 (Some 4294967295) None :: x_up 0 ++ x_down 0 ++ [ETick 4294967295000; EFire 1; EFire 1; EControl 0]). split; [intros d; discriminate|].
  do 2 eexists. split; [do 5 right; left; reflexivity|]. split; [vm_compute; reflexivity|]. split; reflexivity.
Qed.
(** ... and its routes may stay: after a clean start and the removal of the session the
    client is still in the shared group, and the message for the group is lost. *)
Theorem session_routes_refuted : exists h b, x_run h b /\ (forall d, ~ known b "a" d) /\ (exists a, sess_at b 1 = Some a /\ a_filters a = ["$share/g/t"%string]) /\
  exists b' p, x_step (x_pub 3 "t") b = BOk b' [OPkt5 3 (KPuback 7 0)] /\ sess_at b' 3 = Some p /\ a_bcast p = [].
Proof.
  run_of (x_a true :: x_up 0 ++ [x_sub 0 "$share/g/t"; x_c5 "b" true 60 None None] ++ x_up 1 ++ [x_sub 1 "$share/g/t"; x_c5 "a" true 60 None None] ++ x_over 0 2 ++ x_up 2 ++
    x_down 2 ++ [x_c5 "p" true 60 None None] ++ x_up 3).
  split; [intros d; discriminate|]. split; [eexists; split; vm_compute; reflexivity|]. do 2 eexists. split; [vm_compute; reflexivity|]. split; [vm_compute; reflexivity|]. reflexivity.
Qed.
(** ... and DISCONNECT may set an interval above the configured maximum. *)
Theorem session_expiry_cap_refuted : exists c h b, BrokerSpec.brun x_h5 x_h3 x_pick c h b /\ cf_max_expiry c = 100 /\ exists s, sess_at b 0 = Some (A5 s) /\ s_expiry s = 1000000.
Proof.
  exists (Config 2 15 10 10 256 10 65535 100 268435460 268435460 65535 true true true true).
  assert (E : exists h b, trace x_h5 x_h3 x_pick (x_c5 "a" true 60 (Some 1000) None :: x_up 0 ++ [EPacket5 0 9 (IDisconnect 0 (Some 1000000))]) []
      (broker_new (Config 2 15 10 10 256 10 65535 100 268435460 268435460 65535 true true true true)) = Some (h, b) /\ exists s, sess_at b 0 = Some (A5 s) /\ s_expiry s = 1000000).
  { vm_compute. do 2 eexists. split; [reflexivity|]. eexists. split; reflexivity. }
  destruct E as (h & b & E & S). exists h, b. split; [apply (trace_new _ _ _ _ _ _ _ E)|]. split; auto.
Qed.

(** Silent for two intervals. *)
Definition x_quiet : list bev := x_a true :: x_up 0 ++ [EFire 0; ETick 120000].
Example keep_silent_case : exists h b, x_run h b /\ exists a, aget 0 (b_tasks b) = Some (TOnline a) /\ a_disc a = false /\ a_keep a = 60 /\ heard 0 h + a_keep a * 2000 <= b_now b.
Proof. run_of x_quiet. eexists. split; [vm_compute; reflexivity|]. split; [reflexivity|]. split; [reflexivity|]. vm_compute. discriminate. Qed.
Example keep_reason_case : exists h b, x_run h b /\ exists t a, aget 0 (b_tasks b) = Some t /\ t_sess t = Some a /\ t_going t = true /\ kick_coming b (a_id a).
Proof. run_of (x_quiet ++ [EFire 0]). do 2 eexists. split; [vm_compute; reflexivity|]. split; [reflexivity|]. split; [reflexivity|]. left. left. reflexivity. Qed.
Example keep_ends_case : exists h b, x_run h b /\ exists b' a ch, x_step (EControl 0) b = BOk b' [] /\ aget 0 (b_tasks b) = Some (TOnline a) /\
  aget (a_id a) (b_chans b) = Some ch /\ ch_ctl ch = [CKick].
Proof. run_of (x_quiet ++ [EFire 0; EFire 0]). do 3 eexists. split; [vm_compute; reflexivity|]. split; [vm_compute; reflexivity|]. split; [vm_compute; reflexivity|]. reflexivity. Qed.
(** It sends PINGREQ every minute. *)
Definition x_ping : list bev := x_a true :: x_up 0 ++ [EFire 0; ETick 60000; EPacket5 0 2 IPing; EFire 0; ETick 60000; EPacket5 0 2 IPing; EFire 0].
Lemma splits_all {A} (P : list A -> A -> Prop) (h : list A) : (fix all l := match l with [] => True | p :: r => P r p /\ all r end) h -> forall h2 p h1, h = (h2 ++ p :: h1)%list -> P h1 p.
Proof. induction h as [|q h IH]; intros H h2 p h1 E; destruct h2; try discriminate; inversion E; subst; [apply H|]. eapply IH; [apply H|reflexivity]. Qed.
Example keep_regular_case : exists h b, x_run h b /\ exists t a, aget 0 (b_tasks b) = Some t /\ t_sess t = Some a /\ t_going t = true /\ a_keep a = 60 /\ b_now b = 120001 /\
  (forall q, In q h -> asks (w_e q) = Some (a_ident a) -> b_conns (w_b q) = 0) /\
  (forall h2 p h1, h = (h2 ++ p :: h1)%list -> 0 < b_conns (w_b p) -> b_now (w_b p) <= heard 0 h1 + a_keep a * 1500).
Proof.
  run_of x_ping. do 2 eexists. split; [vm_compute; reflexivity|]. split; [reflexivity|]. split; [reflexivity|]. split; [reflexivity|]. split; [reflexivity|]. split.
  - refine (proj1 (Forall_forall (fun q => asks (w_e q) = Some _ -> b_conns (w_b q) = 0) _) _). repeat (constructor; [first [intros E; discriminate E|intros _; reflexivity]|]). constructor.
  - apply (splits_all (fun h1 p => 0 < b_conns (w_b p) -> b_now (w_b p) <= heard 0 h1 + _ * 1500)).
    repeat (split; [intros _; apply N.leb_le; vm_compute; reflexivity|]). exact I.
Qed.
Example keep_zero_case : exists h b, x_run h b /\ exists t a, aget 0 (b_tasks b) = Some t /\ t_sess t = Some a /\ t_going t = true /\ a_keep a = 0 /\
  (forall q, In q h -> asks (w_e q) = Some (a_ident a) -> b_conns (w_b q) = 0).
Proof.
  run_of (x_c3 false "a" true 0 None :: x_up 0 ++ [ETick 1000000]). do 2 eexists. split; [vm_compute; reflexivity|]. split; [reflexivity|]. split; [reflexivity|]. split; [reflexivity|].
  refine (proj1 (Forall_forall (fun q => asks (w_e q) = Some _ -> b_conns (w_b q) = 0) _) _). repeat (constructor; [first [intros E; discriminate E|intros _; reflexivity]|]). constructor.
Qed.
(** C33 fails: a client that sends CONNECT 100 seconds after the connection was accepted,
    with keep-alive 60, is disconnected at once. *)
Theorem slow_connect_refuted : exists h b, x_run h b /\ b_now b = 100001 /\ (exists a, aget 0 (b_tasks b) = Some (TEnd a) /\ a_keep a = 60 /\ a_disc a = false) /\
  exists p, In p h /\ w_e p = x_a true /\ b_now (w_b p) = 100000.
Proof.
  run_of ([ETick 100000; x_a true; ETick 1; EJoin 0; EFire 0; EFire 0; EStart 0; EControl 0]). split; [reflexivity|]. split; [eexists; split; [vm_compute; reflexivity|]; split; reflexivity|].
  eexists. split; [do 6 right; left; reflexivity|]. split; reflexivity.
Qed.
(** C34 fails: connection 1 took over from connection 0 and sent a packet just now; the
    timer of connection 0 disconnects it. *)
Theorem stale_timer_refuted : exists h b, x_run h b /\ (exists a, aget 1 (b_tasks b) = Some (TEnd a) /\ a_keep a = 60 /\ a_disc a = false) /\ heard 1 h = b_now b /\
  (forall h2 p h1, h = (h2 ++ p :: h1)%list -> 1 < b_conns (w_b p) -> b_now (w_b p) <= heard 1 h1 + 60000).
Proof.
  run_of (x_a true :: x_up 0 ++ [EFire 0; x_a false] ++ x_over 0 1 ++ x_up 1 ++ [ETick 60000; EPacket5 1 2 IPing; ETick 60000; EPacket5 1 2 IPing; EFire 0; EFire 0; EControl 1]).
  split; [eexists; split; [vm_compute; reflexivity|]; split; reflexivity|]. split; [reflexivity|].
  apply (splits_all (fun h1 p => 1 < b_conns (w_b p) -> b_now (w_b p) <= heard 1 h1 + 60000)).
  repeat (split; [first [intros _; apply N.leb_le; vm_compute; reflexivity|intros L; vm_compute in L; discriminate L]|]). exact I.
Qed.

Print Assumptions ids_one_to_one.
Print Assumptions ids_never_reused.
Print Assumptions ids_removed_for_good.
Print Assumptions session_has_its_id.
Print Assumptions connect_never_panics.
Print Assumptions gauge_at_least.
Print Assumptions gauge_no_underflow.
Print Assumptions gauge_exact_partial.
Print Assumptions one_session_per_identifier.
Print Assumptions identifier_served_partial.
Print Assumptions takeover_possible.
Print Assumptions session_present5.
Print Assumptions session_present3_partial.
Print Assumptions clean_start_subscriptions.
Print Assumptions clean_start_delivery_partial.
Print Assumptions will_at_most_once.
Print Assumptions no_will_after_disconnect.
Print Assumptions no_will_after_reconnect.
Print Assumptions will_not_too_early.
Print Assumptions will_without_delay.
Print Assumptions will_delay_pending.
Print Assumptions will_by_session_end_partial.
Print Assumptions session_kept_long_enough.
Print Assumptions session_zero_gone.
Print Assumptions session_expiry_pending.
Print Assumptions session_expired_gone.
Print Assumptions session_zero_stays.
Print Assumptions keep_alive_reason_partial.
Print Assumptions keep_alive_regular_partial.
Print Assumptions keep_alive_zero.
Print Assumptions keep_alive_silent.
Print Assumptions keep_alive_ends.
Print Assumptions gauge_refuted.
Print Assumptions lockout_refuted.
Print Assumptions other_protocol_refuted.
Print Assumptions session_present3_refuted.
Print Assumptions clean_start_routing_refuted.
Print Assumptions will_lost_refuted.
Print Assumptions will_takeover_refuted.
Print Assumptions session_max_refuted.
Print Assumptions session_routes_refuted.
Print Assumptions session_expiry_cap_refuted.
Print Assumptions slow_connect_refuted.
Print Assumptions stale_timer_refuted.
