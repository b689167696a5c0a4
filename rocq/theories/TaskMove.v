(** How one step changes one task. *)
From Coq Require Import List Bool NArith String Lia.
From Verif Require Import Base BaseLemmas TopicModel MsgModel OutModel RouteModel RetainModel GlobModel Sess5Model Sess3Model ConnModel RegModel BrokerModel
  BrokerSpec FrameProofs CoreProofs BrokerInv.
Import ListNotations.
Local Open Scope N_scope.

Definition akept (a a' : sess) : Prop := match a, a' with A5 s, A5 s' => same5 s s' | A3 s, A3 s' => same3 s s' | _, _ => False end.
Lemma akept_refl a : akept a a. Proof. destruct a; [apply same5_refl|apply same3_refl]. Qed.
Lemma akept_trans a b c : akept a b -> akept b c -> akept a c.
Proof. destruct a, b, c; cbn; try contradiction; [apply same5_trans|apply same3_trans]. Qed.

(** The will is gone, all else stays. *)
Definition aspent (a a' : sess) : Prop :=
  match a, a' with
  | A5 s, A5 s' => s_id s' = s_id s /\ s_ident s' = s_ident s /\ s_connected s' = s_connected s /\ s_ctime s' = s_ctime s /\
      s_will s' = None /\ s_keep s' = s_keep s /\ s_clean s' = s_clean s /\ s_expiry s' = s_expiry s /\ s_cdisc s' = s_cdisc s
  | A3 s, A3 s' => z_id s' = z_id s /\ z_ident s' = z_ident s /\ z_connected s' = z_connected s /\ z_ctime s' = z_ctime s /\
      z_will s' = None /\ z_keep s' = z_keep s /\ z_clean s' = z_clean s /\ z_disc s' = z_disc s
  | _, _ => False
  end.
(** The client said DISCONNECT. *)
Definition a_offline (a : sess) : sess := match a with A5 s => A5 (with_connected false s) | A3 s => A3 (zwith_connected false s) end.
Definition send_ok (a : sess) : list awill := match a_will a with Some w => if aw_ok w then [w] else [] | None => [] end.
Definition head_ctl (b : broker) (c : client_id) (m : ctl) : Prop := exists ch q, aget c (b_chans b) = Some ch /\ ch_ctl ch = m :: q.
Definition connecting (b : broker) (e : bev) (x : pre) : Prop :=
  (exists t0 uuid p data, e = EConnect5 t0 uuid p data /\ t0 <= b_now b /\ x = B5 (connect_conn5 (b_cfg b) uuid t0 p) data) \/
  (exists t0 uuid p, e = EConnect3 t0 uuid p /\ t0 <= b_now b /\ x = B3 (connect_sess3 (b_cfg b) uuid t0 p)).
(** CONNACK with success. *)
Definition joined (b : broker) (x : pre) (r : receipt) (a : sess) (o : bout) (j : N) : Prop :=
  match x with
  | B5 cn data => exists rc s ack, match r with RNew c => Some (RcNew c) | ROld5 st => Some (RcPresent st) | ROld3 _ => None end = Some rc /\
      session_connect5 unit (b_cfg b) (b_now b) rc data cn = Some (s, ack) /\ s_connected s = true /\ a = A5 s /\ o = OConnack5 j ack
  | B3 s0 => exists rc s ack, match r with RNew c => Some (RcNew3 c) | ROld3 st => Some (RcPresent3 st) | ROld5 _ => None end = Some rc /\
      session_connect3 (b_now b) rc s0 = (s, ack) /\ a = A3 s /\ o = OConnack3 j ack
  end.
(** What the holder of the session gives to the connection that takes it over. *)
Definition given (b : broker) (online : bool) (a : sess) (r : receipt) : Prop :=
  match a with
  | A5 s => r = ROld5 (snd (build_state5 s))
  | A3 s => if online then r = ROld3 (snd (build_state3 s))
            else exists ch, aget (z_id s) (b_chans b) = Some ch /\ r = ROld3 (snd (build_state3 (v3_take_all (seconds b) (ch_norm ch) s)))
  end.

Inductive tmove (b : broker) (e : bev) (j : N) (out : list bout) : option task -> option task -> list awill -> Prop :=
| mv_same o : tmove b e j out o o []
| mv_wait x c : j = b_conns b -> connecting b e x -> aget (p_ident x) (r_idents (b_reg b)) = Some c -> tmove b e j out None (Some (TSend x c)) []
| mv_new x c : j = b_conns b -> connecting b e x -> aget (p_ident x) (r_idents (b_reg b)) = None -> c = r_next (b_reg b) ->
    tmove b e j out None (Some (TJoin x (RNew c))) []
| mv_put x c : e = EPut j -> tmove b e j out (Some (TSend x c)) (Some (TReply x c)) []
| mv_lost t x c : In (OClosed j) out -> t = TSend x c \/ t = TReply x c -> tmove b e j out (Some t) None []
| mv_taken x c k (on : bool) a r : e = EControl k -> aget k (b_tasks b) = Some (if on then TOnline a else TOffline a) ->
    a_id a = c -> a_v5 a = p_v5 x -> head_ctl b c (online_msg (a_v5 a) j) -> given b on a r -> tmove b e j out (Some (TReply x c)) (Some (TJoin x r)) []
| mv_connack x r a o : e = EJoin j -> b_stamp b < b_now b -> joined b x r a o j -> In o out -> tmove b e j out (Some (TJoin x r)) (Some (TReady a)) []
| mv_giveup t : In (OClosed j) out -> (exists x r, t = TJoin x r) \/ (exists a, t = TReady a) -> tmove b e j out (Some t) None []
| mv_start a a' : e = EStart j -> akept a a' -> tmove b e j out (Some (TReady a)) (Some (TOnline a')) []
| mv_online a a' : akept a a' -> tmove b e j out (Some (TOnline a)) (Some (TOnline a')) []
| mv_disc5 len code expiry s s' : e = EPacket5 j len (IDisconnect code expiry) -> s_cdisc s = false ->
    s_id s' = s_id s -> s_ident s' = s_ident s -> s_connected s' = s_connected s -> s_ctime s' = s_ctime s -> s_keep s' = s_keep s -> s_clean s' = s_clean s ->
    (if s_cdisc s' then s_will s' = (if code =? 0 then None else s_will s) /\ s_expiry s' = opt_or expiry (s_expiry s) /\
                        (s_expiry s = 0 -> s_expiry s' = 0) /\ len <= cf_packet_server (b_cfg b)
     else s_will s' = s_will s /\ s_expiry s' = s_expiry s /\
          (cf_packet_server (b_cfg b) < len \/ s_expiry s = 0 /\ 0 < opt_or expiry 0)) ->
    tmove b e j out (Some (TOnline (A5 s))) (Some (TOnline (A5 s'))) []
| mv_disc3 len s s' : e = EPacket3 j len YDisconnect ->
    z_id s' = z_id s -> z_ident s' = z_ident s -> z_connected s' = z_connected s -> z_ctime s' = z_ctime s -> z_keep s' = z_keep s -> z_clean s' = z_clean s ->
    z_will s' = None -> z_disc s' = true -> len <= cf_packet_server (b_cfg b) ->
    tmove b e j out (Some (TOnline (A3 s))) (Some (TOnline (A3 s'))) []
| mv_stop a a' : akept a a' -> tmove b e j out (Some (TOnline a)) (Some (TEnd a')) []
| mv_hand (on : bool) a i : e = EControl j -> head_ctl b (a_id a) (online_msg (a_v5 a) i) -> tmove b e j out (Some (if on then TOnline a else TOffline a)) None []
| mv_endwill a a' : e = EEnd j true -> a_quit a = false -> match a with A5 s => will_due s = None | A3 _ => True end -> aspent a a' ->
    (forall w, a_will a = Some w -> aw_ok w = true) ->
    tmove b e j out (Some (TEnd a)) (Some (TDrain a')) (send_ok a)
| mv_endskip a : e = EEnd j true -> a_quit a = true \/ (exists s d, a = A5 s /\ will_due s = Some d) -> tmove b e j out (Some (TEnd a)) (Some (TDrain a)) []
| mv_endfail a hook : In (OClosed j) out -> e = EEnd j hook -> hook = false \/ (exists w, a_will a = Some w /\ aw_ok w = false) -> tmove b e j out (Some (TEnd a)) None []
| mv_drain a a' : akept a a' -> tmove b e j out (Some (TDrain a)) (Some (TDrain a')) []
| mv_off a : e = EDone j -> a_ends a = false -> a_bcast a = [] -> tmove b e j out (Some (TDrain a)) (Some (TOffline (a_offline a))) []
| mv_done a : e = EDone j -> a_ends a = true -> a_bcast a = [] -> tmove b e j out (Some (TDrain a)) None []
| mv_offrun a a' : akept a a' -> tmove b e j out (Some (TOffline a)) (Some (TOffline a')) []
| mv_offmsg a m : e = EControl j -> head_ctl b (a_id a) m -> a_v5 a = true ->
    match m with CExpired t | CWill t => a_conn a = true \/ a_ctime a <> Some t | COnline5 _ => False | _ => True end ->
    tmove b e j out (Some (TOffline a)) (Some (TOffDrain a false)) []
| mv_offwill a a' t : e = EControl j -> head_ctl b (a_id a) (CWill t) -> a_ctime a = Some t -> aspent a a' -> a_v5 a = true ->
    tmove b e j out (Some (TOffline a)) (Some (TOffDrain a' false)) (send_ok a)
| mv_expired a a' t : e = EControl j -> head_ctl b (a_id a) (CExpired t) -> a_ctime a = Some t -> aspent a a' -> a_v5 a = true ->
    tmove b e j out (Some (TOffline a)) (Some (TOffDrain a' true)) (send_ok a)
| mv_offdrain a a' s : akept a a' -> tmove b e j out (Some (TOffDrain a s)) (Some (TOffDrain a' s)) []
| mv_offback a : e = EDone j -> tmove b e j out (Some (TOffDrain a false)) (Some (TOffline a)) []
| mv_removed a : e = EDone j -> tmove b e j out (Some (TOffDrain a true)) None [].

Lemma wills_map5 j k l : wills_of j (map (OPkt5 k) l) = [].
Proof. induction l; cbn; auto. Qed.
Lemma wills_map3 j k l : wills_of j (map (OPkt3 k) l) = [].
Proof. induction l; cbn; auto. Qed.

Lemma tasks_close c b : b_tasks (close c b) = b_tasks b.
Proof. unfold close. destruct (aget c (b_chans b)); reflexivity. Qed.

Lemma send_will5_ok pick s g s' g' ok : send_will5 pick s g = Done (s', g', ok) ->
  ok = match s_will s with Some w => aw_ok (W5 w) | None => true end.
Proof.
  unfold send_will5, aw_ok. destruct (s_will s) as [w|]; [|intros H; inversion H; auto].
  destruct (enc_len5 _); [|intros H; inversion H; auto]. destruct (send_publish5 _ _ _ _) as [[[? ?] ?]|]; [|discriminate]. intros H; inversion H; auto.
Qed.
Lemma send_will3_ok s g s' g' ok : send_will3 s g = Done (s', g', ok) ->
  ok = match z_will s with Some w => aw_ok (W3 w) | None => true end.
Proof.
  unfold send_will3, aw_ok. destruct (z_will s) as [w|]; [|intros H; inversion H; auto].
  destruct (enc_len3 _); [|intros H; inversion H; auto]. destruct (send_publish3 _ _ _) as [[? ?]|]; [|discriminate]. intros H; inversion H; auto.
Qed.
Lemma send_will_move pick k a b a1 b1 out ok : send_will pick k a b = Some (a1, b1, out, ok) ->
  aspent a a1 /\ (exists rt rn, b1 = set_tables rt rn b) /\ (forall j, wills_of j out = if j =? k then send_ok a else []) /\
  ok = match a_will a with Some w => aw_ok w | None => true end.
Proof.
  unfold send_will, send_ok. destruct a as [s|s]; cbn [a_will].
  - destruct (send_will5 (pick (DWill k) b) s (glob_of b)) as [[[s1 g] o]|] eqn:S; [|discriminate]. pose proof (send_will5_ok _ _ _ _ _ _ S) as O. apply send_will5_keep in S.
    destruct S as (E & _). intros H; inversion H; subst a1 b1 out ok. split; [exact E|]. split; [unfold put_glob; eauto|]. destruct (s_will s) as [w|]; cbn [option_map]; subst o.
    + split; auto. intros j. destruct (aw_ok (W5 w)); cbn; rewrite ?(N.eqb_sym k j); destruct (j =? k); reflexivity.
    + split; auto. intros j. destruct (j =? k); reflexivity.
  - destruct (send_will3 s (glob_of b)) as [[[s1 g] o]|] eqn:S; [|discriminate]. pose proof (send_will3_ok _ _ _ _ _ S) as O. apply send_will3_keep in S.
    destruct S as (E & _). intros H; inversion H; subst a1 b1 out ok. split; [exact E|]. split; [unfold put_glob; eauto|]. destruct (z_will s) as [w|]; cbn [option_map]; subst o.
    + split; auto. intros j. destruct (aw_ok (W3 w)); cbn; rewrite ?(N.eqb_sym k j); destruct (j =? k); reflexivity.
    + split; auto. intros j. destruct (j =? k); reflexivity.
Qed.
Lemma remove_tasks a b b' : remove_client a b = Some b' -> b_tasks b' = b_tasks b /\ b_chans b' = b_chans b /\ b_timers b' = b_timers b /\ b_stamp b' = b_stamp b /\
  b_now b' = b_now b /\ b_conns b' = b_conns b /\ b_last b' = b_last b /\ b_cfg b' = b_cfg b.
Proof.
  unfold remove_client. destruct (reg_remove _ _); [|discriminate]. destruct (unroute _ _ _) as [t p]. destruct p; [discriminate|].
  intros H; inversion H; subst. repeat split; auto.
Qed.

Section Move.
  Variables (hash5 : wpub5 -> N) (hash3 : wpub3 -> N) (pick : draw -> broker -> string -> string -> N).

  (** Only task [k] changes. *)
  Lemma one_move b b' e k out (t : option task) : NoDup (keys (b_tasks b)) ->
    b_tasks b' = match t with Some t => aset k t (b_tasks b) | None => adel k (b_tasks b) end ->
    (forall j, j <> k -> wills_of j out = []) ->
    tmove b e k out (aget k (b_tasks b)) t (wills_of k out) ->
    forall j, tmove b e j out (aget j (b_tasks b)) (aget j (b_tasks b')) (wills_of j out).
  Proof.
    intros ND T W M j. rewrite T. destruct (N.eqb_spec j k) as [->|Hj].
    - destruct t; [rewrite aget_aset_eq|rewrite aget_adel_eq by auto]; auto.
    - rewrite W by auto. destruct t; [rewrite aget_aset_ne by auto|rewrite aget_adel_ne by auto]; apply mv_same.
  Qed.

  Lemma joined_will b x r a o j : joined b x r a o j -> a_will a = p_will x.
  Proof.
    destruct x; cbn.
    - intros (rc & s & ack & _ & S & _ & -> & _). apply session_connect5_facts in S. destruct S as (_ & _ & W & _). cbn. rewrite W. reflexivity.
    - intros (rc & s' & ack & _ & S & -> & _). apply session_connect3_facts in S. destruct S as (_ & _ & W & _). cbn. rewrite W. reflexivity.
  Qed.

  Lemma pendings5_same now s s' out : pendings5 now s = (s', out) -> same5 s s'.
  Proof. intros H. apply (pendings5_keep _ _ (Glob config_default [] ret_empty []) _ _ H). Qed.

  Lemma step_move e b b' out : inv b -> bstep hash5 hash3 pick e b = BOk b' out ->
    forall j, tmove b e j out (aget j (b_tasks b)) (aget j (b_tasks b')) (wills_of j out).
  Proof.
    intros I. pose proof I as [K TN CN OK]. destruct e; cbn [bstep].
    - (* connect *)
      destruct (N.ltb_spec (b_now b) t0) as [|LE]; [discriminate|].
      set (x := B5 (connect_conn5 (b_cfg b) uuid t0 p) data). unfold add_client.
      assert (CX : connecting b (EConnect5 t0 uuid p data) x) by (left; exists t0, uuid, p, data; auto).
      assert (NK : aget (b_conns b) (b_tasks b) = None).
      { destruct (aget (b_conns b) (b_tasks b)) as [t|] eqn:E; auto. pose proof (k_num _ _ _ _ _ K (b_conns b) (role_of t)).
        rewrite (rl_of _ _ _ E) in H. specialize (H eq_refl). lia. }
      unfold reg_add. destruct (aget (p_ident x) (r_idents (b_reg b))) as [c|] eqn:ID.
      + destruct (in_list _ _); [|discriminate]. intros H; injection H; intros <- <-.
        eapply (one_move _ _ _ (b_conns b) _ (Some _)); [exact TN|reflexivity|reflexivity|]. rewrite NK. cbn. apply mv_wait; auto.
      + intros H; injection H; intros <- <-.
        eapply (one_move _ _ _ (b_conns b) _ (Some _)); [exact TN|reflexivity|reflexivity|]. rewrite NK. cbn. apply mv_new; auto.
    - destruct (N.ltb_spec (b_now b) t0) as [|LE]; [discriminate|].
      set (x := B3 (connect_sess3 (b_cfg b) uuid t0 p)). unfold add_client.
      assert (CX : connecting b (EConnect3 t0 uuid p) x) by (right; exists t0, uuid, p; auto).
      assert (NK : aget (b_conns b) (b_tasks b) = None).
      { destruct (aget (b_conns b) (b_tasks b)) as [t|] eqn:E; auto. pose proof (k_num _ _ _ _ _ K (b_conns b) (role_of t)).
        rewrite (rl_of _ _ _ E) in H. specialize (H eq_refl). lia. }
      unfold reg_add. destruct (aget (p_ident x) (r_idents (b_reg b))) as [c|] eqn:ID.
      + destruct (in_list _ _); [|discriminate]. intros H; injection H; intros <- <-.
        eapply (one_move _ _ _ (b_conns b) _ (Some _)); [exact TN|reflexivity|reflexivity|]. rewrite NK. cbn. apply mv_wait; auto.
      + intros H; injection H; intros <- <-.
        eapply (one_move _ _ _ (b_conns b) _ (Some _)); [exact TN|reflexivity|reflexivity|]. rewrite NK. cbn. apply mv_new; auto.
    - (* put *)
      unfold do_put. destruct (aget k (b_tasks b)) as [[x c| | | | | | | |]|] eqn:A; try discriminate.
      destruct (aget c (b_chans b)) as [ch|] eqn:C; [|discriminate]. destruct (ch_open ch); cbn [negb].
      + destruct (ctl_room ch); [|discriminate]. intros H; injection H; intros <- <-.
        eapply (one_move _ _ _ k _ (Some _)); [exact TN|reflexivity|reflexivity|]. rewrite A. apply mv_put; auto.
      + intros H; injection H; intros <- <-. eapply (one_move _ _ _ k _ None); auto. rewrite A. eapply mv_lost; [first [left; reflexivity|right; left; reflexivity|apply in_or_app; right; left; reflexivity]|..]; eauto.
    - (* fail *)
      unfold do_fail. destruct (aget k (b_tasks b)) as [[| x c|x r|a| | | | |]|] eqn:A; try discriminate.
      + destruct (aget c (b_chans b)) as [ch|]; [|discriminate]. destruct (ch_open ch); [discriminate|].
        intros H; injection H; intros <- <-. eapply (one_move _ _ _ k _ None); auto. rewrite A. eapply mv_lost; [first [left; reflexivity|right; left; reflexivity|apply in_or_app; right; left; reflexivity]|..]; eauto.
      + intros H; injection H; intros <- <-. eapply (one_move _ _ _ k _ None); [exact TN|rewrite tasks_close; reflexivity|reflexivity|]. rewrite A. eapply mv_giveup; [first [left; reflexivity|right; left; reflexivity|apply in_or_app; right; left; reflexivity]|..]; eauto.
      + intros H; injection H; intros <- <-. eapply (one_move _ _ _ k _ None); [exact TN|rewrite tasks_close; reflexivity|reflexivity|]. rewrite A. eapply mv_giveup; [first [left; reflexivity|right; left; reflexivity|apply in_or_app; right; left; reflexivity]|..]; eauto.
    - (* join *)
      unfold do_join. destruct (N.leb_spec (b_now b) (b_stamp b)) as [|NS]; [discriminate|].
      destruct (aget k (b_tasks b)) as [[| |[cn data|s0] r| | | | | |]|] eqn:A; try discriminate.
      + destruct (match r with RNew c => Some (RcNew c) | ROld5 st => Some (RcPresent st) | ROld3 _ => None end) as [rc|] eqn:RC; [|discriminate].
        destruct (session_connect5 _ _ _ _ _ _) as [[s ack]|] eqn:SC; [|discriminate]. destruct (start_keep_same k (A5 s) b) as (S1 & _).
        destruct (s_connected s) eqn:SN; intros H; injection H; intros <- <-.
        * eapply (one_move _ _ _ k _ (Some _)); [exact TN|unfold set_task, set_tasks, set_stamp; cbn [b_tasks]; rewrite S1; reflexivity|reflexivity|].
          rewrite A. eapply mv_connack; [auto|auto| |left; reflexivity]. cbn. exists rc, s, ack. auto.
        * eapply (one_move _ _ _ k _ None); [exact TN|rewrite tasks_close; unfold end_task, set_tasks, set_stamp; cbn [b_tasks]; rewrite S1; reflexivity|reflexivity|].
          rewrite A. eapply mv_giveup; [first [left; reflexivity|right; left; reflexivity|apply in_or_app; right; left; reflexivity]|..]; eauto.
      + destruct (match r with RNew c => Some (RcNew3 c) | ROld3 st => Some (RcPresent3 st) | ROld5 _ => None end) as [rc|] eqn:RC; [|discriminate].
        destruct (session_connect3 _ _ _) as [s ack] eqn:SC. destruct (start_keep_same k (A3 s) b) as (S1 & _).
        intros H; injection H; intros <- <-.
        eapply (one_move _ _ _ k _ (Some _)); [exact TN|unfold set_task, set_tasks, set_stamp; cbn [b_tasks]; rewrite S1; reflexivity|reflexivity|].
        rewrite A. eapply mv_connack; [auto|auto| |left; reflexivity]. cbn. exists rc, s, ack. auto.
    - (* start *)
      unfold do_start. destruct (aget k (b_tasks b)) as [[| | |[s|s]| | | | |]|] eqn:A; try discriminate.
      + destruct (pendings5 _ _) as [s1 o] eqn:P. intros H; injection H; intros <- <-.
        eapply (one_move _ _ _ k _ (Some _)); [exact TN|reflexivity|intros; apply wills_map5|]. rewrite A, wills_map5. apply mv_start; auto.
        apply pendings5_same in P. exact P.
      + destruct (after_packet3 _ _) as [s1 o] eqn:P. intros H; injection H; intros <- <-.
        eapply (one_move _ _ _ k _ (Some _)); [exact TN|reflexivity|intros; apply wills_map3|]. rewrite A, wills_map3. apply mv_start; auto.
        apply (after_packet3_keep _ _ (glob_of b) _ _ P).
    - (* packet5 *)
      unfold do_packet5. destruct (aget k (b_tasks b)) as [[| | | |[s|s]| | | |]|] eqn:A; try discriminate.
      destruct (is_disconnected5 s) eqn:DS; [discriminate|]. pose proof (packet_step5_keep hash5 (pick (DPacket k x) b) (seconds b) len x s (glob_of b)) as PK.
      destruct (is_disconnect5 x) eqn:DX.
      + destruct x as [| | | | | | | |code expiry|]; try discriminate DX. unfold packet_step5 in *.
        assert (CD : s_cdisc s = false) by (unfold is_disconnected5 in DS; apply orb_false_iff in DS; tauto).
        cbn [handle_packet5] in *. unfold handle_packet5 in *. destruct (N.ltb_spec (cf_packet_server (g_cfg (glob_of b))) len) as [BL|BL].
        * unfold error_disconnect, after_packet5, is_disconnected5 in *. cbn [with_disc s_cdisc s_sdisc] in *. rewrite ?orb_true_r in *. cbn [negb] in *.
          intros H; injection H; intros <- <-. eapply (one_move _ _ _ k _ (Some (TOnline (A5 (with_disc (s_cdisc s) true s))))); [exact TN|try reflexivity| |].
          -- intros j _. reflexivity.
          -- rewrite A. eapply mv_disc5; eauto. cbn [with_disc s_cdisc]. rewrite CD. auto.
        * unfold handle_disconnect5 in *.
          assert (GO : forall s1, s_id s1 = s_id s -> s_ident s1 = s_ident s -> s_connected s1 = s_connected s -> s_ctime s1 = s_ctime s -> s_keep s1 = s_keep s ->
            s_clean s1 = s_clean s -> s_will s1 = s_will s -> s_expiry s1 = opt_or expiry (s_expiry s) -> (s_expiry s = 0 -> s_expiry s1 = 0) ->
            let s2 := if code =? 0 then with_will None s1 else s1 in let s3 := with_disc true (s_sdisc s2) s2 in
            BOk (if is_disconnected5 s3 then set_task k (TOnline (A5 s3)) (put_glob (glob_of b) b)
                 else set_last k (b_now b) (set_task k (TOnline (A5 s3)) (put_glob (glob_of b) b))) (map (OPkt5 k) []) = BOk b' out ->
            forall j, tmove b (EPacket5 k len (IDisconnect code expiry)) j out (aget j (b_tasks b)) (aget j (b_tasks b')) (wills_of j out)).
          { intros s1 G1 G2 G3 G4 G5 G6 G7 G8 G9 s2 s3 H. injection H; intros <- <-.
            eapply (one_move _ _ _ k _ (Some (TOnline (A5 s3)))); [exact TN|reflexivity|reflexivity|].
            rewrite A. cbn. eapply mv_disc5; eauto; unfold s3, s2; destruct (code =? 0); cbn; auto. }
          destruct expiry as [v|].
          -- destruct ((0 <? v) && (s_expiry s =? 0)) eqn:V.
             ++ unfold error_disconnect, after_packet5, is_disconnected5 in *. cbn [with_disc s_cdisc s_sdisc] in *. rewrite ?orb_true_r in *.
                intros H; injection H; intros <- <-. eapply (one_move _ _ _ k _ (Some (TOnline (A5 (with_disc (s_cdisc s) true s))))); [exact TN|try reflexivity| |].
                ** intros j _. reflexivity.
                ** rewrite A. eapply mv_disc5; eauto. cbn [with_disc s_cdisc]. rewrite CD. cbn.
                   apply andb_true_iff in V. destruct V as [V1 V2]. apply N.ltb_lt in V1. apply N.eqb_eq in V2. auto.
             ++ intros H. apply (GO (with_expiry v s)); try reflexivity; [|exact H]. cbn. apply andb_false_iff in V. destruct V as [V|V]; [apply N.ltb_ge in V; lia|apply N.eqb_neq in V; lia].
          -- intros H. apply (GO s); try reflexivity; [auto|exact H].
      + unfold step_kept5 in PK. rewrite DX in PK. destruct (packet_step5 _ _ _ _ _ _ _) as [s1 g o|s1 g|]; [| |discriminate];
          destruct PK as (PK & _); intros H; injection H; intros <- <-.
        * eapply (one_move _ _ _ k _ (Some (TOnline (A5 s1)))); [exact TN|destruct (is_disconnected5 s1); reflexivity|intros; apply wills_map5|].
          rewrite A, wills_map5. apply mv_online. exact PK.
        * eapply (one_move _ _ _ k _ (Some (TEnd (A5 s1)))); [exact TN|reflexivity|reflexivity|]. rewrite A. apply mv_stop. exact PK.
    - (* packet3 *)
      unfold do_packet3. destruct (aget k (b_tasks b)) as [[| | | |[s|s]| | | |]|] eqn:A; try discriminate.
      destruct (z_disc s) eqn:DS; [discriminate|]. pose proof (packet_step3_keep hash3 (seconds b) len x s (glob_of b)) as PK.
      destruct (is_disconnect3 x) eqn:DX.
      + destruct x; try discriminate DX. unfold packet_step3 in *. unfold handle_packet3 in *.
        destruct (N.ltb_spec (cf_packet_server (g_cfg (glob_of b))) len) as [BL|BL].
        * intros H; injection H; intros <- <-. eapply (one_move _ _ _ k _ (Some (TEnd (A3 s)))); [exact TN|reflexivity|reflexivity|]. rewrite A. apply mv_stop. apply akept_refl.
        * destruct (after_packet3 _ _) as [s1 o] eqn:P. pose proof (after_packet3_keep _ _ (glob_of b) _ _ P) as (PS & _).
          destruct PS as (?&?&?&?&?&?&?&?&?). cbn in *. intros H'; injection H'; intros <- <-.
          eapply (one_move _ _ _ k _ (Some (TOnline (A3 s1)))); [exact TN|reflexivity|intros; apply wills_map3|]. rewrite A, wills_map3. eapply mv_disc3; eauto.
      + unfold step_kept3 in PK. rewrite DX in PK. destruct (packet_step3 _ _ _ _ _ _) as [s1 g o|s1 g|]; [| |discriminate];
          destruct PK as (PK & _); intros H; injection H; intros <- <-.
        * eapply (one_move _ _ _ k _ (Some (TOnline (A3 s1)))); [exact TN|reflexivity|intros; apply wills_map3|].
          rewrite A, wills_map3. apply mv_online. exact PK.
        * eapply (one_move _ _ _ k _ (Some (TEnd (A3 s1)))); [exact TN|reflexivity|reflexivity|]. rewrite A. apply mv_stop. exact PK.
    - (* malformed *)
      unfold do_malformed. destruct (aget k (b_tasks b)) as [[| | | |[s|s]| | | |]|] eqn:A; try discriminate.
      destruct (is_disconnected5 s); [discriminate|]. pose proof (error_keep RC_malformed reason s (glob_of b)) as (E & _).
      destruct (error_disconnect _ _ s) as [s1 p]. cbn [fst] in *. intros H; injection H; intros <- <-.
      eapply (one_move _ _ _ k _ (Some (TOnline (A5 s1)))); [exact TN|reflexivity|reflexivity|]. rewrite A. apply mv_online. exact E.
    - (* close *)
      unfold do_close. destruct (aget k (b_tasks b)) as [[| | | |a| | | |]|] eqn:A; try discriminate.
      intros H; injection H; intros <- <-. eapply (one_move _ _ _ k _ (Some (TEnd a))); [exact TN|reflexivity|reflexivity|]. rewrite A. apply mv_stop. apply akept_refl.
    - (* control *)
      unfold do_control.
      assert (GO : forall (on : bool) a, aget k (b_tasks b) = Some (if on then TOnline a else TOffline a) ->
        match aget (a_id a) (b_chans b) with
        | Some (Chan (m :: r) ms o) => control pick on k a m (set_chan (a_id a) (Chan r ms o) b)
        | _ => BNo
        end = BOk b' out -> forall j, tmove b (EControl k) j out (aget j (b_tasks b)) (aget j (b_tasks b')) (wills_of j out)).
      { intros on a A. destruct (aget (a_id a) (b_chans b)) as [[[|m q] ms o]|] eqn:C; try discriminate.
        assert (RK : rl b k = Some (Owns (a_v5 a) (a_ident a) (a_id a) false)) by (rewrite (rl_of _ _ _ A); destruct on; reflexivity).
        pose proof (cv_of _ _ _ C) as CVC. cbn [ch_ctl ch_open] in CVC.
        destruct (owner_open _ _ _ _ _ K _ _ _ _ _ RK) as (q' & CVO). rewrite CVC in CVO. injection CVO; intros -> <-. clear CVO.
        assert (q = []) as ->. { pose proof (k_len _ _ _ _ _ K _ _ _ CVC). destruct q; auto. cbn in H. lia. }
        set (b1 := set_chan (a_id a) (Chan [] ms true) b).
        assert (A1 : forall j, aget j (b_tasks b1) = aget j (b_tasks b)) by reflexivity.
        assert (HD : head_ctl b (a_id a) m) by (eexists; eexists; split; [exact C|reflexivity]).
        set (st := if on then TOnline a else match a with A5 _ => TOffDrain a false | A3 _ => TOffline a end).
        pose proof (OK _ _ A) as SO.
        assert (STAY : match m with CExpired t | CWill t => a_conn a = true \/ a_ctime a <> Some t | COnline5 _ => a_v5 a = false | _ => True end ->
                       BOk (set_task k st b1) [] = BOk b' out -> forall j, tmove b (EControl k) j out (aget j (b_tasks b)) (aget j (b_tasks b')) (wills_of j out)).
        { intros COND H; injection H; intros <- <-. eapply (one_move _ _ _ k _ (Some st)); [exact TN|reflexivity|reflexivity|]. rewrite A. unfold st. destruct on.
          - apply mv_online. apply akept_refl.
          - destruct a as [s|s]; [|apply mv_offrun; apply akept_refl]. eapply (mv_offmsg _ _ _ _ _ m); auto. destruct m; auto. discriminate COND. }
        (* taking over *)
        assert (HAND : forall i x r chs, i <> k -> aget i (b_tasks b) = Some (TReply x (a_id a)) -> p_v5 x = a_v5 a -> given b on a r -> m = online_msg (a_v5 a) i ->
                  BOk (set_task i (TJoin x r) (end_task k (set_chans chs b))) [] = BOk b' out ->
                  forall j, tmove b (EControl k) j out (aget j (b_tasks b)) (aget j (b_tasks b')) (wills_of j out)).
        { intros i x r chs IK AI PV GV -> H; injection H; intros <- <-. intros j. unfold set_task, end_task, set_tasks, set_chans. cbn [b_tasks wills_of flat_map].
          rewrite aget_N. destruct (N.eqb_spec j i) as [->|JI].
          - rewrite AI. eapply (mv_taken _ _ _ _ _ _ k on a); eauto.
          - rewrite adel_N by auto. destruct (N.eqb_spec j k) as [->|JK]; [|apply mv_same]. rewrite A. eapply mv_hand; eauto. }
        (* refusing *)
        assert (REF : forall i x, i <> k -> aget i (b_tasks b) = Some (TReply x (a_id a)) -> match m with CExpired _ | CWill _ => False | COnline5 _ => a_v5 a = false | _ => True end ->
                  BOk (set_task k st (end_task i b1)) [OClosed i] = BOk b' out ->
                  forall j, tmove b (EControl k) j out (aget j (b_tasks b)) (aget j (b_tasks b')) (wills_of j out)).
        { intros i x IK AI CM H; injection H; intros <- <-. intros j. unfold set_task, end_task, set_tasks. cbn [b_tasks b1 set_chan set_chans].
          replace (wills_of j [OClosed i]) with (@nil awill) by reflexivity.
          rewrite aget_N. destruct (N.eqb_spec j k) as [->|JK].
          - rewrite A. unfold st. destruct on; [apply mv_online; apply akept_refl|]. destruct a as [s|s]; [|apply mv_offrun; apply akept_refl].
            eapply (mv_offmsg _ _ _ _ _ m); auto. destruct m; auto; try contradiction. discriminate CM.
          - change (b_tasks b1) with (b_tasks b). rewrite adel_N by auto. destruct (N.eqb_spec j i) as [->|]; [|apply mv_same].
            rewrite AI. eapply mv_lost; [first [left; reflexivity|right; left; reflexivity|apply in_or_app; right; left; reflexivity]|..]; eauto. }
        assert (WAIT : forall v i, m = online_msg v i -> i <> k /\ exists x, aget i (b_tasks b) = Some (TReply x (a_id a)) /\ p_v5 x = v).
        { intros v i ->. destruct (k_online _ _ _ _ _ K _ _ i v CVC (or_introl eq_refl)) as (id & RJ). split; [intros ->; congruence|].
          unfold rl in RJ. destruct (aget i (b_tasks b)) as [[]|]; cbn in RJ; try discriminate; inversion RJ; subst; eauto. }
        assert (WILL : forall (stop : bool) a1 b2 o1 ok b3, on = false -> a_v5 a = true -> (exists t, (if stop then m = CExpired t else m = CWill t) /\ a_ctime a = Some t) ->
                  send_will pick k a b1 = Some (a1, b2, o1, ok) -> b_tasks b3 = b_tasks b2 -> BOk (set_task k (TOffDrain a1 stop) b3) o1 = BOk b' out ->
                  forall j, tmove b (EControl k) j out (aget j (b_tasks b)) (aget j (b_tasks b')) (wills_of j out)).
        { intros stop a1 b2 o1 ok b3 -> AV (t & ME & CT) SW B3 H; injection H; intros <- <-.
          destruct (send_will_move _ _ _ _ _ _ _ _ SW) as (SP & (rt & rn & ->) & WO & _).
          eapply (one_move _ _ _ k _ (Some (TOffDrain a1 stop))); [exact TN| | |].
          - unfold set_task, set_tasks. cbn [b_tasks]. rewrite B3. reflexivity.
          - intros j JK. rewrite WO. destruct (N.eqb_spec j k); congruence.
          - rewrite A, WO, N.eqb_refl. destruct stop; subst m; [eapply mv_expired|eapply mv_offwill]; eauto. }
        destruct m as [i|i| |t|t]; cbn [control].
        - destruct (WAIT true i eq_refl) as (IK & x & AI & PV). destruct a as [s|s].
          + rewrite A1, AI. apply HAND; auto. cbn. auto.
          + apply (REF i x); auto.
        - destruct (WAIT false i eq_refl) as (IK & x & AI & PV). destruct a as [s|s].
          + apply (REF i x); auto.
          + rewrite A1, AI.
            assert (AC : aget (z_id s) (b_chans b1) = Some (Chan [] ms true)). { unfold b1, set_chan, set_chans. cbn [b_chans]. apply aget_aset_eq. }
            rewrite AC. cbn [ch_norm ch_ctl ch_open]. unfold hand_over. destruct on; apply (HAND i x); auto.
            * cbn. auto.
            * cbn. eexists. split; [exact C|]. reflexivity.
        - destruct on; [|apply STAY; auto]. intros H; injection H; intros <- <-.
          eapply (one_move _ _ _ k _ (Some (TEnd a))); [exact TN|reflexivity|reflexivity|]. rewrite A. apply mv_stop. apply akept_refl.
        - destruct a as [s|s]; [|discriminate]. destruct (_ && _) eqn:CT.
          2:{ apply STAY. cbn. apply andb_false_iff in CT. destruct CT as [CT|CT]; [left; destruct (s_connected s); auto|right].
              destruct (s_ctime s) as [t'|]; [|discriminate]. apply N.eqb_neq in CT. congruence. }
          destruct on.
          { destruct SO as (X & _). cbn in X. rewrite X in CT. discriminate CT. }
          destruct (send_will pick k (A5 s) b1) as [[[[a1 b2] o1] ok]|] eqn:SW; [|discriminate].
          destruct (remove_client a1 b2) as [b3|] eqn:RC; [|discriminate].
          eapply (WILL true); eauto; [|apply (remove_tasks _ _ _ RC)]. exists t. split; auto. apply andb_true_iff in CT. destruct CT as [_ CT]. cbn.
          destruct (s_ctime s) as [t'|]; [|discriminate]. apply N.eqb_eq in CT. congruence.
        - destruct a as [s|s]; [|discriminate]. destruct (_ && _) eqn:CT.
          2:{ apply STAY. cbn. apply andb_false_iff in CT. destruct CT as [CT|CT]; [left; destruct (s_connected s); auto|right].
              destruct (s_ctime s) as [t'|]; [|discriminate]. apply N.eqb_neq in CT. congruence. }
          destruct on.
          { destruct SO as (X & _). cbn in X. rewrite X in CT. discriminate CT. }
          destruct (send_will pick k (A5 s) b1) as [[[[a1 b2] o1] ok]|] eqn:SW; [|discriminate].
          eapply (WILL false); eauto. exists t. split; auto. apply andb_true_iff in CT. destruct CT as [_ CT]. cbn.
          destruct (s_ctime s) as [t'|]; [|discriminate]. apply N.eqb_eq in CT. congruence. }
      destruct (aget k (b_tasks b)) as [[| | | |a| | |a|]|] eqn:A; try discriminate.
      + apply (GO true a); auto.
      + apply (GO false a); auto.
    - (* normal *)
      unfold do_normal.
      assert (GO : forall (on : bool) a, aget k (b_tasks b) = Some (if on then TOnline a else TOffline a) ->
        match aget (a_id a) (b_chans b) with
        | Some (Chan cs (m :: r) o) =>
            let '(a1, out0) := normal (seconds b) (b_cfg b) k on (snd m) a in
            BOk (set_task k (if on then TOnline a1 else TOffline a1) (set_chan (a_id a) (Chan cs r o) b)) out0
        | _ => BNo
        end = BOk b' out -> forall j, tmove b (ENormal k) j out (aget j (b_tasks b)) (aget j (b_tasks b')) (wills_of j out)).
      { intros on a A. destruct (aget (a_id a) (b_chans b)) as [[cs [|m r] o]|] eqn:C; try discriminate.
        destruct (normal _ _ _ _ _ _) as [a1 out1] eqn:NE. intros H; injection H; intros <- <-.
        assert (NF : akept a a1 /\ forall j, wills_of j out1 = []).
        { revert NE. unfold normal. destruct a as [s|s].
          - destruct (handle_normal5 _ _ _ _) as [s1 r1] eqn:HN. pose proof (handle_normal5_keep _ _ _ _ (glob_of b) _ _ HN) as (E & _).
            destruct r1 as [[q0 p0]|]; [destruct on; [destruct (qos_eqb q0 L0); [|destruct (pendings5 _ _) as [s2 more] eqn:P]|]|]; intros H'; inversion H'; subst; cbn [akept]; split; auto;
              try (intros; apply wills_map5). apply pendings5_same in P. eapply same5_trans; eauto.
          - destruct (handle_normal3 _ _ _) as [s1 r1] eqn:HN. pose proof (handle_normal3_keep _ _ _ (glob_of b) _ _ HN) as (E & _).
            destruct r1 as [[q0 p0]|]; [destruct on; [destruct (qos_eqb q0 L0); [|destruct (pendings3 _ _) as [s2 more] eqn:P]|]|]; intros H'; inversion H'; subst; cbn [akept]; split; auto;
              try (intros; apply wills_map3). pose proof (pendings3_keep _ _ (glob_of b) _ _ P) as (E2 & _). eapply same3_trans; eauto. }
        destruct NF as [AK WN].
        eapply (one_move _ _ _ k _ (Some _)); [exact TN|reflexivity|intros; apply WN|]. rewrite A, WN. destruct on; [apply mv_online|apply mv_offrun]; auto. }
      destruct (aget k (b_tasks b)) as [[| | | |a| | |a|]|] eqn:A; try discriminate.
      + destruct (a_disc a); [discriminate|]. apply (GO true a); auto.
      + apply (GO false a); auto.
    - (* flush *)
      unfold do_flush.
      assert (GO : forall a f, aget k (b_tasks b) = Some (f a) -> (forall a', akept a a' -> tmove b (EFlush k d) k [] (Some (f a)) (Some (f a')) []) ->
        match flush d a b with Some (a1, b1) => BOk (set_task k (f a1) b1) [] | None => BNo end = BOk b' out ->
        forall j, tmove b (EFlush k d) j out (aget j (b_tasks b)) (aget j (b_tasks b')) (wills_of j out)).
      { intros a f A M. destruct (flush d a b) as [[a1 b1]|] eqn:F; [|discriminate]. intros H; injection H; intros <- <-.
        destruct (flush_facts _ _ _ _ _ F) as ((q & n & ->) & B).
        eapply (one_move _ _ _ k _ (Some (f (a_set_bcast q n a)))); [exact TN| |reflexivity|].
        - destruct B as [->|(ch & ms & C & ->)]; reflexivity.
        - rewrite A. apply M. destruct a; cbn; repeat split. }
      destruct (aget k (b_tasks b)) as [[| | | |a| |a| |a stop]|] eqn:A; try discriminate.
      + apply (GO a TOnline); auto. intros; apply mv_online; auto.
      + apply (GO a TDrain); auto. intros; apply mv_drain; auto.
      + apply (GO a (fun a1 => TOffDrain a1 stop)); auto. intros; apply mv_offdrain; auto.
    - (* end *)
      unfold do_end. destruct (aget k (b_tasks b)) as [[| | | | |a| | |]|] eqn:A; try discriminate.
      destruct hook; cbn [negb].
      2:{ intros H; injection H; intros <- <-. eapply (one_move _ _ _ k _ None); [exact TN|rewrite tasks_close; reflexivity|reflexivity|]. rewrite A. eapply mv_endfail; [first [left; reflexivity|right; left; reflexivity|apply in_or_app; right; left; reflexivity]|..]; eauto. }
      assert (NOW : a_quit a = false -> match a with A5 s => will_due s = None | A3 _ => True end -> match send_will pick k a b with
        | None => BPanic
        | Some (a1, b1, out, ok) => if ok then BOk (set_task k (TDrain a1) b1) out else BOk (close (a_id a) (end_task k b1)) (out ++ [OClosed k])%list
        end = BOk b' out -> forall j, tmove b (EEnd k true) j out (aget j (b_tasks b)) (aget j (b_tasks b')) (wills_of j out)).
      { intros Q WD. destruct (send_will pick k a b) as [[[[a1 b1] o1] ok]|] eqn:SW; [|discriminate].
        destruct (send_will_move _ _ _ _ _ _ _ _ SW) as (SP & (rt & rn & ->) & WO & OKE).
        destruct ok; intros H; injection H; intros <- <-.
        - eapply (one_move _ _ _ k _ (Some (TDrain a1))); [exact TN|reflexivity|intros j JK; rewrite WO; destruct (N.eqb_spec j k); congruence|].
          rewrite A, WO, N.eqb_refl. apply mv_endwill; auto. intros w W. rewrite W in OKE. auto.
        - assert (W0 : send_ok a = []). { unfold send_ok. destruct (a_will a) as [w|]; auto. rewrite <- OKE. auto. }
          assert (WX : forall j, wills_of j (o1 ++ [OClosed k]) = []).
          { intros j. unfold wills_of. rewrite flat_map_app. fold (wills_of j o1). rewrite WO, W0. destruct (j =? k); reflexivity. }
          eapply (one_move _ _ _ k _ None); [exact TN|rewrite tasks_close; reflexivity|intros; apply WX|]. rewrite A, WX. eapply mv_endfail; [first [left; reflexivity|right; left; reflexivity|apply in_or_app; right; left; reflexivity]|..]; eauto.
          right. destruct (a_will a) as [w|]; [eauto|discriminate]. }
      destruct a as [s|s].
      + destruct (s_cdisc s) eqn:CD.
        { intros H; injection H; intros <- <-. eapply (one_move _ _ _ k _ (Some (TDrain (A5 s)))); [exact TN|reflexivity|reflexivity|]. rewrite A. apply mv_endskip; auto. }
        destruct (will_due s) as [d|] eqn:WD; [|apply NOW; auto].
        intros H; injection H; intros <- <-. eapply (one_move _ _ _ k _ (Some (TDrain (A5 s)))); [exact TN|destruct (_ <? _); reflexivity|reflexivity|].
        rewrite A. apply mv_endskip; auto. right. eauto.
      + destruct (z_disc s) eqn:CD; [|apply NOW; auto].
        intros H; injection H; intros <- <-. eapply (one_move _ _ _ k _ (Some (TDrain (A3 s)))); [exact TN|reflexivity|reflexivity|]. rewrite A. apply mv_endskip; auto.
    - (* done *)
      unfold do_done. destruct (aget k (b_tasks b)) as [[| | | | | |a| |a stop]|] eqn:A; try discriminate.
      + destruct (a_bcast a) eqn:BC; [|discriminate]. destruct (a_ends a) eqn:EN.
        { destruct (remove_client a b) as [b1|] eqn:RC; [|discriminate]. intros H; injection H; intros <- <-.
          eapply (one_move _ _ _ k _ None); [exact TN|rewrite tasks_close; unfold end_task, set_tasks; cbn [b_tasks]; rewrite (proj1 (remove_tasks _ _ _ RC)); reflexivity|reflexivity|].
          rewrite A. apply mv_done; auto. }
        destruct (reg_offline _ _) as [r|]; [|discriminate].
        destruct a as [s|s]; intros H; injection H; intros <- <-; (eapply (one_move _ _ _ k _ (Some _)); [exact TN|reflexivity|reflexivity|]); rewrite A.
        * apply (mv_off _ _ _ _ (A5 s)); auto.
        * apply (mv_off _ _ _ _ (A3 s)); auto.
      + destruct (a_bcast a) eqn:BC; [|discriminate]. destruct stop.
        * destruct (remove_client a b) as [b1|] eqn:RC; [|discriminate]. intros H; injection H; intros <- <-.
          eapply (one_move _ _ _ k _ None); [exact TN|rewrite tasks_close; unfold end_task, set_tasks; cbn [b_tasks]; rewrite (proj1 (remove_tasks _ _ _ RC)); reflexivity|reflexivity|].
          rewrite A. apply mv_removed; auto.
        * intros H; injection H; intros <- <-. eapply (one_move _ _ _ k _ (Some (TOffline a))); [exact TN|reflexivity|reflexivity|]. rewrite A. apply mv_offback; auto.
    - (* fire *)
      unfold do_fire. assert (SAME : forall b1, b_tasks b1 = b_tasks b -> BOk b1 [] = BOk b' out -> forall j, tmove b (EFire n) j out (aget j (b_tasks b)) (aget j (b_tasks b')) (wills_of j out)).
      { intros b1 T H; injection H; intros <- <-. intros j. rewrite T. apply mv_same. }
      destruct (nth_error (b_timers b) n) as [[c k half due|c t due|c t due|c m]|]; [| | | |discriminate].
      + destruct (_ <? _); [discriminate|]. destruct (_ <=? _); [apply SAME; auto|]. destruct (in_list _ _); apply SAME; auto.
      + destruct (_ <? _); [discriminate|]. destruct (in_list _ _); apply SAME; auto.
      + destruct (_ <? _); [discriminate|]. destruct (in_list _ _); apply SAME; auto.
      + destruct (aget c (b_chans b)) as [ch|]; [|discriminate]. destruct (negb (ch_open ch)); [apply SAME; auto|]. destruct (ctl_room ch); [apply SAME; auto|discriminate].
    - intros H; injection H; intros <- <-. intros j. apply mv_same.
  Qed.

  (** The sessions under construction. *)
  Lemma connecting_ok b e x : connecting b e x -> pre_ok x.
  Proof. intros [(t0 & uuid & p & data & _ & _ & ->)|(t0 & uuid & p & _ & _ & ->)]; cbn; auto. Qed.
  Lemma step_pres e b b' out : inv b -> pres_ok b -> bstep hash5 hash3 pick e b = BOk b' out -> pres_ok b'.
  Proof.
    intros I P H j t A. pose proof (step_move _ _ _ _ I H j) as M. rewrite A in M.
    inversion M; subst; auto.
    - apply (P j t). auto.
    - eapply connecting_ok; eauto.
    - eapply connecting_ok; eauto.
    - eapply (P j (TSend x _)); eauto.
    - eapply (P j (TReply x _)); eauto.
  Qed.
End Move.
