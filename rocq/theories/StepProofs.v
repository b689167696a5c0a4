(** How one step changes the registry, the clocks and the messages of timers. *)
From Coq Require Import List Bool NArith String Lia.
From Verif Require Import Base BaseLemmas TopicModel MsgModel OutModel RouteModel RetainModel GlobModel Sess5Model Sess3Model ConnModel RegModel BrokerModel
  BrokerSpec FrameProofs CoreProofs BrokerInv TaskMove.
Import ListNotations.
Local Open Scope N_scope.

Lemma close_same c b : b_reg (close c b) = b_reg b /\ b_timers (close c b) = b_timers b /\ b_now (close c b) = b_now b /\ b_stamp (close c b) = b_stamp b /\
  b_conns (close c b) = b_conns b /\ b_last (close c b) = b_last b /\ b_cfg (close c b) = b_cfg b /\ b_route (close c b) = b_route b.
Proof. unfold close. destruct (aget c (b_chans b)); repeat split; auto. Qed.
Lemma remove_reg a b b' : remove_client a b = Some b' -> reg_remove (a_id a) (b_reg b) = Some (b_reg b').
Proof.
  unfold remove_client. destruct (reg_remove _ _); [|discriminate]. destruct (unroute _ _ _) as [t p]. destruct p; [discriminate|].
  intros H; inversion H; subst. reflexivity.
Qed.

(** Tokens: messages of timers, before ([Some due]) and after ([None]) the timer fired. *)

Lemma in_drop {A} n (x : A) l : In x (drop_at n l) -> In x l.
Proof. unfold drop_at. intros I. apply in_app_or in I. rewrite <- (firstn_skipn n l). apply in_or_app. destruct I as [I|I]; auto. right.
  clear - I. revert n I. induction l as [|y l IH]; intros n I; destruct n; cbn in *; auto. Qed.
Lemma in_put {A} n (x y : A) l : In x (put_at n y l) -> x = y \/ In x l.
Proof. unfold put_at. intros I. apply in_app_or in I. destruct I as [I|[I|I]]; auto; right; apply (in_drop n); unfold drop_at; apply in_or_app; auto. Qed.
Lemma in_keep {A} n (x : A) l : In x l -> nth_error l n = Some x \/ In x (drop_at n l).
Proof.
  intros I. unfold drop_at. revert n I. induction l as [|y l IH]; intros n I; [destruct I|]. destruct I as [<-|I].
  - destruct n; cbn; auto.
  - destruct n as [|n]; cbn; auto. destruct (IH n I) as [H|H]; auto.
Qed.
Lemma in_keep_put {A} n (x y : A) l : In x l -> nth_error l n = Some x \/ In x (put_at n y l).
Proof. intros I. destruct (in_keep n x l I) as [H|H]; auto. right. unfold drop_at, put_at in *. apply in_app_or in H. apply in_or_app. destruct H; auto. right. right. auto. Qed.
Lemma put_in {A} n (y : A) l : In y (put_at n y l). Proof. unfold put_at. apply in_or_app. right. left. auto. Qed.

Section Step.
  Variables (hash5 : wpub5 -> N) (hash3 : wpub3 -> N) (pick : draw -> broker -> string -> string -> N).
  Notation bstep := (bstep hash5 hash3 pick).

  (** One description of a step for everything but the tasks. *)
  Inductive smove (b : broker) (e : bev) (b' : broker) : Prop :=
  | sm_quiet : (* nothing but tasks, message queues and tables *)
      b_reg b' = b_reg b -> b_timers b' = b_timers b -> (forall c, cv b' c = cv b c) -> b_stamp b' = b_stamp b -> b_now b' = b_now b ->
      match e with EPut _ | EControl _ | EFire _ | ETick _ | EJoin _ | EDone _ | EConnect5 _ _ _ _ | EConnect3 _ _ _ | EFail _ => False | _ => True end -> smove b e b'
  | sm_tick d : e = ETick d -> b' = set_now (b_now b + d) b -> smove b e b'
  | sm_add x : connecting b e x -> b_reg b' = fst (reg_add (p_ident x) (b_reg b)) -> b_timers b' = b_timers b ->
      (forall c, cv b' c = match aget (p_ident x) (r_idents (b_reg b)) with Some _ => cv b c | None => upd (cv b) (r_next (b_reg b)) (Some ([], true)) c end) ->
      b_stamp b' = b_stamp b -> b_now b' = b_now b -> smove b e b'
  | sm_put k x c : e = EPut k -> aget k (b_tasks b) = Some (TSend x c) -> cv b c = Some ([], true) -> b_reg b' = b_reg b -> b_timers b' = b_timers b ->
      (forall d, cv b' d = upd (cv b) c (Some ([online_msg (p_v5 x) k], true)) d) -> b_stamp b' = b_stamp b -> b_now b' = b_now b -> smove b e b'
  | sm_lost k : e = EPut k \/ e = EFail k -> b_reg b' = b_reg b -> b_timers b' = b_timers b -> (forall c, cv b' c = cv b c) -> b_stamp b' = b_stamp b -> b_now b' = b_now b ->
      smove b e b'
  | sm_give k t v i c d q tms : aget k (b_tasks b) = Some t -> role_of t = Owns v i c d -> cv b c = Some (q, true) -> (* receiver dropped *)
      b_timers b' = (b_timers b ++ tms)%list -> (forall m, In m tms -> exists half, m = IKeep c k half (b_now b)) ->
      (forall d, cv b' d = upd (cv b) c (Some (q, false)) d) -> b_stamp b <= b_stamp b' -> b_now b' = b_now b ->
      ((exists x r, t = TJoin x r) \/ (exists a, t = TReady a \/ t = TEnd a)) /\ b_reg b' = b_reg b \/
      (exists a, e = EDone k /\ (t = TDrain a /\ a_ends a = true \/ t = TOffDrain a true) /\ a_id a = c /\ reg_remove (a_id a) (b_reg b) = Some (b_reg b')) ->
      smove b e b'
  | sm_join k x r a tms : e = EJoin k -> aget k (b_tasks b) = Some (TJoin x r) -> b_stamp b < b_now b -> b_stamp b' = b_now b -> b_now b' = b_now b -> b_reg b' = b_reg b ->
      aget k (b_tasks b') = Some (TReady a) ->
      (forall c, cv b' c = cv b c) -> b_timers b' = (b_timers b ++ tms)%list -> tms = (if 0 <? a_keep a then [IKeep (a_id a) k (a_keep a * 500) (b_now b)] else []) -> smove b e b'
  | sm_will k s d : e = EEnd k true -> aget k (b_tasks b) = Some (TEnd (A5 s)) -> s_cdisc s = false -> will_due s = Some d -> d < s_expiry s ->
      b_reg b' = b_reg b -> b_timers b' = (b_timers b ++ [IWill (s_id s) (opt_or (s_ctime s) 0) (b_now b + d * 1000)])%list -> (forall c, cv b' c = cv b c) ->
      b_stamp b' = b_stamp b -> b_now b' = b_now b -> smove b e b'
  | sm_off k a : e = EDone k -> aget k (b_tasks b) = Some (TDrain a) -> a_ends a = false -> reg_offline (a_id a) (b_reg b) = Some (b_reg b') ->
      b_timers b' = (b_timers b ++ match a with A5 s => [IExpire (s_id s) (opt_or (s_ctime s) 0) (b_now b + s_expiry s * 1000)] | A3 _ => [] end)%list ->
      (forall c, cv b' c = cv b c) -> b_stamp b' = b_stamp b -> b_now b' = b_now b -> smove b e b'
  | sm_back k a : e = EDone k -> aget k (b_tasks b) = Some (TOffDrain a false) -> b_reg b' = b_reg b -> b_timers b' = b_timers b -> (forall c, cv b' c = cv b c) ->
      b_stamp b' = b_stamp b -> b_now b' = b_now b -> smove b e b'
  | sm_pop k (on : bool) a m : e = EControl k -> aget k (b_tasks b) = Some (if on then TOnline a else TOffline a) -> cv b (a_id a) = Some ([m], true) ->
      b_reg b' = b_reg b \/ (on = false /\ a_v5 a = true /\ (exists t, m = CExpired t /\ a_ctime a = Some t) /\ reg_remove (a_id a) (b_reg b) = Some (b_reg b')) ->
      b_timers b' = b_timers b -> (forall d, cv b' d = upd (cv b) (a_id a) (Some ([], true)) d) ->
      b_stamp b' = b_stamp b -> b_now b' = b_now b -> smove b e b'
  | sm_fire n i : e = EFire n -> nth_error (b_timers b) n = Some i -> b_reg b' = b_reg b -> b_stamp b' = b_stamp b -> b_now b' = b_now b -> b_tasks b' = b_tasks b ->
      (match i with
       | IKeep c k half due => due <= b_now b /\ (forall d, cv b' d = cv b d) /\
           let t := match aget k (b_last b) with Some t => t | None => 0 end in
           if b_now b - t <=? half * 3 then b_timers b' = put_at n (IKeep c k half (b_now b + half)) (b_timers b)
           else if in_list c (r_clients (b_reg b)) then b_timers b' = put_at n (IPut c CKick) (b_timers b) else b_timers b' = drop_at n (b_timers b)
       | IExpire c t due => due <= b_now b /\ (forall d, cv b' d = cv b d) /\
           if in_list c (r_clients (b_reg b)) then b_timers b' = put_at n (IPut c (CExpired t)) (b_timers b) else b_timers b' = drop_at n (b_timers b)
       | IWill c t due => due <= b_now b /\ (forall d, cv b' d = cv b d) /\
           if in_list c (r_clients (b_reg b)) then b_timers b' = put_at n (IPut c (CWill t)) (b_timers b) else b_timers b' = drop_at n (b_timers b)
       | IPut c m => b_timers b' = drop_at n (b_timers b) /\
           ((exists q, cv b c = Some (q, false)) /\ (forall d, cv b' d = cv b d) \/
            cv b c = Some ([], true) /\ (forall d, cv b' d = upd (cv b) c (Some ([m], true)) d))
       end) -> smove b e b'.

  Lemma close_cv c q b k : cv b c = Some (q, true) -> (forall d, cv (close c (end_task k b)) d = upd (cv b) c (Some (q, false)) d).
  Proof.
    intros C d. destruct (cv_inv _ _ _ _ C) as (ms & A). rewrite (close_eq (end_task k b) c q ms) by exact A.
    unfold cv at 1, set_chan, set_chans. cbn [b_chans]. apply (cv_set b).
  Qed.
  Lemma sm_give0 b e k t v i c d : inv b -> aget k (b_tasks b) = Some t -> role_of t = Owns v i c d ->
    (exists x r, t = TJoin x r) \/ (exists a, t = TReady a \/ t = TEnd a) -> smove b e (close c (end_task k b)).
  Proof.
    intros I A R T. pose proof I as [K _ _ _].
    destruct (owner_open _ _ _ _ _ K k v i c d) as (q & CV); [rewrite (rl_of _ _ _ A), R; auto|].
    destruct (close_same c (end_task k b)) as (E1 & E2 & E3 & E4 & _).
    eapply (sm_give b e _ k t v i c d q []); eauto.
    - rewrite E2, app_nil_r. reflexivity.
    - intros m [].
    - apply close_cv. auto.
    - rewrite E4. cbn. lia.
  Qed.

  Lemma step_smove e b b' out : inv b -> pres_ok b -> bstep e b = BOk b' out -> smove b e b'.
  Proof.
    intros I P. pose proof I as [K TN CN OK]. destruct e; cbn [BrokerModel.bstep].
    - destruct (N.ltb_spec (b_now b) t0) as [|LE]; [discriminate|].
      set (x := B5 (connect_conn5 (b_cfg b) uuid t0 p) data). unfold add_client.
      assert (CX : connecting b (EConnect5 t0 uuid p data) x) by (left; exists t0, uuid, p, data; auto).
      destruct (reg_add (p_ident x) (b_reg b)) as [r a] eqn:RA. pose proof RA as RA0. unfold reg_add in RA.
      destruct (aget (p_ident x) (r_idents (b_reg b))) as [c|] eqn:ID.
      + inversion RA; subst. destruct (in_list _ _); [|discriminate]. intros H; injection H; intros <- <-. eapply (sm_add _ _ _ x); auto.
        * rewrite RA0. reflexivity.
        * intros d. rewrite ID. reflexivity.
      + inversion RA; subst. intros H; injection H; intros <- <-. eapply (sm_add _ _ _ x); auto.
        * rewrite RA0. reflexivity.
        * intros d. rewrite ID. apply (cv_set b).
    - destruct (N.ltb_spec (b_now b) t0) as [|LE]; [discriminate|].
      set (x := B3 (connect_sess3 (b_cfg b) uuid t0 p)). unfold add_client.
      assert (CX : connecting b (EConnect3 t0 uuid p) x) by (right; exists t0, uuid, p; auto).
      destruct (reg_add (p_ident x) (b_reg b)) as [r a] eqn:RA. pose proof RA as RA0. unfold reg_add in RA.
      destruct (aget (p_ident x) (r_idents (b_reg b))) as [c|] eqn:ID.
      + inversion RA; subst. destruct (in_list _ _); [|discriminate]. intros H; injection H; intros <- <-. eapply (sm_add _ _ _ x); auto.
        * rewrite RA0. reflexivity.
        * intros d. rewrite ID. reflexivity.
      + inversion RA; subst. intros H; injection H; intros <- <-. eapply (sm_add _ _ _ x); auto.
        * rewrite RA0. reflexivity.
        * intros d. rewrite ID. apply (cv_set b).
    - unfold do_put. destruct (aget k (b_tasks b)) as [[x c| | | | | | | |]|] eqn:A; try discriminate.
      destruct (aget c (b_chans b)) as [ch|] eqn:C; [|discriminate]. destruct (ch_open ch) eqn:O; cbn [negb].
      + destruct ch as [q ms o]. unfold ctl_room. cbn [ch_ctl ch_open] in *. destruct q; [|discriminate]. subst o. intros H; injection H; intros <- <-.
        eapply (sm_put _ _ _ k x c); auto.
        * apply (cv_of _ _ _ C).
        * intros d. unfold cv at 1, set_task, set_tasks, set_chan, set_chans. cbn [b_chans]. rewrite (cv_set b). reflexivity.
      + intros H; injection H; intros <- <-. eapply (sm_lost _ _ _ k); auto.
    - unfold do_fail. destruct (aget k (b_tasks b)) as [[| x c|x r|a| | | | |]|] eqn:A; try discriminate.
      + destruct (aget c (b_chans b)) as [ch|]; [|discriminate]. destruct (ch_open ch); [discriminate|].
        intros H; injection H; intros <- <-. eapply (sm_lost _ _ _ k); auto.
      + intros H; injection H; intros <- <-. eapply sm_give0; eauto; reflexivity.
      + intros H; injection H; intros <- <-. eapply sm_give0; eauto; reflexivity.
    - unfold do_join. destruct (N.leb_spec (b_now b) (b_stamp b)) as [|NS]; [discriminate|].
      destruct (aget k (b_tasks b)) as [[| |[cn data|s0] r| | | | | |]|] eqn:A; try discriminate.
      + destruct (match r with RNew c => Some (RcNew c) | ROld5 st => Some (RcPresent st) | ROld3 _ => None end) as [rc|] eqn:RC; [|discriminate].
        destruct (session_connect5 _ _ _ _ _ _) as [[s ack]|] eqn:SC; [|discriminate]. destruct (start_keep_same k (A5 s) b) as (S1 & S2 & S3 & S4 & S5 & _).
        destruct (session_connect5_facts _ _ _ _ _ _ _ SC) as (F1 & F2 & _).
        assert (TM : b_timers (start_keep k (A5 s) b) = (b_timers b ++ (if 0 <? s_keep s then [IKeep (s_id s) k (s_keep s * 500) (b_now b)] else []))%list).
        { unfold start_keep. cbn [a_keep a_id]. destruct (0 <? s_keep s); [reflexivity|]. rewrite app_nil_r. reflexivity. }
        assert (NW : b_now (start_keep k (A5 s) b) = b_now b) by (unfold start_keep; destruct (_ <? _); reflexivity).
        destruct (s_connected s) eqn:SN; intros H; injection H; intros <- <-.
        * eapply (sm_join _ _ _ k (B5 cn data) r (A5 s)); auto; unfold set_task, set_tasks, set_stamp; cbn [b_reg b_tasks b_timers b_stamp b_now]; auto.
          -- apply aget_aset_eq.
          -- intros c. unfold cv. cbn [b_chans]. rewrite S4. reflexivity.
        * assert (SI : rc_id r = s_id s). { rewrite F1. destruct r; inversion RC; subst; reflexivity. }
          destruct (owner_open _ _ _ _ _ K k true (s_ident (cn_s cn)) (s_id s) false) as (q & CV); [rewrite (rl_of _ _ _ A); cbn; rewrite SI; reflexivity|].
          destruct (close_same (s_id s) (end_task k (set_stamp (b_now b) (start_keep k (A5 s) b)))) as (E1 & E2 & E3 & E4 & _).
          eapply (sm_give _ _ _ k (TJoin (B5 cn data) r) true (s_ident (cn_s cn)) (s_id s) false q); auto.
          -- cbn. rewrite SI. reflexivity.
          -- rewrite E2. cbn. exact TM.
          -- intros m. destruct (0 <? s_keep s); [|intros []]. intros [<-|[]]. eauto.
          -- intros d. rewrite (close_cv (s_id s) q (set_stamp (b_now b) (start_keep k (A5 s) b)) k).
             ++ unfold upd. destruct (d =? s_id s); auto. unfold cv. cbn. rewrite S4. reflexivity.
             ++ unfold cv. cbn. rewrite S4. exact CV.
          -- rewrite E4. cbn. lia.
          -- rewrite E3. cbn. exact NW.
          -- left. split; eauto. rewrite E1. cbn. auto.
      + destruct (match r with RNew c => Some (RcNew3 c) | ROld3 st => Some (RcPresent3 st) | ROld5 _ => None end) as [rc|] eqn:RC; [|discriminate].
        destruct (session_connect3 _ _ _) as [s ack] eqn:SC. destruct (start_keep_same k (A3 s) b) as (S1 & S2 & S3 & S4 & S5 & _).
        intros H; injection H; intros <- <-.
        assert (NW : b_now (start_keep k (A3 s) b) = b_now b) by (unfold start_keep; destruct (_ <? _); reflexivity).
        eapply (sm_join _ _ _ k (B3 s0) r (A3 s)); auto; unfold set_task, set_tasks, set_stamp; cbn [b_reg b_tasks b_timers b_stamp b_now]; auto.
        * apply aget_aset_eq.
        * intros c. unfold cv. cbn [b_chans]. rewrite S4. reflexivity.
        * unfold start_keep. destruct (0 <? a_keep (A3 s)); [reflexivity|]. rewrite app_nil_r. reflexivity.
    - unfold do_start. destruct (aget k (b_tasks b)) as [[| | |[s|s]| | | | |]|] eqn:A; try discriminate.
      + destruct (pendings5 _ _) as [s1 o]. intros H; injection H; intros <- <-. apply sm_quiet; auto.
      + destruct (after_packet3 _ _) as [s1 o]. intros H; injection H; intros <- <-. apply sm_quiet; auto.
    - unfold do_packet5. destruct (aget k (b_tasks b)) as [[| | | |[s|s]| | | |]|] eqn:A; try discriminate.
      destruct (is_disconnected5 s); [discriminate|].
      destruct (packet_step5 _ _ _ _ _ _ _) as [s1 g o|s1 g|]; [| |discriminate]; intros H; injection H; intros <- <-.
      + destruct (is_disconnected5 s1); apply sm_quiet; auto.
      + apply sm_quiet; auto.
    - unfold do_packet3. destruct (aget k (b_tasks b)) as [[| | | |[s|s]| | | |]|] eqn:A; try discriminate.
      destruct (z_disc s); [discriminate|].
      destruct (packet_step3 _ _ _ _ _ _) as [s1 g o|s1 g|]; [| |discriminate]; intros H; injection H; intros <- <-; apply sm_quiet; auto.
    - unfold do_malformed. destruct (aget k (b_tasks b)) as [[| | | |[s|s]| | | |]|] eqn:A; try discriminate.
      destruct (is_disconnected5 s); [discriminate|]. destruct (error_disconnect _ _ s) as [s1 p]. intros H; injection H; intros <- <-. apply sm_quiet; auto.
    - unfold do_close. destruct (aget k (b_tasks b)) as [[| | | |a| | | |]|] eqn:A; try discriminate. intros H; injection H; intros <- <-. apply sm_quiet; auto.
    - (* control *)
      unfold do_control.
      assert (GO : forall (on : bool) a, aget k (b_tasks b) = Some (if on then TOnline a else TOffline a) ->
        match aget (a_id a) (b_chans b) with
        | Some (Chan (m :: r) ms o) => control pick on k a m (set_chan (a_id a) (Chan r ms o) b)
        | _ => BNo
        end = BOk b' out -> smove b (EControl k) b').
      { intros on a A. destruct (aget (a_id a) (b_chans b)) as [[[|m q] ms o]|] eqn:C; try discriminate.
        assert (RK : rl b k = Some (Owns (a_v5 a) (a_ident a) (a_id a) false)) by (rewrite (rl_of _ _ _ A); destruct on; reflexivity).
        pose proof (cv_of _ _ _ C) as CVC. cbn [ch_ctl ch_open] in CVC.
        destruct (owner_open _ _ _ _ _ K _ _ _ _ _ RK) as (q' & CVO). rewrite CVC in CVO. injection CVO; intros -> <-. clear CVO.
        assert (q = []) as ->. { pose proof (k_len _ _ _ _ _ K _ _ _ CVC). destruct q; auto. cbn in H. lia. }
        set (b1 := set_chan (a_id a) (Chan [] ms true) b).
        assert (CV1 : forall d, cv b1 d = upd (cv b) (a_id a) (Some ([], true)) d) by (intros d; apply (cv_set b)).
        assert (HD : head_ctl b (a_id a) m) by (eexists; eexists; split; [exact C|reflexivity]).
        assert (SIMPLE : forall b2, b_reg b2 = b_reg b -> b_timers b2 = b_timers b -> (forall d, cv b2 d = cv b1 d) -> b_stamp b2 = b_stamp b -> b_now b2 = b_now b ->
          smove b (EControl k) b2).
        { intros b2 E1 E2 E3 E4 E5. eapply (sm_pop _ _ _ k on a m); auto.
          intros d. rewrite E3. auto. }
        pose proof (OK _ _ A) as SO.
        destruct m as [i|i| |t|t]; cbn [control].
        - destruct a as [s|s].
          + destruct (aget i (b_tasks b1)) as [[| | | | | | | |]|]; try discriminate. intros H; injection H; intros <- <-. apply SIMPLE; auto.
          + intros H; injection H; intros <- <-. apply SIMPLE; auto.
        - destruct a as [s|s].
          + intros H; injection H; intros <- <-. apply SIMPLE; auto.
          + destruct (aget i (b_tasks b1)) as [[| | | | | | | |]|]; try discriminate.
            assert (AC : aget (z_id s) (b_chans b1) = Some (Chan [] ms true)). { unfold b1, set_chan, set_chans. cbn [b_chans]. apply aget_aset_eq. }
            rewrite AC. cbn [ch_norm ch_ctl ch_open]. unfold hand_over. destruct on; intros H; injection H; intros <- <-; apply SIMPLE; auto.
            intros d. change (option_map cview (aget d (aset (z_id s) (Chan [] [] true) (b_chans b1))) = cv b1 d). rewrite (cv_set b1). unfold upd. cbn [ch_ctl ch_open].
            destruct (N.eqb_spec d (z_id s)) as [->|]; auto. unfold cv. rewrite AC. reflexivity.
        - destruct on; intros H; injection H; intros <- <-; apply SIMPLE; auto.
        - destruct a as [s|s]; [|discriminate]. destruct (_ && _) eqn:CT.
          2:{ intros H; injection H; intros <- <-. apply SIMPLE; auto. }
          destruct on.
          { destruct SO as (X & _). cbn in X. rewrite X in CT. discriminate CT. }
          destruct (send_will pick k (A5 s) b1) as [[[[a1 b2] o1] ok]|] eqn:SW; [|discriminate].
          destruct (send_will_facts _ _ _ _ _ _ _ _ SW) as (F1 & F2 & F3 & F4 & F5 & rt & rn & ->).
          destruct (remove_client a1 _) as [b3|] eqn:RC; [|discriminate]. intros H; injection H; intros <- <-.
          destruct (remove_tasks _ _ _ RC) as (T1 & T2 & T3 & T4 & T5 & _). pose proof (remove_reg _ _ _ RC) as RR. cbn [b_reg set_tables b1 set_chan set_chans] in RR.
          apply andb_true_iff in CT. destruct CT as [_ CT]. destruct (s_ctime s) as [t'|] eqn:CE; [|discriminate]. apply N.eqb_eq in CT. subst t'.
          eapply (sm_pop _ _ _ k false (A5 s) (CExpired t)); auto.
          + right. split; auto. split; auto. split; [exists t; auto|]. rewrite <- F3. exact RR.
          + intros d. unfold cv at 1, set_task, set_tasks. cbn [b_chans]. rewrite T2. apply CV1.
        - destruct a as [s|s]; [|discriminate]. destruct (_ && _) eqn:CT.
          2:{ intros H; injection H; intros <- <-. apply SIMPLE; auto. }
          destruct on.
          { destruct SO as (X & _). cbn in X. rewrite X in CT. discriminate CT. }
          destruct (send_will pick k (A5 s) b1) as [[[[a1 b2] o1] ok]|] eqn:SW; [|discriminate].
          destruct (send_will_facts _ _ _ _ _ _ _ _ SW) as (F1 & F2 & F3 & F4 & F5 & rt & rn & ->).
          intros H; injection H; intros <- <-. apply SIMPLE; auto. }
      destruct (aget k (b_tasks b)) as [[| | | |a| | |a|]|] eqn:A; try discriminate.
      + apply (GO true a); auto.
      + apply (GO false a); auto.
    - unfold do_normal.
      assert (GO : forall (on : bool) a, aget k (b_tasks b) = Some (if on then TOnline a else TOffline a) ->
        match aget (a_id a) (b_chans b) with
        | Some (Chan cs (m :: r) o) =>
            let '(a1, out0) := normal (seconds b) (b_cfg b) k on (snd m) a in
            BOk (set_task k (if on then TOnline a1 else TOffline a1) (set_chan (a_id a) (Chan cs r o) b)) out0
        | _ => BNo
        end = BOk b' out -> smove b (ENormal k) b').
      { intros on a A. destruct (aget (a_id a) (b_chans b)) as [[cs [|m r] o]|] eqn:C; try discriminate.
        destruct (normal _ _ _ _ _ _) as [a1 out1] eqn:NE. intros H; injection H; intros <- <-. apply sm_quiet; auto.
        intros d. pose proof (norm_cv b _ _ r d C) as X. cbn in X. exact X. }
      destruct (aget k (b_tasks b)) as [[| | | |a| | |a|]|] eqn:A; try discriminate.
      + destruct (a_disc a); [discriminate|]. apply (GO true a); auto.
      + apply (GO false a); auto.
    - unfold do_flush.
      assert (GO : forall a f, match flush d a b with Some (a1, b1) => BOk (set_task k (f a1) b1) [] | None => BNo end = BOk b' out -> smove b (EFlush k d) b').
      { intros a f. destruct (flush d a b) as [[a1 b1]|] eqn:F; [|discriminate]. intros H; injection H; intros <- <-.
        destruct (flush_facts _ _ _ _ _ F) as (_ & [->|(ch & ms & C & ->)]); apply sm_quiet; auto. intros e. apply (norm_cv b _ _ ms e C). }
      destruct (aget k (b_tasks b)) as [[| | | |a| |a| |a stop]|] eqn:A; try discriminate.
      + apply (GO a TOnline); auto.
      + apply (GO a TDrain); auto.
      + apply (GO a (fun a1 => TOffDrain a1 stop)); auto.
    - unfold do_end. destruct (aget k (b_tasks b)) as [[| | | | |a| | |]|] eqn:A; try discriminate.
      destruct hook; cbn [negb].
      2:{ intros H; injection H; intros <- <-. eapply sm_give0; eauto; reflexivity. }
      assert (NOW : match send_will pick k a b with
        | None => BPanic
        | Some (a1, b1, out, ok) => if ok then BOk (set_task k (TDrain a1) b1) out else BOk (close (a_id a) (end_task k b1)) (out ++ [OClosed k])%list
        end = BOk b' out -> smove b (EEnd k true) b').
      { destruct (send_will pick k a b) as [[[[a1 b1] o1] ok]|] eqn:SW; [|discriminate].
        destruct (send_will_move _ _ _ _ _ _ _ _ SW) as (SP & (rt & rn & ->) & WO & OKE).
        destruct ok; intros H; injection H; intros <- <-.
        - apply sm_quiet; auto.
        - destruct (owner_open _ _ _ _ _ K k (a_v5 a) (a_ident a) (a_id a) false) as (q & CV); [rewrite (rl_of _ _ _ A); reflexivity|].
          destruct (close_same (a_id a) (end_task k (set_tables rt rn b))) as (E1 & E2 & E3 & E4 & _).
          eapply (sm_give _ _ _ k (TEnd a) (a_v5 a) (a_ident a) (a_id a) false q []); auto.
          + rewrite E2, app_nil_r. reflexivity.
          + intros m [].
          + intros d. apply (close_cv (a_id a) q (set_tables rt rn b) k CV).
          + rewrite E4. cbn. lia.
          + left. split; eauto 6. }
      destruct a as [s|s].
      + destruct (s_cdisc s) eqn:CD; [intros H; injection H; intros <- <-; apply sm_quiet; auto|].
        destruct (will_due s) as [d|] eqn:WD; [|exact NOW]. destruct (N.ltb_spec d (s_expiry s)); intros H'; injection H'; intros <- <-.
        * eapply (sm_will _ _ _ k s d); auto.
        * apply sm_quiet; auto.
      + destruct (z_disc s); [intros H; injection H; intros <- <-; apply sm_quiet; auto|exact NOW].
    - unfold do_done.
      assert (FIN : forall a b1 t, aget k (b_tasks b) = Some t -> (t = TDrain a /\ a_ends a = true \/ t = TOffDrain a true) -> remove_client a b = Some b1 -> smove b (EDone k) (close (a_id a) (end_task k b1))).
      { intros a b1 t A L RC. destruct (remove_tasks _ _ _ RC) as (T1 & T2 & T3 & T4 & T5 & _). pose proof (remove_reg _ _ _ RC) as RR.
        assert (RO : exists d, role_of t = Owns (a_v5 a) (a_ident a) (a_id a) d) by (destruct L as [[-> _]| ->]; cbn; eauto). destruct RO as (dr & RO).
        destruct (owner_open _ _ _ _ _ K k (a_v5 a) (a_ident a) (a_id a) dr) as (q & CV); [rewrite (rl_of _ _ _ A), RO; reflexivity|].
        destruct (close_same (a_id a) (end_task k b1)) as (E1 & E2 & E3 & E4 & _).
        assert (CE : forall d, cv b1 d = cv b d) by (intros d; unfold cv; rewrite T2; auto).
        eapply (sm_give _ _ _ k t (a_v5 a) (a_ident a) (a_id a) dr q []); auto.
        - rewrite E2, app_nil_r. cbn. auto.
        - intros m [].
        - intros d. rewrite (close_cv (a_id a) q b1 k) by (rewrite CE; auto). unfold upd. destruct (d =? a_id a); auto.
        - rewrite E4. cbn. rewrite T4. lia.
        - rewrite E3. cbn. auto.
        - right. exists a. rewrite E1. cbn. auto 6. }
      destruct (aget k (b_tasks b)) as [[| | | | | |a| |a stop]|] eqn:A; try discriminate.
      + destruct (a_bcast a) eqn:BC; [|discriminate]. destruct (a_ends a) eqn:EN.
        { destruct (remove_client a b) as [b1|] eqn:RC; [|discriminate]. intros H; injection H; intros <- <-. eapply FIN; eauto. }
        destruct (reg_offline _ _) as [r|] eqn:RO; [|discriminate].
        destruct a as [s|s]; intros H; injection H; intros <- <-.
        * eapply (sm_off _ _ _ k (A5 s)); auto.
        * eapply (sm_off _ _ _ k (A3 s)); auto. rewrite app_nil_r. reflexivity.
      + destruct (a_bcast a) eqn:BC; [|discriminate]. destruct stop.
        * destruct (remove_client a b) as [b1|] eqn:RC; [|discriminate]. intros H; injection H; intros <- <-. eapply FIN; eauto.
        * intros H; injection H; intros <- <-. eapply (sm_back _ _ _ k a); auto.
    - (* fire *)
      unfold do_fire. destruct (nth_error (b_timers b) n) as [i|] eqn:NE; [|discriminate].
      destruct i as [c k half due|c t due|c t due|c m].
      + destruct (N.ltb_spec (b_now b) due); [discriminate|]. cbv zeta. destruct (_ <=? _) eqn:LE.
        * intros H'; injection H'; intros <- <-. eapply sm_fire; eauto. cbv zeta. cbn [b_timers set_timers]. rewrite LE. auto.
        * destruct (in_list _ _) eqn:IL; intros H'; injection H'; intros <- <-; (eapply sm_fire; eauto; cbv zeta; cbn [b_timers set_timers]; rewrite LE, IL; auto).
      + destruct (N.ltb_spec (b_now b) due); [discriminate|]. destruct (in_list _ _) eqn:IL; intros H'; injection H'; intros <- <-; (eapply sm_fire; eauto; cbn; rewrite IL; auto).
      + destruct (N.ltb_spec (b_now b) due); [discriminate|]. destruct (in_list _ _) eqn:IL; intros H'; injection H'; intros <- <-; (eapply sm_fire; eauto; cbn; rewrite IL; auto).
      + destruct (aget c (b_chans b)) as [[q ms o]|] eqn:C; [|discriminate]. pose proof (cv_of _ _ _ C) as CV. cbn in CV. cbn [ch_open]. destruct o; cbn [negb].
        * unfold ctl_room. cbn [ch_ctl]. destruct q; [|discriminate]. intros H'; injection H'; intros <- <-. eapply sm_fire; eauto. cbv beta iota zeta. split; auto. right. split; auto.
          intros d. unfold cv at 1, set_chan, set_chans, set_timers. cbn [b_chans]. apply (cv_set b).
        * intros H'; injection H'; intros <- <-. eapply sm_fire; eauto. cbv beta iota zeta. split; auto. left. split; eauto.
    - intros H; injection H; intros <- <-. eapply sm_tick; eauto.
  Qed.
End Step.
