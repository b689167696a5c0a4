(** The invariant of CoreProofs holds in every state of the broker. *)
From Coq Require Import List Bool NArith String Lia.
From Verif Require Import Base BaseLemmas TopicModel MsgModel OutModel RouteModel RetainModel GlobModel Sess5Model Sess3Model ConnModel RegModel BrokerModel
  BrokerSpec FrameProofs CoreProofs.
Import ListNotations.
Local Open Scope N_scope.

Definition rl (b : broker) (k : N) : option role := option_map role_of (aget k (b_tasks b)).
Definition cview (ch : chan) : list ctl * bool := (ch_ctl ch, ch_open ch).
Definition cv (b : broker) (c : client_id) : option (list ctl * bool) := option_map cview (aget c (b_chans b)).


Definition sess_ok (stamp : N) (conn : bool) (a : sess) : Prop :=
  a_conn a = conn /\ exists t, a_ctime a = Some t /\ t <= stamp.
Definition task_ok (stamp : N) (t : task) : Prop :=
  match t with
  | TSend _ _ | TReply _ _ => True
  | TJoin x r => match x, r with B5 _ _, ROld3 _ | B3 _, ROld5 _ => False | _, _ => True end
  | TReady a | TOnline a | TEnd a | TDrain a => sess_ok stamp true a
  | TOffline a | TOffDrain a _ => sess_ok stamp false a
  end.

Record inv (b : broker) : Prop := Inv {
  i_core : core (b_reg b) (b_conns b) (cv b) (rl b) (b_timers b);
  i_tnd : NoDup (keys (b_tasks b));
  i_cnd : NoDup (keys (b_chans b));
  i_ok : forall k t, aget k (b_tasks b) = Some t -> task_ok (b_stamp b) t
}.

Lemma inv_new c : inv (broker_new c).
Proof.
  constructor; cbn.
  - eapply core_ext; [apply core_new| | | |]; cbn; auto. lia.
  - constructor.
  - constructor.
  - discriminate.
Qed.

(** ** The setters *)
Lemma rl_of b k t : aget k (b_tasks b) = Some t -> rl b k = Some (role_of t).
Proof. unfold rl. intros ->. reflexivity. Qed.
Lemma cv_of b c ch : aget c (b_chans b) = Some ch -> cv b c = Some (ch_ctl ch, ch_open ch).
Proof. unfold cv. intros ->. reflexivity. Qed.
Lemma cv_inv b c q o : cv b c = Some (q, o) -> exists ms, aget c (b_chans b) = Some (Chan q ms o).
Proof. unfold cv. destruct (aget c (b_chans b)) as [[? ms ?]|]; cbn; [|discriminate]. intros H; injection H; intros; subst; eauto. Qed.

Lemma aget_N {A} k j v (l : list (N * A)) : aget k (aset j v l) = if k =? j then Some v else aget k l.
Proof. rewrite aget_aset. reflexivity. Qed.
Lemma adel_N {A} k j (l : list (N * A)) : NoDup (keys l) -> aget k (adel j l) = if k =? j then None else aget k l.
Proof. intros H. destruct (N.eqb_spec k j) as [->|]; [apply aget_adel_eq; auto|apply aget_adel_ne; auto]. Qed.

Lemma rl_set b k t j : option_map role_of (aget j (aset k t (b_tasks b))) = upd (rl b) k (Some (role_of t)) j.
Proof. unfold upd, rl. rewrite aget_N. destruct (j =? k); reflexivity. Qed.
Lemma rl_del b k j : NoDup (keys (b_tasks b)) -> option_map role_of (aget j (adel k (b_tasks b))) = upd (rl b) k None j.
Proof. intros H. unfold upd, rl. rewrite adel_N by auto. destruct (j =? k); reflexivity. Qed.
Lemma cv_set b c ch d : option_map cview (aget d (aset c ch (b_chans b))) = upd (cv b) c (Some (ch_ctl ch, ch_open ch)) d.
Proof. unfold upd, cv. change client_id with N in *. rewrite aget_N. destruct (d =? c); reflexivity. Qed.

Lemma sess_ok_mono s s' c a : s <= s' -> sess_ok s c a -> sess_ok s' c a.
Proof. intros H (A & t & B & C). split; auto. exists t. split; auto. lia. Qed.
Lemma task_ok_mono s s' t : s <= s' -> task_ok s t -> task_ok s' t.
Proof. intros H. destruct t; cbn; auto; apply sess_ok_mono; auto. Qed.

(** A task moves on in its role; the message queues may change. *)
Lemma inv_task b b' k t t' : inv b -> aget k (b_tasks b) = Some t -> role_of t' = role_of t ->
  b_tasks b' = aset k t' (b_tasks b) -> b_reg b' = b_reg b -> b_conns b' = b_conns b ->
  (forall c, cv b' c = cv b c) -> NoDup (keys (b_chans b')) -> Forall (timer_ok (r_next (b_reg b)) (rl b)) (b_timers b') ->
  b_stamp b <= b_stamp b' -> task_ok (b_stamp b') t' -> inv b'.
Proof.
  intros [K TN CN OK] A R T G C V CN' TM S O.
  constructor; auto.
  - rewrite G, C. eapply core_ext; [exact K|lia|auto| |auto].
    intros j. unfold rl at 1. rewrite T, rl_set. unfold upd. destruct (N.eqb_spec j k) as [->|]; auto. rewrite R. symmetry. apply rl_of. auto.
  - rewrite T. apply NoDup_aset; auto.
  - intros j u. rewrite T, aget_N. destruct (j =? k).
    + intros H; injection H; intros; subst; auto.
    + intros H. eapply task_ok_mono; eauto.
Qed.

(** Nothing but clocks and tables change. *)
Lemma inv_same b b' : inv b -> b_tasks b' = b_tasks b -> b_reg b' = b_reg b -> b_conns b' = b_conns b -> b_chans b' = b_chans b ->
  b_stamp b' = b_stamp b -> Forall (timer_ok (r_next (b_reg b)) (rl b)) (b_timers b') -> inv b'.
Proof.
  intros [K TN CN OK] T G C H S TM. constructor; rewrite ?T, ?H, ?S; auto.
  rewrite G, C. eapply core_ext; [exact K|lia| | |auto].
  - intros c. unfold cv. rewrite H. auto.
  - intros k. unfold rl. rewrite T. auto.
Qed.

Lemma timers_ok b : inv b -> Forall (timer_ok (r_next (b_reg b)) (rl b)) (b_timers b).
Proof. intros [K _ _ _]. apply (k_tms _ _ _ _ _ K). Qed.

Ltac tmok := match goal with I : inv ?b |- Forall _ _ => exact (timers_ok b I) end.

Lemma norm_cv b c ch ms d : aget c (b_chans b) = Some ch ->
  cv (set_chan c (Chan (ch_ctl ch) ms (ch_open ch)) b) d = cv b d.
Proof.
  intros H. unfold cv at 1, set_chan, set_chans. cbn [b_chans]. rewrite cv_set. cbn [ch_ctl ch_open]. unfold upd.
  destruct (N.eqb_spec d c) as [->|]; auto. symmetry. apply cv_of; auto.
Qed.

(** ** Closing *)
Lemma close_eq b c q ms : aget c (b_chans b) = Some (Chan q ms true) -> close c b = set_chan c (Chan q ms false) b.
Proof. intros H. unfold close. rewrite H. reflexivity. Qed.

Lemma inv_close b b0 k t v i c d : inv b -> aget k (b_tasks b) = Some t -> role_of t = Owns v i c d ->
  b_tasks b0 = b_tasks b -> b_chans b0 = b_chans b -> b_conns b0 = b_conns b -> b_stamp b <= b_stamp b0 ->
  core (b_reg b0) (b_conns b) (cv b) (rl b) (b_timers b0) ->
  inv (close c (end_task k b0)).
Proof.
  intros [K TN CN OK] A R T H C S K0.
  assert (RK : rl b k = Some (Owns v i c d)) by (rewrite (rl_of _ _ _ A), R; auto).
  destruct (owner_open _ _ _ _ _ K _ _ _ _ _ RK) as (q & CV). destruct (cv_inv _ _ _ _ CV) as (ms & CH).
  assert (CL : close c (end_task k b0) = set_chan c (Chan q ms false) (end_task k b0)).
  { apply close_eq. unfold end_task, set_tasks. cbn [b_chans]. rewrite H. auto. }
  rewrite CL. unfold set_chan, set_chans, end_task, set_tasks. constructor; cbn [b_reg b_conns b_tasks b_chans b_timers b_stamp].
  - rewrite C. eapply core_ext; [eapply (core_close _ _ _ _ _ K0); eauto|lia| | |].
    + intros e. unfold cv at 1. cbn [b_chans]. rewrite H. rewrite (cv_set b). reflexivity.
    + intros j. unfold rl at 1. cbn [b_tasks]. rewrite T. apply rl_del; auto.
    + apply (k_tms _ _ _ _ _ (core_close _ _ _ _ _ K0 _ _ _ _ _ _ RK CV)).
  - rewrite T. apply NoDup_adel; auto.
  - rewrite H. apply NoDup_aset; auto.
  - intros j u. rewrite T, adel_N by auto. destruct (j =? k); [discriminate|]. intros X. eapply task_ok_mono; eauto.
Qed.
Lemma inv_close0 b k t v i c d : inv b -> aget k (b_tasks b) = Some t -> role_of t = Owns v i c d -> inv (close c (end_task k b)).
Proof. intros I A R. eapply inv_close; eauto; [lia|apply I]. Qed.

(** A waiting task ends. *)
Lemma inv_unwait b k t s v i c : inv b -> aget k (b_tasks b) = Some t -> role_of t = Waits s v i c ->
  (s = true -> exists q, cv b c = Some (q, false)) -> inv (end_task k b).
Proof.
  intros [K TN CN OK] A R SC. unfold end_task, set_tasks. constructor; cbn [b_reg b_conns b_tasks b_chans b_timers b_stamp]; auto.
  - eapply core_ext; [eapply (core_unwait _ _ _ _ _ K k s v i c); eauto|lia|reflexivity| |].
    + rewrite (rl_of _ _ _ A), R. auto.
    + intros j. apply (rl_del b k j TN).
    + assert (RK : rl b k = Some (Waits s v i c)) by (rewrite (rl_of _ _ _ A), R; auto).
      apply (k_tms _ _ _ _ _ (core_unwait _ _ _ _ _ K _ _ _ _ _ RK SC)).
  - apply NoDup_adel; auto.
  - intros j u. rewrite adel_N by auto. destruct (j =? k); [discriminate|]. apply OK.
Qed.

(** A control message is taken out. *)
Lemma inv_pop b c m q ms o : inv b -> aget c (b_chans b) = Some (Chan (m :: q) ms o) -> is_online m = false ->
  inv (set_chan c (Chan q ms o) b) /\ q = [].
Proof.
  intros [K TN CN OK] A NM. pose proof (cv_of _ _ _ A) as CV. cbn in CV. split.
  - unfold set_chan, set_chans. constructor; cbn [b_reg b_conns b_tasks b_chans b_timers b_stamp]; auto.
    + eapply core_ext; [eapply (core_pop _ _ _ _ _ K); eauto|lia| |reflexivity|apply (k_tms _ _ _ _ _ K)].
      intros d. apply cv_set.
    + apply NoDup_aset; auto.
  - pose proof (k_len _ _ _ _ _ K _ _ _ CV). destruct q; auto. cbn in H. lia.
Qed.

(** ** Removal *)
Lemma remove_inv b a b' k t : inv b -> aget k (b_tasks b) = Some t -> remove_client a b = Some b' ->
  role_of t = Owns (a_v5 a) (a_ident a) (a_id a) false ->
  core (b_reg b') (b_conns b) (cv b) (upd (rl b) k (Some (Owns (a_v5 a) (a_ident a) (a_id a) true))) (b_timers b) /\
  b_tasks b' = b_tasks b /\ b_chans b' = b_chans b /\ b_conns b' = b_conns b /\ b_stamp b' = b_stamp b /\ b_timers b' = b_timers b.
Proof.
  intros [K TN CN OK] A RC R. unfold remove_client in RC. destruct (reg_remove _ _) as [r|] eqn:RR; [|discriminate].
  destruct (unroute _ _ _) as [rt p]. destruct p; [discriminate|]. injection RC; intros <-. unfold set_tables, set_reg. cbn. split; auto 6.
  eapply core_remove; eauto. rewrite (rl_of _ _ _ A), R. reflexivity.
Qed.

Section Steps.
  Variables (hash5 : wpub5 -> N) (hash3 : wpub3 -> N) (pick : draw -> broker -> string -> string -> N).

  Lemma add_client_inv t0 x b b' out : inv b -> add_client t0 x b = BOk b' out -> inv b'.
  Proof.
    intros I. pose proof I as [K TN CN OK]. unfold add_client. destruct (reg_add (p_ident x) (b_reg b)) as [r a] eqn:RA.
    assert (NK : ~ In (b_conns b) (keys (b_tasks b))).
    { intros N1. apply in_keys_aget in N1. destruct N1 as (t & E). pose proof (k_num _ _ _ _ _ K (b_conns b) (role_of t)).
      rewrite (rl_of _ _ _ E) in H. specialize (H eq_refl). lia. }
    destruct (aget (p_ident x) (r_idents (b_reg b))) as [c|] eqn:ID.
    - destruct (add_known _ _ _ _ _ K _ _ ID) as [AK KK]. rewrite RA in AK, KK. cbn [fst snd] in AK, KK. subst a.
      intros H; injection H; intros <- <-. unfold set_task, set_tasks, set_last, set_lasts, set_conns, set_reg.
      assert (ID' : aget (p_ident x) (r_idents r) = Some c). { unfold reg_add in RA. rewrite ID in RA. inversion RA; subst. auto. }
      constructor; cbn [b_reg b_conns b_tasks b_chans b_timers b_stamp]; auto.
      + eapply core_ext; [eapply (core_waiting _ _ _ _ _ KK (p_v5 x) (p_ident x) c ID')|lia|reflexivity| |].
        * intros j. apply (rl_set b).
        * apply (k_tms _ _ _ _ _ (core_waiting _ _ _ _ _ KK (p_v5 x) (p_ident x) c ID')).
      + apply NoDup_aset; auto.
      + intros j u. rewrite aget_N. destruct (j =? _); [intros H'; injection H'; intros; subst; exact Logic.I|apply OK].
    - destruct (core_fresh _ _ _ _ _ K (p_ident x) (p_v5 x) ID) as [KK AK]. rewrite RA in AK, KK. cbn [fst snd] in AK, KK. subst a.
      intros H; injection H; intros <- <-. unfold set_task, set_tasks, set_last, set_lasts, set_conns, set_reg, set_chan, set_chans.
      constructor; cbn [b_reg b_conns b_tasks b_chans b_timers b_stamp]; auto.
      + eapply core_ext; [exact KK|lia| | |apply (k_tms _ _ _ _ _ KK)].
        * intros d. apply (cv_set b).
        * intros j. apply (rl_set b).
      + apply NoDup_aset; auto.
      + apply NoDup_aset; auto.
      + intros j u. rewrite aget_N. destruct (j =? _); [intros H'; injection H'; intros; subst; cbn; destruct x; auto|apply OK].
  Qed.

  Lemma put_inv k b b' out : inv b -> do_put k b = BOk b' out -> inv b'.
  Proof.
    intros I. pose proof I as [K TN CN OK]. unfold do_put. destruct (aget k (b_tasks b)) as [[x c| | | | | | | |]|] eqn:A; try discriminate.
    destruct (aget c (b_chans b)) as [ch|] eqn:C; [|discriminate]. destruct (ch_open ch) eqn:O; cbn [negb].
    - destruct ch as [q ms o]. unfold ctl_room. cbn [ch_ctl ch_open] in *. destruct q; [|discriminate]. intros H; injection H; intros <- <-. subst o.
      pose proof (rl_of _ _ _ A) as RK. cbn [role_of] in RK. pose proof (cv_of _ _ _ C) as CV. cbn in CV.
      pose proof (core_put _ _ _ _ _ K _ _ _ _ RK CV) as KK.
      unfold set_task, set_tasks, set_chan, set_chans. constructor; cbn [b_reg b_conns b_tasks b_chans b_timers b_stamp]; auto.
      + eapply core_ext; [exact KK|lia| | |apply (k_tms _ _ _ _ _ KK)].
        * intros d. unfold cv at 1. cbn [b_chans]. rewrite cv_set. unfold push_ctl, online_msg. cbn [ch_ctl ch_open app]. reflexivity.
        * intros j. unfold rl at 1. cbn [b_tasks]. rewrite rl_set. reflexivity.
      + apply NoDup_aset; auto.
      + apply NoDup_aset; auto.
      + intros j u. rewrite aget_N. destruct (j =? _); [intros H'; injection H'; intros; subst; exact Logic.I|apply OK].
    - intros H; injection H; intros <- <-. eapply inv_unwait; eauto; [reflexivity|discriminate].
  Qed.

  Lemma fail_inv k b b' out : inv b -> do_fail k b = BOk b' out -> inv b'.
  Proof.
    intros I. unfold do_fail. destruct (aget k (b_tasks b)) as [[| x c|x r|a| | | | |]|] eqn:A; try discriminate.
    - destruct (aget c (b_chans b)) as [ch|] eqn:C; [|discriminate]. destruct (ch_open ch) eqn:O; [discriminate|].
      intros H; injection H; intros <- <-. eapply inv_unwait; eauto; [reflexivity|]. intros _. pose proof (cv_of _ _ _ C) as CV. rewrite O in CV. eauto.
    - intros H; injection H; intros <- <-. eapply inv_close0; eauto. reflexivity.
    - intros H; injection H; intros <- <-. eapply inv_close0; eauto. reflexivity.
  Qed.

  Lemma start_keep_same k a b : b_tasks (start_keep k a b) = b_tasks b /\ b_reg (start_keep k a b) = b_reg b /\ b_conns (start_keep k a b) = b_conns b /\
    b_chans (start_keep k a b) = b_chans b /\ b_stamp (start_keep k a b) = b_stamp b /\
    (forall P : timer -> Prop, P (IKeep (a_id a) k (a_keep a * 500) (b_now b)) -> Forall P (b_timers b) -> Forall P (b_timers (start_keep k a b))).
  Proof.
    unfold start_keep. destruct (0 <? a_keep a); cbn; repeat split; auto.
    intros P H F. apply Forall_app. auto.
  Qed.

  Lemma session_connect5_facts c now rc data (cn : conn5 unit) s ack : session_connect5 unit c now rc data cn = Some (s, ack) ->
    s_id s = match rc with RcNew i => i | RcPresent st => st_id st end /\ s_ident s = s_ident (cn_s cn) /\ s_will s = s_will (cn_s cn) /\
    (if ka_code ack =? RC_success then s_connected s = true /\ s_ctime s = Some now else s_connected s = s_connected (cn_s cn)) /\ s_cdisc s = s_cdisc (cn_s cn) /\
    s_bcast s = s_bcast (cn_s cn) /\ s_keep s = s_keep (cn_s cn).
  Proof.
    unfold session_connect5. destruct (max_allowed_qos c) as [mq|].
    2:{ destruct (match rc with RcNew id => _ | RcPresent st => _ end) as [s1 pr]. discriminate. }
    destruct rc as [i|st].
    - destruct (_ <? _); intros H; inversion H; subst; cbn [ka_code]; cbn [with_id with_out with_expiry s_will s_clean];
        match goal with |- context[if ?x =? RC_success then _ else _] => destruct (x =? RC_success) end; cbn; repeat split; auto.
    - destruct (s_clean (cn_s cn)); cbn [negb]; destruct (_ <? _); intros H; inversion H; subst; cbn [ka_code resume5]; cbn [with_id with_out with_expiry s_will s_clean];
        match goal with |- context[if ?x =? RC_success then _ else _] => destruct (x =? RC_success) end; cbn; repeat split; auto.
  Qed.
  Lemma session_connect3_facts now rc s0 s ack : session_connect3 now rc s0 = (s, ack) ->
    z_id s = match rc with RcNew3 i => i | RcPresent3 st => st3_id st end /\ z_ident s = z_ident s0 /\ z_will s = z_will s0 /\
    z_connected s = true /\ z_ctime s = Some now /\ z_disc s = z_disc s0 /\ z_bcast s = z_bcast s0 /\ z_keep s = z_keep s0.
  Proof.
    unfold session_connect3. destruct rc as [i|st]; [|destruct (_ && _)]; intros H; inversion H; subst; cbn; repeat split; auto.
  Qed.

  (** CONNECT leaves [connected] false until CONNACK; kept with the task. *)
  Definition pre_ok (x : pre) : Prop :=
    match x with
    | B5 cn _ => s_connected (cn_s cn) = false /\ s_cdisc (cn_s cn) = false /\ s_sdisc (cn_s cn) = false /\ s_bcast (cn_s cn) = []
    | B3 s => z_connected s = false /\ z_disc s = false /\ z_bcast s = []
    end.
  Definition pres_ok (b : broker) : Prop :=
    forall k t, aget k (b_tasks b) = Some t -> match t with TSend x _ | TReply x _ | TJoin x _ => pre_ok x | _ => True end.

  Lemma join_inv k b b' out : inv b -> pres_ok b -> do_join k b = BOk b' out -> inv b'.
  Proof.
    intros I P. pose proof I as [K TN CN OK]. unfold do_join. destruct (N.leb_spec (b_now b) (b_stamp b)) as [|NS]; [discriminate|].
    destruct (aget k (b_tasks b)) as [[| |[cn data|s0] r| | | | | |]|] eqn:A; try discriminate.
    - pose proof (P _ _ A) as PO. cbn in PO.
      assert (RC : exists rc, match r with RNew c => Some (RcNew c) | ROld5 st => Some (RcPresent st) | ROld3 _ => None end = Some rc /\
                              rc_id r = match rc with RcNew i => i | RcPresent st => st_id st end).
      { specialize (OK _ _ A). cbn in OK. destruct r; try contradiction; eexists; split; reflexivity. }
      destruct RC as (rc & -> & RI).
      destruct (session_connect5 unit _ _ rc data cn) as [[s ack]|] eqn:SC; [|discriminate].
      destruct (session_connect5_facts _ _ _ _ _ _ _ SC) as (F1 & F2 & F3 & F4 & F5 & F6 & F7).
      destruct (start_keep_same k (A5 s) b) as (S1 & S2 & S3 & S4 & S5 & S6).
      assert (RO : Owns true (s_ident s) (s_id s) false = role_of (TJoin (B5 cn data) r)).
      { cbn [role_of p_v5 p_ident]. rewrite F2, F1, <- RI. reflexivity. }
      assert (TM : Forall (timer_ok (r_next (b_reg b)) (rl b)) (b_timers (start_keep k (A5 s) b))).
      { apply S6; [|try tmok; auto]. cbn. eapply (k_own _ _ _ _ _ K k). rewrite (rl_of _ _ _ A), <- RO. reflexivity. }
      destruct (s_connected s) eqn:SCN; intros H; injection H; intros <- <-.
      + eapply inv_task with (t' := TReady (A5 s)); [exact I|exact A|exact RO| | | | | | | |];
          unfold set_task, set_tasks, set_stamp; cbn [b_reg b_conns b_tasks b_chans b_timers b_stamp]; rewrite ?S1, ?S2, ?S3, ?S4; auto.
        * lia.
        * cbn. split; auto. destruct (_ =? _); [|destruct PO; congruence]. destruct F4 as [_ F4]. exists (b_now b). cbn. split; auto. lia.
      + eapply (inv_close b _ k _ true (s_ident s) (s_id s) false); [exact I|exact A|symmetry; exact RO|..];
          unfold set_stamp; cbn [b_reg b_conns b_tasks b_chans b_timers b_stamp]; auto.
        * lia.
        * rewrite S2. eapply core_ext; [exact K|lia|auto|auto|exact TM].
    - pose proof (P _ _ A) as PO. cbn in PO.
      assert (RC : exists rc, match r with RNew c => Some (RcNew3 c) | ROld3 st => Some (RcPresent3 st) | ROld5 _ => None end = Some rc /\
                              rc_id r = match rc with RcNew3 i => i | RcPresent3 st => st3_id st end).
      { specialize (OK _ _ A). cbn in OK. destruct r; try contradiction; eexists; split; reflexivity. }
      destruct RC as (rc & -> & RI).
      destruct (session_connect3 (b_now b) rc s0) as [s ack] eqn:SC.
      destruct (session_connect3_facts _ _ _ _ _ SC) as (F1 & F2 & F3 & F4 & F5 & F6 & F7 & F8).
      destruct (start_keep_same k (A3 s) b) as (S1 & S2 & S3 & S4 & S5 & S6).
      assert (RO : Owns false (z_ident s) (z_id s) false = role_of (TJoin (B3 s0) r)).
      { cbn [role_of p_v5 p_ident]. rewrite F2, F1, <- RI. reflexivity. }
      intros H; injection H; intros <- <-.
      eapply inv_task with (t' := TReady (A3 s)); [exact I|exact A|exact RO| | | | | | | |];
          unfold set_task, set_tasks, set_stamp; cbn [b_reg b_conns b_tasks b_chans b_timers b_stamp]; rewrite ?S1, ?S2, ?S3, ?S4; auto.
      + apply S6; [|try tmok; auto]. cbn. eapply (k_own _ _ _ _ _ K k). rewrite (rl_of _ _ _ A), <- RO. reflexivity.
      + lia.
      + cbn. split; auto. exists (b_now b). cbn. split; auto. lia.
  Qed.

  (** Tasks that go on with a session of the same identity. *)
  Lemma inv_sess b b' k t t' a a' : inv b -> aget k (b_tasks b) = Some t -> role_of t = Owns (a_v5 a) (a_ident a) (a_id a) false ->
    role_of t' = Owns (a_v5 a') (a_ident a') (a_id a') false ->
    a_v5 a' = a_v5 a -> a_ident a' = a_ident a -> a_id a' = a_id a ->
    b_tasks b' = aset k t' (b_tasks b) -> b_reg b' = b_reg b -> b_conns b' = b_conns b -> (forall c, cv b' c = cv b c) -> NoDup (keys (b_chans b')) ->
    Forall (timer_ok (r_next (b_reg b)) (rl b)) (b_timers b') -> b_stamp b' = b_stamp b -> task_ok (b_stamp b) t' -> inv b'.
  Proof.
    intros I A R R' V D E T G C CV CN TM S O. eapply (inv_task b b' k t t'); eauto; [rewrite R, R'; congruence|lia|rewrite S; auto].
  Qed.

  Lemma start_inv k b b' out : inv b -> do_start k b = BOk b' out -> inv b'.
  Proof.
    intros I. pose proof I as [K TN CN OK]. unfold do_start. destruct (aget k (b_tasks b)) as [[| | |[s|s]| | | | |]|] eqn:A; try discriminate.
    - destruct (pendings5 _ _) as [s1 o] eqn:P. intros H; injection H; intros <- <-.
      destruct (pendings5_keep _ _ (glob_of b) _ _ P) as ((E1&E2&E3&E4&_) & _ & _). cbn in E1, E2, E3, E4.
      eapply (inv_sess b _ k (TReady (A5 s)) (TOnline (A5 s1)) (A5 s) (A5 s1)); eauto; try tmok; auto.
            specialize (OK _ _ A). cbn in *. destruct OK as (X & t & Y & Z). cbn in *. split; cbn; [congruence|]. exists t. split; auto; cbn. congruence.
    - destruct (after_packet3 _ _) as [s1 o] eqn:P. intros H; injection H; intros <- <-.
      destruct (after_packet3_keep _ _ (glob_of b) _ _ P) as ((E1&E2&E3&E4&_) & _ & _). cbn in E1, E2, E3, E4.
      eapply (inv_sess b _ k (TReady (A3 s)) (TOnline (A3 s1)) (A3 s) (A3 s1)); eauto; try tmok; auto.
      specialize (OK _ _ A). cbn in *. destruct OK as (X & t & Y & Z). cbn in *. split; cbn; [congruence|]. exists t. split; auto; cbn. congruence.
  Qed.

  Lemma kept5 x s g s' g' : step_kept5 x s g s' g' -> s_id s' = s_id s /\ s_ident s' = s_ident s /\ s_connected s' = s_connected s /\ s_ctime s' = s_ctime s /\
    (s_will s' = s_will s \/ s_will s' = None) /\ gkeep g g'.
  Proof. unfold step_kept5. destruct (is_disconnect5 x); [intros ((?&?&?&?&?&?) & ? & ?)|intros ((?&?&?&?&?&?) & ? & ?)]; repeat split; auto; apply H6 || apply H5. Qed.
  Lemma kept3 x s g s' g' : step_kept3 x s g s' g' -> z_id s' = z_id s /\ z_ident s' = z_ident s /\ z_connected s' = z_connected s /\ z_ctime s' = z_ctime s /\
    (z_will s' = z_will s \/ z_will s' = None) /\ gkeep g g'.
  Proof. unfold step_kept3. destruct (is_disconnect3 x); [intros ((?&?&?&?&?&?) & ? & ?)|intros ((?&?&?&?&?&?) & ? & ?)]; repeat split; auto; apply H6 || apply H5. Qed.

  Lemma sess_ok_eq stamp c a a' : a_conn a' = a_conn a -> a_ctime a' = a_ctime a -> sess_ok stamp c a -> sess_ok stamp c a'.
  Proof. intros H H1 (X & t & Y & Z). split; [congruence|]. exists t. split; auto. congruence. Qed.

  Lemma packet5_inv k len x b b' out : inv b -> do_packet5 hash5 pick k len x b = BOk b' out -> inv b'.
  Proof.
    intros I. pose proof I as [K TN CN OK]. unfold do_packet5. destruct (aget k (b_tasks b)) as [[| | | |[s|s]| | | |]|] eqn:A; try discriminate.
    destruct (is_disconnected5 s); [discriminate|]. pose proof (packet_step5_keep hash5 (pick (DPacket k x) b) (seconds b) len x s (glob_of b)) as PK.
    specialize (OK _ _ A). cbn [task_ok] in OK.
    destruct (packet_step5 _ _ _ _ _ _ _) as [s1 g o|s1 g|]; [| |discriminate]; apply kept5 in PK; destruct PK as (E1 & E2 & E3 & E4 & _ & _);
      intros H; injection H; intros <- <-.
    - eapply (inv_sess b _ k (TOnline (A5 s)) (TOnline (A5 s1)) (A5 s) (A5 s1)); eauto; destruct (is_disconnected5 s1); try tmok; auto;
        cbn [task_ok]; eapply sess_ok_eq; [| |exact OK| | |exact OK]; cbn; auto.
    - eapply (inv_sess b _ k (TOnline (A5 s)) (TEnd (A5 s1)) (A5 s) (A5 s1)); eauto; try tmok; auto.
      cbn [task_ok]; eapply sess_ok_eq; [| |exact OK]; cbn; auto.
  Qed.
  Lemma packet3_inv k len x b b' out : inv b -> do_packet3 hash3 k len x b = BOk b' out -> inv b'.
  Proof.
    intros I. pose proof I as [K TN CN OK]. unfold do_packet3. destruct (aget k (b_tasks b)) as [[| | | |[s|s]| | | |]|] eqn:A; try discriminate.
    destruct (z_disc s); [discriminate|]. pose proof (packet_step3_keep hash3 (seconds b) len x s (glob_of b)) as PK.
    specialize (OK _ _ A). cbn [task_ok] in OK.
    destruct (packet_step3 _ _ _ _ _ _) as [s1 g o|s1 g|]; [| |discriminate]; apply kept3 in PK; destruct PK as (E1 & E2 & E3 & E4 & _ & _);
      intros H; injection H; intros <- <-.
    - eapply (inv_sess b _ k (TOnline (A3 s)) (TOnline (A3 s1)) (A3 s) (A3 s1)); eauto; try tmok; auto.
      cbn [task_ok]; eapply sess_ok_eq; [| |exact OK]; cbn; auto.
    - eapply (inv_sess b _ k (TOnline (A3 s)) (TEnd (A3 s1)) (A3 s) (A3 s1)); eauto; try tmok; auto.
      cbn [task_ok]; eapply sess_ok_eq; [| |exact OK]; cbn; auto.
  Qed.
  Lemma malformed_inv k reason b b' out : inv b -> do_malformed k reason b = BOk b' out -> inv b'.
  Proof.
    intros I. pose proof I as [K TN CN OK]. unfold do_malformed. destruct (aget k (b_tasks b)) as [[| | | |[s|s]| | | |]|] eqn:A; try discriminate.
    destruct (is_disconnected5 s); [discriminate|]. specialize (OK _ _ A). cbn [task_ok] in OK.
    pose proof (error_keep RC_malformed reason s (glob_of b)) as ((E1&E2&E3&E4&_) & _ & _).
    destruct (error_disconnect _ _ s) as [s1 p]. cbn [fst] in *. intros H; injection H; intros <- <-.
    eapply (inv_sess b _ k (TOnline (A5 s)) (TOnline (A5 s1)) (A5 s) (A5 s1)); eauto; try tmok; auto.
    cbn [task_ok]; eapply sess_ok_eq; [| |exact OK]; cbn; auto.
  Qed.
  Lemma doclose_inv k b b' out : inv b -> do_close k b = BOk b' out -> inv b'.
  Proof.
    intros I. pose proof I as [K TN CN OK]. unfold do_close. destruct (aget k (b_tasks b)) as [[| | | |a| | | |]|] eqn:A; try discriminate.
    intros H; injection H; intros <- <-. eapply (inv_sess b _ k (TOnline a) (TEnd a) a a); eauto; try tmok; auto. apply (OK _ _ A).
  Qed.

  Lemma normal_facts now c k on m a a' out : normal now c k on m a = (a', out) ->
    a_v5 a' = a_v5 a /\ a_ident a' = a_ident a /\ a_id a' = a_id a /\ a_conn a' = a_conn a /\ a_ctime a' = a_ctime a /\ a_bcast a' = a_bcast a.
  Proof.
    unfold normal. destruct a as [s|s].
    - destruct (handle_normal5 now c m s) as [s1 r] eqn:HN.
      assert (B1 : s_bcast s1 = s_bcast s).
      { revert HN. unfold handle_normal5. assert (RP : forall mm, recv_publish5 now mm s = (s1, r) -> s_bcast s1 = s_bcast s).
        { intros mm. unfold recv_publish5. destruct (match rp_ids mm with Lookup f => _ | Precomputed l => _ end); [|intros H; inversion H; auto].
          destruct (negb _); [destruct (_ <? _)|destruct (_ && _); [destruct (_ <? _)|]]; try (intros H; inversion H; auto; fail).
          - destruct (out5_push _ _ _). intros H; inversion H; auto.
          - destruct (out5_qos0 _ _ _ _ _). intros H; inversion H; auto. }
        destruct m as [m|m].
        - destruct (aget _ _); [apply RP|intros H; inversion H; auto].
        - destruct (filters_info _ _) as [[has rap] ids]. destruct has; [apply RP|intros H; inversion H; auto]. }
      destruct (handle_normal5_keep _ _ _ _ (Glob c [] ret_empty []) _ _ HN) as ((E1&E2&E3&E4&_) & _ & _).
      destruct r as [[q p]|]; [destruct on; [destruct (qos_eqb q L0)|]|]; try (intros H; inversion H; subst; cbn; auto 6; fail).
      destruct (pendings5 now s1) as [s2 more] eqn:P.
      assert (B2 : s_bcast s2 = s_bcast s1). { revert P. unfold pendings5. destruct (handle_pendings5 _ _). intros H; inversion H; auto. }
      destruct (pendings5_keep _ _ (Glob c [] ret_empty []) _ _ P) as ((G1&G2&G3&G4&_) & _ & _).
      intros H; inversion H; subst; cbn. repeat split; congruence.
    - destruct (handle_normal3 now m s) as [s1 r] eqn:HN.
      assert (B1 : z_bcast s1 = z_bcast s).
      { revert HN. unfold handle_normal3. assert (RP : forall mm, recv_publish3 now mm s = (s1, r) -> z_bcast s1 = z_bcast s).
        { intros mm. unfold recv_publish3. destruct (aget _ _); [|intros H; inversion H; auto].
          destruct (negb _); [|destruct (negb _); intros H; inversion H; auto]. destruct (out3_push _ _ _). intros H; inversion H; auto. }
        destruct m as [m|m]; [apply RP|]. destruct (n5_filters m); [intros H; inversion H; auto|apply RP]. }
      destruct (handle_normal3_keep _ _ _ (Glob c [] ret_empty []) _ _ HN) as ((E1&E2&E3&E4&_) & _ & _).
      destruct r as [[q p]|]; [destruct on; [destruct (qos_eqb q L0)|]|]; try (intros H; inversion H; subst; cbn; auto 6; fail).
      destruct (pendings3 now s1) as [s2 more] eqn:P.
      assert (B2 : z_bcast s2 = z_bcast s1). { revert P. unfold pendings3. destruct (handle_pendings3 _ _). intros H; inversion H; auto. }
      destruct (pendings3_keep _ _ (Glob c [] ret_empty []) _ _ P) as ((G1&G2&G3&G4&_) & _ & _).
      intros H; inversion H; subst; cbn. repeat split; congruence.
  Qed.

  Lemma normal_inv k b b' out : inv b -> do_normal k b = BOk b' out -> inv b'.
  Proof.
    intros I. pose proof I as [K TN CN OK]. unfold do_normal.
    assert (GO : forall (on : bool) a t, aget k (b_tasks b) = Some t -> t = (if on then TOnline a else TOffline a) ->
      match aget (a_id a) (b_chans b) with
      | Some (Chan cs (m :: r) o) =>
          let '(a1, out0) := normal (seconds b) (b_cfg b) k on (snd m) a in
          BOk (set_task k (if on then TOnline a1 else TOffline a1) (set_chan (a_id a) (Chan cs r o) b)) out0
      | _ => BNo
      end = BOk b' out -> inv b').
    { intros on a t A ->. destruct (aget (a_id a) (b_chans b)) as [[cs [|m r] o]|] eqn:C; try discriminate.
      destruct (normal _ _ _ _ _ _) as [a1 out1] eqn:NE. destruct (normal_facts _ _ _ _ _ _ _ _ NE) as (F1 & F2 & F3 & F4 & F5 & _).
      intros H; injection H; intros <- <-.
      eapply (inv_sess b _ k _ (if on then TOnline a1 else TOffline a1) a a1); eauto; try tmok; auto; unfold set_task, set_tasks, set_chan, set_chans;
        cbn [b_reg b_conns b_tasks b_chans b_timers b_stamp].
      - destruct on; reflexivity.
      - destruct on; reflexivity.
      - intros d. pose proof (norm_cv b _ _ r d C) as X. cbn in X. exact X.
      - apply NoDup_aset; auto.
      - specialize (OK _ _ A). destruct on; cbn in *; eapply sess_ok_eq; eauto. }
    destruct (aget k (b_tasks b)) as [[| | | |a| | |a|]|] eqn:A; try discriminate.
    - destruct (a_disc a); [discriminate|]. eapply (GO true a); eauto.
    - eapply (GO false a); eauto.
  Qed.

  Lemma a_set_facts q n a : a_v5 (a_set_bcast q n a) = a_v5 a /\ a_ident (a_set_bcast q n a) = a_ident a /\ a_id (a_set_bcast q n a) = a_id a /\
    a_conn (a_set_bcast q n a) = a_conn a /\ a_ctime (a_set_bcast q n a) = a_ctime a.
  Proof. destruct a; cbn; auto 6. Qed.
  Lemma flush_facts d a b a1 b1 : flush d a b = Some (a1, b1) ->
    (exists q n, a1 = a_set_bcast q n a) /\ (b1 = b \/ exists ch ms, aget d (b_chans b) = Some ch /\ b1 = set_chan d (Chan (ch_ctl ch) ms (ch_open ch)) b).
  Proof.
    unfold flush. destruct (aget d (a_bcast a)) as [[|m ms]|]; try discriminate.
    - intros H; inversion H; subst. eauto.
    - destruct (aget d (b_chans b)) as [ch|]; [|discriminate]. destruct (negb _).
      + intros H; inversion H; subst. eauto.
      + destruct (norm_room ch); [|discriminate]. intros H; inversion H; subst. split; eauto. right. exists ch. eexists. split; [reflexivity|]. reflexivity.
  Qed.
  Lemma flush_inv k d b b' out : inv b -> do_flush k d b = BOk b' out -> inv b'.
  Proof.
    intros I. pose proof I as [K TN CN OK]. unfold do_flush.
    assert (GO : forall a f t, aget k (b_tasks b) = Some t -> t = f a ->
       (forall a', a_v5 a' = a_v5 a -> a_ident a' = a_ident a -> a_id a' = a_id a -> role_of (f a') = role_of (f a)) ->
       (forall a', a_conn a' = a_conn a -> a_ctime a' = a_ctime a -> task_ok (b_stamp b) (f a) -> task_ok (b_stamp b) (f a')) ->
       match flush d a b with Some (a1, b1) => BOk (set_task k (f a1) b1) [] | None => BNo end = BOk b' out -> inv b').
    { intros a f t A -> R T. destruct (flush d a b) as [[a1 b1]|] eqn:F; [|discriminate]. intros H; injection H; intros <- <-.
      destruct (flush_facts _ _ _ _ _ F) as ((q & n & ->) & B). destruct (a_set_facts q n a) as (F1 & F2 & F3 & F4 & F5).
      assert (CV : forall c, cv b1 c = cv b c) by (destruct B as [->|(ch & ms & C & ->)]; [auto|intros c; apply norm_cv; auto]).
      eapply (inv_task b _ k (f a) (f (a_set_bcast q n a))); eauto;
        destruct B as [->|(ch & ms & C & ->)]; unfold set_task, set_tasks, set_chan, set_chans; cbn [b_reg b_conns b_tasks b_chans b_timers b_stamp]; auto; try lia.
      all: try tmok; try (apply NoDup_aset; auto; fail); apply (T _ F4 F5 (OK _ _ A)). }
    destruct (aget k (b_tasks b)) as [[| | | |a| |a| |a stop]|] eqn:A; try discriminate; eapply GO; eauto; cbn; intros; try congruence; eapply sess_ok_eq; eauto.
  Qed.

  Lemma send_will_facts k a b a1 b1 out ok : send_will pick k a b = Some (a1, b1, out, ok) ->
    a_v5 a1 = a_v5 a /\ a_ident a1 = a_ident a /\ a_id a1 = a_id a /\ a_conn a1 = a_conn a /\ a_ctime a1 = a_ctime a /\
    exists rt rn, b1 = set_tables rt rn b.
  Proof.
    unfold send_will. destruct a as [s|s].
    - destruct (send_will5 (pick (DWill k) b) s (glob_of b)) as [[[s1 g] o]|] eqn:S; [|discriminate]. apply send_will5_keep in S.
      destruct S as ((E1&E2&E3&E4&_) & _). intros H; inversion H; subst; cbn. repeat split; auto. unfold put_glob. eauto.
    - destruct (send_will3 s (glob_of b)) as [[[s1 g] o]|] eqn:S; [|discriminate]. apply send_will3_keep in S.
      destruct S as ((E1&E2&E3&E4&_) & _). intros H; inversion H; subst; cbn. repeat split; auto. unfold put_glob. eauto.
  Qed.

  Lemma end_inv k hook b b' out : inv b -> do_end pick k hook b = BOk b' out -> inv b'.
  Proof.
    intros I. pose proof I as [K TN CN OK]. unfold do_end. destruct (aget k (b_tasks b)) as [[| | | | |a| | |]|] eqn:A; try discriminate.
    specialize (OK _ _ A). cbn [task_ok] in OK.
    destruct hook; cbn [negb].
    2:{ intros H; injection H; intros <- <-. eapply inv_close0; eauto. reflexivity. }
    assert (NOW : match send_will pick k a b with
      | None => BPanic
      | Some (a1, b1, out, ok) => if ok then BOk (set_task k (TDrain a1) b1) out else BOk (close (a_id a) (end_task k b1)) (out ++ [OClosed k])%list
      end = BOk b' out -> inv b').
    { destruct (send_will pick k a b) as [[[[a1 b1] o1] ok]|] eqn:SW; [|discriminate].
      destruct (send_will_facts _ _ _ _ _ _ _ SW) as (F1 & F2 & F3 & F4 & F5 & rt & rn & ->).
      destruct ok; intros H; injection H; intros <- <-.
      - eapply (inv_sess b _ k (TEnd a) (TDrain a1) a a1); eauto; try tmok; auto. cbn. eapply sess_ok_eq; eauto.
      - apply (inv_close b _ k (TEnd a) (a_v5 a) (a_ident a) (a_id a) false); auto; try reflexivity; exact K. }
    assert (SKIP : forall b1, inv b -> b_tasks b1 = b_tasks b -> b_reg b1 = b_reg b -> b_conns b1 = b_conns b -> b_chans b1 = b_chans b -> b_stamp b1 = b_stamp b ->
        Forall (timer_ok (r_next (b_reg b)) (rl b)) (b_timers b1) -> inv (set_task k (TDrain a) b1)).
    { intros b1 _ T G C H S TM. eapply (inv_sess b _ k (TEnd a) (TDrain a) a a); eauto; unfold set_task, set_tasks; cbn [b_reg b_conns b_tasks b_chans b_timers b_stamp];
        rewrite ?T, ?H; auto. }
    destruct a as [s|s].
    - destruct (s_cdisc s); [intros H; injection H; intros <- <-; apply SKIP; auto; try tmok; auto|].
      destruct (will_due s) as [d|]; [|exact NOW]. intros H; injection H; intros <- <-. apply SKIP; auto; try (destruct (d <? s_expiry s); reflexivity).
      destruct (d <? s_expiry s); [|try tmok; auto]. unfold add_timer, set_timers. cbn [b_timers]. apply Forall_app. split; [try tmok; auto|].
      constructor; [|constructor]. cbn. pose proof (rl_of _ _ _ A) as RK. cbn in RK. split; [eapply (k_own _ _ _ _ _ K); eauto|].
      intros k' v i d' E. assert (k' = k) by (eapply (k_one _ _ _ _ _ K); eauto). subst. rewrite RK in E. inversion E; auto.
    - destruct (z_disc s); [intros H; injection H; intros <- <-; apply SKIP; auto; try tmok; auto|exact NOW].
  Qed.

  Lemma finish_inv k a t d b b1 : inv b -> aget k (b_tasks b) = Some t -> role_of t = Owns (a_v5 a) (a_ident a) (a_id a) d ->
    remove_client a b = Some b1 -> inv (close (a_id a) (end_task k b1)).
  Proof.
    intros I A R RC. pose proof I as [K TN CN OK].
    pose proof RC as RC'. unfold remove_client in RC'. destruct (reg_remove _ _) as [r|] eqn:RR; [|discriminate].
    destruct (unroute _ _ _) as [rt p]. destruct p; [discriminate|]. injection RC'; intros <-. clear RC'.
    assert (RK : rl b k = Some (Owns (a_v5 a) (a_ident a) (a_id a) d)) by (rewrite (rl_of _ _ _ A), R; auto).
    destruct d.
    - eapply (inv_close b _ k _ _ _ _ true); [exact I|exact A|exact R|reflexivity..|]. cbn. eapply core_remove_dropped; eauto.
    - pose proof (core_remove _ _ _ _ _ K _ _ _ _ _ RK RR) as KR.
      destruct (owner_open _ _ _ _ _ K _ _ _ _ _ RK) as (q & CV). destruct (cv_inv _ _ _ _ CV) as (ms & CH).
      erewrite close_eq; [|exact CH]. pose proof (core_close _ _ _ _ _ KR k _ _ _ true q (upd_eq _ _ _) CV) as KC.
      unfold set_chan, set_chans, end_task, set_tasks, set_tables, set_reg. constructor; cbn [b_reg b_conns b_tasks b_chans b_timers b_stamp]; auto.
      + eapply core_ext; [exact KC|lia| | |apply (k_tms _ _ _ _ _ KC)].
        * intros e. unfold cv at 1. cbn [b_chans]. apply (cv_set b).
        * intros j. unfold rl at 1. cbn [b_tasks]. rewrite rl_del by auto. unfold upd. destruct (j =? k); auto.
      + apply NoDup_adel; auto.
      + apply NoDup_aset; auto.
      + intros j u. rewrite adel_N by auto. destruct (j =? k); [discriminate|]. apply OK.
  Qed.

  Lemma done_inv k b b' out : inv b -> do_done k b = BOk b' out -> inv b'.
  Proof.
    intros I. pose proof I as [K TN CN OK]. unfold do_done. destruct (aget k (b_tasks b)) as [[| | | | | |a| |a stop]|] eqn:A; try discriminate.
    - destruct (a_bcast a); [|discriminate]. destruct (a_ends a).
      { destruct (remove_client a b) as [b1|] eqn:RC; [|discriminate]. intros H; injection H; intros <- <-. eapply finish_inv; eauto. reflexivity. }
      destruct (reg_offline _ _) as [r|] eqn:RO; [|discriminate]. pose proof (core_offline _ _ _ _ _ K _ _ RO) as KO.
      assert (RN : r_next r = r_next (b_reg b)). { unfold reg_offline in RO. destruct (_ =? 0); [discriminate|]. inversion RO; subst; reflexivity. }
      assert (I1 : inv (set_reg r b)). { unfold set_reg. constructor; cbn [b_reg b_conns b_tasks b_chans b_timers b_stamp]; auto. }
      pose proof (OK _ _ A) as (X & tm & Y & Z). pose proof (rl_of _ _ _ A) as RK. cbn in RK.
      destruct a as [s|s]; intros H; injection H; intros <- <-.
      + eapply (inv_sess (set_reg r b) _ k (TDrain (A5 s)) (TOffline (A5 (with_connected false s))) (A5 s) (A5 (with_connected false s))); eauto.
        * unfold add_timer, set_timers, set_reg, set_task, set_tasks. cbn [b_timers b_reg]. apply Forall_app. split; [rewrite RN; try tmok; auto|].
          constructor; [|constructor]. cbn. rewrite RN. split; [eapply (k_own _ _ _ _ _ K); eauto|].
          intros k' v i d' E. assert (k' = k) by (eapply (k_one _ _ _ _ _ K); eauto). subst. unfold rl in E, RK. cbn in E, RK. rewrite RK in E. inversion E; auto.
        * cbn. split; auto. exists tm. cbn in *. auto.
      + eapply (inv_sess (set_reg r b) _ k (TDrain (A3 s)) (TOffline (A3 (zwith_connected false s))) (A3 s) (A3 (zwith_connected false s))); eauto.
        * cbn. rewrite RN. try tmok; auto.
        * cbn. split; auto. exists tm. cbn in *. auto.
    - destruct (a_bcast a); [|discriminate]. destruct stop.
      + destruct (remove_client a b) as [b1|] eqn:RC; [|discriminate]. intros H; injection H; intros <- <-. eapply finish_inv; eauto. reflexivity.
      + intros H; injection H; intros <- <-. eapply (inv_sess b _ k (TOffDrain a false) (TOffline a) a a); eauto; try tmok; auto. apply (OK _ _ A).
  Qed.

  Lemma Forall_drop {A} (P : A -> Prop) n l : Forall P l -> Forall P (drop_at n l).
  Proof. intros H. unfold drop_at. rewrite Forall_forall in *. intros x I. apply H. apply in_app_or in I. destruct I as [I|I].
    - rewrite <- (firstn_skipn n l). apply in_or_app; auto.
    - rewrite <- (firstn_skipn (S n) l). apply in_or_app; auto. Qed.
  Lemma Forall_put {A} (P : A -> Prop) n x l : P x -> Forall P l -> Forall P (put_at n x l).
  Proof. intros HX H. unfold put_at. rewrite Forall_forall in *. intros y I. apply in_app_or in I. destruct I as [I|[<-|I]]; auto.
    - apply H. rewrite <- (firstn_skipn n l). apply in_or_app; auto.
    - apply H. rewrite <- (firstn_skipn (S n) l). apply in_or_app; auto. Qed.

  Lemma fire_inv n b b' out : inv b -> do_fire n b = BOk b' out -> inv b'.
  Proof.
    intros I. pose proof I as [K TN CN OK]. pose proof (timers_ok _ I) as TM. unfold do_fire.
    destruct (nth_error (b_timers b) n) as [i|] eqn:NE; [|discriminate].
    assert (TI : timer_ok (r_next (b_reg b)) (rl b) i) by (rewrite Forall_forall in TM; apply TM; eapply nth_error_In; eauto).
    assert (GONE : BOk (set_timers (drop_at n (b_timers b)) b) [] = BOk b' out -> inv b').
    { intros H; injection H; intros <- <-. eapply inv_same; eauto. cbn. apply Forall_drop. auto. }
    assert (BEC : forall i', timer_ok (r_next (b_reg b)) (rl b) i' -> BOk (set_timers (put_at n i' (b_timers b)) b) [] = BOk b' out -> inv b').
    { intros i' T' H; injection H; intros <- <-. eapply inv_same; eauto. cbn. apply Forall_put; auto. }
    destruct i as [c k half due|c t due|c t due|c m]; cbn in TI.
    - destruct (_ <? _); [discriminate|]. destruct (_ <=? _); [apply BEC; cbn; auto|]. destruct (in_list _ _); auto. apply BEC. cbn. repeat split; auto. discriminate.
    - destruct (_ <? _); [discriminate|]. destruct (in_list _ _); auto. apply BEC. cbn. intuition.
    - destruct (_ <? _); [discriminate|]. destruct (in_list _ _); auto. apply BEC. cbn. intuition.
    - destruct (aget c (b_chans b)) as [[q ms o]|] eqn:C; [|discriminate]. cbn [ch_open]. destruct o; cbn [negb]; auto.
      unfold ctl_room; cbn [ch_ctl]. destruct q; [|discriminate]. intros H; injection H; intros <- <-. destruct TI as (T1 & T2 & T3).
      pose proof (cv_of _ _ _ C) as CV. cbn in CV.
      pose proof (core_post _ _ _ _ _ K c m (drop_at n (b_timers b)) CV T2 T3 (Forall_drop _ n _ TM)) as KP.
      unfold set_chan, set_chans, set_timers. constructor; cbn [b_reg b_conns b_tasks b_chans b_timers b_stamp]; auto.
      + eapply core_ext; [exact KP|lia| |reflexivity|apply (k_tms _ _ _ _ _ KP)]. intros d. unfold cv at 1. cbn [b_chans]. rewrite cv_set. reflexivity.
      + apply NoDup_aset; auto.
  Qed.

  Lemma v3_take_facts now ms : forall s, z_id (v3_take_all now ms s) = z_id s /\ z_ident (v3_take_all now ms s) = z_ident s /\ z_v310 (v3_take_all now ms s) = z_v310 s.
  Proof.
    induction ms as [|m ms IH]; intros s; cbn [v3_take_all fold_left]; auto. fold (v3_take_all now ms (fst (handle_normal3 now (snd m) s))).
    destruct (handle_normal3 now (snd m) s) as [s1 r] eqn:HN. cbn [fst].
    destruct (handle_normal3_keep _ _ _ (Glob config_default [] ret_empty []) _ _ HN) as ((E1&E2&_&_&_&_&_&E8&_) & _ & _).
    destruct (IH s1) as (X & Y & Z). repeat split; congruence.
  Qed.

  (** The waiting task takes the session over. *)
  Lemma hand_inv b b' k j t x r c q ms v i chs : inv b -> aget k (b_tasks b) = Some t -> role_of t = Owns v i c false ->
    aget j (b_tasks b) = Some (TReply x c) -> p_v5 x = v -> rc_id r = c -> task_ok (b_stamp b) (TJoin x r) ->
    aget c (b_chans b) = Some (Chan (online_msg v j :: q) ms true) ->
    (forall d, option_map cview (aget d chs) = upd (cv b) c (Some ([], true)) d) -> NoDup (keys chs) ->
    b' = set_task j (TJoin x r) (end_task k (set_chans chs b)) -> inv b'.
  Proof.
    intros I A R AJ V RI O C CV CN' ->. pose proof I as [K TN CN OK].
    pose proof (cv_of _ _ _ C) as CVC. cbn [ch_ctl ch_open] in CVC.
    assert (q = []) as ->. { pose proof (k_len _ _ _ _ _ K _ _ _ CVC). destruct q; auto. cbn in H. lia. }
    assert (RK : rl b k = Some (Owns v i c false)) by (rewrite (rl_of _ _ _ A), R; auto).
    assert (RJ : rl b j = Some (Waits true v (p_ident x) c)) by (rewrite (rl_of _ _ _ AJ), <- V; auto).
    destruct (core_hand _ _ _ _ _ K _ _ _ _ _ _ CVC RK RJ) as [_ KH].
    unfold set_task, end_task, set_tasks, set_chans. constructor; cbn [b_reg b_conns b_tasks b_chans b_timers b_stamp]; auto.
    - eapply core_ext; [exact KH|lia|exact CV| |apply (k_tms _ _ _ _ _ KH)].
      intros m. unfold rl at 1. cbn [b_tasks]. unfold upd. rewrite aget_N. destruct (m =? j); [cbn; rewrite V, RI; reflexivity|].
      rewrite adel_N by auto. destruct (m =? k); reflexivity.
    - apply NoDup_aset. apply NoDup_adel; auto.
    - intros m u. rewrite aget_N. destruct (m =? j); [intros H; injection H; intros; subst; auto|]. rewrite adel_N by auto. destruct (m =? k); [discriminate|]. apply OK.
  Qed.

  Lemma control_inv k b b' out : inv b -> do_control pick k b = BOk b' out -> inv b'.
  Proof.
    intros I. pose proof I as [K TN CN OK]. unfold do_control.
    assert (GO : forall (on : bool) a t, aget k (b_tasks b) = Some t -> t = (if on then TOnline a else TOffline a) ->
      match aget (a_id a) (b_chans b) with
      | Some (Chan (m :: r) ms o) => control pick on k a m (set_chan (a_id a) (Chan r ms o) b)
      | _ => BNo
      end = BOk b' out -> inv b').
    { intros on a t A ->. destruct (aget (a_id a) (b_chans b)) as [[[|m q] ms o]|] eqn:C; try discriminate.
      assert (RK : rl b k = Some (Owns (a_v5 a) (a_ident a) (a_id a) false)) by (rewrite (rl_of _ _ _ A); destruct on; reflexivity).
      assert (RT : role_of (if on then TOnline a else TOffline a) = Owns (a_v5 a) (a_ident a) (a_id a) false) by (destruct on; reflexivity).
      pose proof (cv_of _ _ _ C) as CVC. cbn [ch_ctl ch_open] in CVC.
      destruct (owner_open _ _ _ _ _ K _ _ _ _ _ RK) as (q' & CVO). rewrite CVC in CVO. injection CVO; intros -> <-. clear CVO.
      assert (q = []) as ->. { pose proof (k_len _ _ _ _ _ K _ _ _ CVC). destruct q; auto. cbn in H. lia. }
      pose proof (OK _ _ A) as SO. assert (SO' : sess_ok (b_stamp b) on a) by (destruct on; exact SO). clear SO.
      set (b1 := set_chan (a_id a) (Chan [] ms true) b).
      assert (A1 : forall j, aget j (b_tasks b1) = aget j (b_tasks b)) by reflexivity.
      set (st := if on then TOnline a else match a with A5 _ => TOffDrain a false | A3 _ => TOffline a end).
      assert (RS : role_of st = Owns (a_v5 a) (a_ident a) (a_id a) false) by (unfold st; destruct on, a; reflexivity).
      assert (SO1 : task_ok (b_stamp b) st) by (unfold st; destruct on, a; exact SO').
      (* messages that leave the waiting tasks alone *)
      assert (I1 : is_online m = false -> inv b1). { intros NM. destruct (inv_pop b _ _ _ _ _ I C NM). auto. }
      assert (STAY : is_online m = false -> forall out0, BOk (set_task k st b1) out0 = BOk b' out -> inv b').
      { intros NM out0 H; injection H; intros <- <-. eapply (inv_task b1 _ k _ st (I1 NM)); [rewrite A1; exact A|rewrite RT; exact RS|..]; try reflexivity; auto.
        - apply (i_cnd _ (I1 NM)).
        - try tmok; auto. }
      destruct m as [j|j| |tm|tm]; cbn [control].
      - (* OnlineV5 *)
        destruct (k_online _ _ _ _ _ K _ _ j true CVC (or_introl eq_refl)) as (i & RJ).
        assert (JT : exists x, aget j (b_tasks b) = Some (TReply x (a_id a)) /\ p_v5 x = true).
        { unfold rl in RJ. destruct (aget j (b_tasks b)) as [[]|]; cbn in RJ; try discriminate; inversion RJ; subst; eauto. }
        destruct JT as (x & AJ & PV). destruct a as [s|s].
        + rewrite A1, AJ. unfold hand_over. intros H; injection H; intros <- <-.
          eapply (hand_inv b _ k j _ x (ROld5 (snd (build_state5 s))) (s_id s) [] ms true (s_ident s) (aset (s_id s) (Chan [] ms true) (b_chans b))); [exact I|exact A|exact RT|exact AJ|exact PV|reflexivity| |exact C| | |reflexivity].
          * cbn. destruct x; auto; discriminate PV.
          * intros d. rewrite cv_set. reflexivity.
          * apply NoDup_aset; auto.
        + unfold end_task. intros H; injection H; intros <- <-.
          pose proof (core_refuse _ _ _ _ _ K _ true j CVC) as KR.
          assert (JK : j <> k) by congruence.
          fold (end_task j b1). eapply (inv_task (end_task j b1) _ k _ st); [| |rewrite RT; exact RS|..]; try reflexivity; auto.
          * unfold end_task, b1, set_chan, set_chans, set_tasks. constructor; cbn [b_reg b_conns b_tasks b_chans b_timers b_stamp]; auto.
            -- eapply core_ext; [exact KR|lia| | |apply (k_tms _ _ _ _ _ KR)].
               ++ intros d. unfold cv at 1. cbn [b_chans]. rewrite cv_set. reflexivity.
               ++ intros n. unfold rl at 1. cbn [b_tasks]. apply rl_del; auto.
            -- apply NoDup_adel; auto.
            -- apply NoDup_aset; auto.
            -- intros n u. rewrite adel_N by auto. destruct (n =? j); [discriminate|]. apply OK.
          * unfold end_task, b1, set_chan, set_chans, set_tasks. cbn [b_tasks]. rewrite adel_N by auto. destruct (N.eqb_spec k j); [congruence|]. exact A.
          * unfold end_task, b1, set_chan, set_chans, set_tasks. cbn. apply NoDup_aset; auto.
          * cbn. eapply Forall_impl; [|apply (k_tms _ _ _ _ _ KR)]. assert (V5 : forall c', v5only (upd (rl b) j None) c' -> v5only (rl (end_task j b1)) c').
            { intros c' V n v i' d' E. eapply (V n). rewrite <- rl_del; eauto. }
            intros [] T; cbn in *; intuition auto.
      - (* OnlineV3 *)
        destruct (k_online _ _ _ _ _ K _ _ j false CVC (or_introl eq_refl)) as (i & RJ).
        assert (JT : exists x, aget j (b_tasks b) = Some (TReply x (a_id a)) /\ p_v5 x = false).
        { unfold rl in RJ. destruct (aget j (b_tasks b)) as [[]|]; cbn in RJ; try discriminate; inversion RJ; subst; eauto. }
        destruct JT as (x & AJ & PV). destruct a as [s|s].
        + unfold end_task. intros H; injection H; intros <- <-.
          pose proof (core_refuse _ _ _ _ _ K _ false j CVC) as KR.
          assert (JK : j <> k) by congruence.
          fold (end_task j b1). eapply (inv_task (end_task j b1) _ k _ st); [| |rewrite RT; exact RS|..]; try reflexivity; auto.
          * unfold end_task, b1, set_chan, set_chans, set_tasks. constructor; cbn [b_reg b_conns b_tasks b_chans b_timers b_stamp]; auto.
            -- eapply core_ext; [exact KR|lia| | |apply (k_tms _ _ _ _ _ KR)].
               ++ intros d. unfold cv at 1. cbn [b_chans]. rewrite cv_set. reflexivity.
               ++ intros n. unfold rl at 1. cbn [b_tasks]. apply rl_del; auto.
            -- apply NoDup_adel; auto.
            -- apply NoDup_aset; auto.
            -- intros n u. rewrite adel_N by auto. destruct (n =? j); [discriminate|]. apply OK.
          * unfold end_task, b1, set_chan, set_chans, set_tasks. cbn [b_tasks]. rewrite adel_N by auto. destruct (N.eqb_spec k j); [congruence|]. exact A.
          * unfold end_task, b1, set_chan, set_chans, set_tasks. cbn. apply NoDup_aset; auto.
          * cbn. eapply Forall_impl; [|apply (k_tms _ _ _ _ _ KR)]. assert (V5 : forall c', v5only (upd (rl b) j None) c' -> v5only (rl (end_task j b1)) c').
            { intros c' V n v i' d' E. eapply (V n). rewrite <- rl_del; eauto. }
            intros [] T; cbn in *; intuition auto.
        + rewrite A1, AJ.
          assert (AC : aget (z_id s) (b_chans b1) = Some (Chan [] ms true)). { unfold b1, set_chan, set_chans. cbn [b_chans]. apply aget_aset_eq. }
          rewrite AC. cbn [ch_norm ch_ctl ch_open]. unfold hand_over. destruct on; intros H; injection H; intros <- <-.
          * eapply (hand_inv b _ k j _ x (ROld3 (snd (build_state3 s))) (z_id s) [] ms false (z_ident s) (aset (z_id s) (Chan [] ms true) (b_chans b))); [exact I|exact A|exact RT|exact AJ|exact PV|reflexivity| |exact C| | |reflexivity].
            -- cbn. destruct x; auto; discriminate PV.
            -- intros d. rewrite cv_set. reflexivity.
            -- apply NoDup_aset; auto.
          * eapply (hand_inv b _ k j _ x (ROld3 (snd (build_state3 (v3_take_all (seconds b) ms s)))) (z_id s) [] ms false (z_ident s) (aset (z_id s) (Chan [] [] true) (aset (z_id s) (Chan [] ms true) (b_chans b)))); [exact I|exact A|exact RT|exact AJ|exact PV| | |exact C| | |reflexivity].
            -- cbn. apply v3_take_facts.
            -- cbn. destruct x; auto; discriminate PV.
            -- intros d. change client_id with N in *. rewrite aget_N. unfold upd. destruct (d =? z_id s) eqn:E; [reflexivity|]. rewrite aget_N, E. reflexivity.
            -- apply NoDup_aset. apply NoDup_aset; auto.
      - destruct on; [|apply STAY; reflexivity]. intros H; injection H; intros <- <-.
        eapply (inv_task b1 _ k _ (TEnd a) (I1 eq_refl)); [rewrite A1; exact A|reflexivity|..]; try reflexivity; auto.
        + apply (i_cnd _ (I1 eq_refl)).
        + try tmok; auto.
      - destruct a as [s|s]; [|discriminate]. destruct (_ && _) eqn:CT; [|apply STAY; reflexivity].
        destruct on.
        { destruct SO' as (X & _). cbn in X. rewrite X in CT. discriminate CT. }
        destruct (send_will pick k (A5 s) b1) as [[[[a1 b2] o1] ok]|] eqn:SW; [|discriminate].
        destruct (send_will_facts _ _ _ _ _ _ _ SW) as (F1 & F2 & F3 & F4 & F5 & rt & rn & ->).
        destruct (remove_client a1 _) as [b3|] eqn:RC; [|discriminate]. intros H; injection H; intros <- <-.
        assert (I2 : inv (set_tables rt rn b1)). { eapply inv_same; [apply (I1 eq_refl)|..]; try reflexivity. try tmok; auto. }
        destruct (remove_inv _ a1 _ k _ I2 (A : aget k (b_tasks (set_tables rt rn b1)) = _) RC) as (KR & T1 & T2 & T3 & T4 & T5).
        { cbn. rewrite F1, F2, F3. reflexivity. }
        unfold set_task, set_tasks. constructor; cbn [b_reg b_conns b_tasks b_chans b_timers b_stamp].
        + rewrite T3, T5. eapply core_ext; [exact KR|lia| | |apply (k_tms _ _ _ _ _ KR)].
          * intros d. unfold cv. cbn [b_chans]. rewrite T2. reflexivity.
          * intros n. unfold rl at 1. cbn [b_tasks]. rewrite T1. rewrite (rl_set b1). reflexivity.
        + rewrite T1. apply NoDup_aset; auto.
        + rewrite T2. apply (i_cnd _ I2).
        + rewrite T1, T4. intros n u. rewrite aget_N. destruct (n =? k); [intros H'; injection H'; intros; subst; eapply sess_ok_eq; eauto|apply OK].
      - destruct a as [s|s]; [|discriminate]. destruct (_ && _) eqn:CT; [|apply STAY; reflexivity].
        destruct on.
        { destruct SO' as (X & _). cbn in X. rewrite X in CT. discriminate CT. }
        destruct (send_will pick k (A5 s) b1) as [[[[a1 b2] o1] ok]|] eqn:SW; [|discriminate].
        destruct (send_will_facts _ _ _ _ _ _ _ SW) as (F1 & F2 & F3 & F4 & F5 & rt & rn & ->).
        intros H; injection H; intros <- <-.
        eapply (inv_task b1 _ k _ (TOffDrain a1 false) (I1 eq_refl)); [rewrite A1; exact A| |..]; try reflexivity; auto.
        + cbn. rewrite F1, F2, F3. reflexivity.
        + apply (i_cnd _ (I1 eq_refl)).
        + try tmok; auto.
        + cbn. eapply sess_ok_eq; eauto. }
    destruct (aget k (b_tasks b)) as [[| | | |a| | |a|]|] eqn:A; try discriminate.
    - eapply (GO true a); eauto.
    - eapply (GO false a); eauto.
  Qed.

  Lemma step_inv e b b' out : inv b -> pres_ok b -> bstep hash5 hash3 pick e b = BOk b' out -> inv b'.
  Proof.
    intros I P. destruct e; cbn [bstep].
    - destruct (_ <? _); [discriminate|]. apply add_client_inv; auto.
    - destruct (_ <? _); [discriminate|]. apply add_client_inv; auto.
    - apply put_inv; auto.
    - apply fail_inv; auto.
    - apply join_inv; auto.
    - apply start_inv; auto.
    - apply packet5_inv; auto.
    - apply packet3_inv; auto.
    - apply malformed_inv; auto.
    - apply doclose_inv; auto.
    - apply control_inv; auto.
    - apply normal_inv; auto.
    - apply flush_inv; auto.
    - apply end_inv; auto.
    - apply done_inv; auto.
    - apply fire_inv; auto.
    - intros H; injection H; intros <- <-. eapply inv_same; eauto. try tmok; auto.
  Qed.
End Steps.
