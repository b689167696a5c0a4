(** Lemmas for C69: connections do not disturb each other. *)
From Coq Require Import List Bool NArith String Lia.
From Verif Require Import Base BaseLemmas TopicModel MsgModel PendingModel OutModel RouteModel RetainModel GlobModel Sess5Model Sess3Model ConnModel RegModel BrokerModel
  BrokerSpec CoreProofs BrokerInv RegProofs TaskMove TimeProofs RunProofs EvolProofs LifeSpec LifeProofs KeepProofs HistProofs DelivSpec AccSpec AccProofs ReplySpec ReplyProofs ApartSpec.
Import ListNotations.
Local Open Scope N_scope.
Local Open Scope list_scope.

Lemma option_N_dec (x y : option N) : {x = y} + {x <> y}.
Proof. decide equality. apply N.eq_dec. Qed.

Section Apart.
  Variables (hash5 : wpub5 -> N) (hash3 : wpub3 -> N) (pick : draw -> broker -> string -> string -> N).
  Local Notation bstep := (bstep hash5 hash3 pick).
  Local Notation brun := (brun hash5 hash3 pick).

  Lemma close_tasks c b : b_tasks (close c b) = b_tasks b.
  Proof. unfold close. destruct (aget c (b_chans b)); reflexivity. Qed.
  Lemma will_tasks k a b a1 b1 out ok : send_will pick k a b = Some (a1, b1, out, ok) -> b_tasks b1 = b_tasks b /\ Forall (fun o => about o = k) out.
  Proof.
    unfold send_will. destruct a as [s|s].
    - destruct (send_will5 (pick (DWill k) b) s (glob_of b)) as [[[s1 g] o]|]; [|discriminate]. intros H. injection H as <- <- <- <-. split; [reflexivity|].
      destruct (s_will s); [destruct o|]; repeat constructor.
    - destruct (send_will3 s (glob_of b)) as [[[s1 g] o]|]; [|discriminate]. intros H. injection H as <- <- <- <-. split; [reflexivity|].
      destruct (z_will s); [destruct o|]; repeat constructor.
  Qed.
  Lemma remove_tasks a b b1 : remove_client a b = Some b1 -> b_tasks b1 = b_tasks b.
  Proof.
    unfold remove_client. destruct (reg_remove _ _); [|discriminate]. destruct (unroute _ _ _) as [t p]. destruct p; [discriminate|]. intros H. injection H as <-. reflexivity.
  Qed.
  Lemma normal_about now c k on m a a1 out : normal now c k on m a = (a1, out) -> Forall (fun o => about o = k) out.
  Proof.
    unfold normal. assert (M : forall A (f : A -> bout) l, (forall x, about (f x) = k) -> Forall (fun o => about o = k) (map f l)) by (intros A f l F; induction l; constructor; auto). destruct a as [s|s].
    - destruct (handle_normal5 _ _ _ _) as [s1 [[q p]|]]; [|intros H; injection H as _ <-; constructor]. destruct on; [|intros H; injection H as _ <-; constructor].
      destruct (if qos_eqb q L0 then _ else _) as [s2 more]. intros H. injection H as _ <-. apply M. reflexivity.
    - destruct (handle_normal3 _ _ _) as [s1 [[q p]|]]; [|intros H; injection H as _ <-; constructor]. destruct on; [|intros H; injection H as _ <-; constructor].
      destruct (if qos_eqb q L0 then _ else _) as [s2 more]. intros H. injection H as _ <-. apply M. reflexivity.
  Qed.

  (** A session that is not of the connection that takes the step is not touched. *)
  Definition only (b b' : broker) (k : N) (out : list bout) : Prop := forall j t a, aget j (b_tasks b) = Some t -> t_sess t = Some a -> j <> k -> aget j (b_tasks b') = Some t /\ (forall o, In o out -> about o <> j).
  Lemma only_set b b' k t out : b_tasks b' = aset k t (b_tasks b) -> Forall (fun o => about o = k) out -> only b b' k out.
  Proof.
    intros E F j t0 a A T NE. rewrite E, aget_N. destruct (N.eqb_spec j k); [contradiction|]. split; [exact A|]. intros o I. rewrite Forall_forall in F. rewrite (F o I). auto.
  Qed.
  Lemma only_del b b' k out : NoDup (keys (b_tasks b)) -> b_tasks b' = adel k (b_tasks b) -> Forall (fun o => about o = k) out -> only b b' k out.
  Proof.
    intros ND E F j t0 a A T NE. rewrite E, adel_N by auto. destruct (N.eqb_spec j k); [contradiction|]. split; [exact A|]. intros o I. rewrite Forall_forall in F. rewrite (F o I). auto.
  Qed.
  Lemma about_map5 k l : Forall (fun o => about o = k) (map (OPkt5 k) l). Proof. induction l; constructor; auto. Qed.
  Lemma about_map3 k l : Forall (fun o => about o = k) (map (OPkt3 k) l). Proof. induction l; constructor; auto. Qed.

  Lemma waits_none b v j i c : rl b j = Some (Waits true v i c) -> forall t a, aget j (b_tasks b) = Some t -> t_sess t = Some a -> False.
  Proof. unfold rl. intros H t a A T. rewrite A in H. destruct t; cbn in *; discriminate. Qed.

  Lemma control_only (online : bool) k a m ch b b' out : inv b -> aget (a_id a) (b_chans b) = Some ch -> (exists r, ch_ctl ch = m :: r) -> ch_open ch = true ->
    aget k (b_tasks b) = Some (if online then TOnline a else TOffline a) ->
    forall b0, b_tasks b0 = b_tasks b -> control pick online k a m b0 = BOk b' out -> only b b' k out.
  Proof.
    intros I CH (r & CM) OP A b0 E C.
    assert (W : forall v i, m = online_msg v i -> forall t a0, aget i (b_tasks b) = Some t -> t_sess t = Some a0 -> False).
    { intros v i M. destruct (k_online _ _ _ _ _ (i_core _ I) (a_id a) (ch_ctl ch) i v) as (i0 & RL); [unfold cv; rewrite CH; cbn; unfold cview; now rewrite OP|rewrite CM, M; left; reflexivity|]. eapply waits_none; exact RL. }
    assert (HO : forall v i x rr bb, m = online_msg v i -> b_tasks bb = b_tasks b -> hand_over k i x rr bb = BOk b' out -> only b b' k out).
    { intros v i x rr bb M EB H. injection H as <- <-. intros j t a0 AJ T NE. cbn. rewrite aget_N, EB. destruct (N.eqb_spec j i) as [->|]; [exfalso; eapply W; eauto|].
      rewrite adel_N by apply I. destruct (N.eqb_spec j k); [contradiction|]. split; [exact AJ|intros o []]. }
    assert (RF : forall v i t0, m = online_msg v i -> BOk (set_task k t0 (end_task i b0)) [OClosed i] = BOk b' out -> only b b' k out).
    { intros v i t0 M H. injection H as <- <-. intros j t a0 AJ T NE. cbn. rewrite aget_N, E. destruct (N.eqb_spec j k); [contradiction|]. rewrite adel_N by apply I.
      destruct (N.eqb_spec j i) as [->|NI]; [exfalso; eapply W; eauto|]. split; [exact AJ|]. intros o [<-|[]]. cbn. auto. }
    assert (ST : forall t0, BOk (set_task k t0 b0) [] = BOk b' out -> only b b' k out) by (intros t0 H; injection H as <- <-; eapply only_set; [cbn; rewrite E; reflexivity|constructor]).
    destruct m as [i|i| |t|t], a as [s|s]; cbn [control] in C.
    - destruct (aget i (b_tasks b0)) as [[| | | | | | | |]|]; try discriminate. eapply (HO true); eauto.
    - eapply (RF true); eauto.
    - eapply (RF false); eauto.
    - destruct (aget i (b_tasks b0)) as [[| | | | | | | |]|]; try discriminate. destruct (aget (z_id s) (b_chans b0)); [|discriminate]. destruct online; eapply (HO false); try exact C; auto.
    - destruct online; eapply ST; exact C.
    - destruct online; eapply ST; exact C.
    - destruct (_ && _); [|destruct online; eapply ST; exact C]. destruct (send_will pick k (A5 s) b0) as [[[[a1 b1] o] ok]|] eqn:SW; [|discriminate].
      destruct (will_tasks _ _ _ _ _ _ _ SW) as (T1 & F). destruct (remove_client a1 b1) as [b2|] eqn:RM; [|discriminate]. injection C as <- <-.
      eapply only_set; [cbn; rewrite (remove_tasks _ _ _ RM), T1, E; reflexivity|exact F].
    - discriminate.
    - destruct (_ && _); [|destruct online; eapply ST; exact C]. destruct (send_will pick k (A5 s) b0) as [[[[a1 b1] o] ok]|] eqn:SW; [|discriminate].
      destruct (will_tasks _ _ _ _ _ _ _ SW) as (T1 & F). injection C as <- <-. eapply only_set; [cbn; rewrite T1, E; reflexivity|exact F].
    - discriminate.
  Qed.

  Lemma step_only e b b' out j t a : good b -> bstep e b = BOk b' out -> aget j (b_tasks b) = Some t -> t_sess t = Some a -> who e <> Some j ->
    aget j (b_tasks b') = Some t /\ (forall o, In o out -> about o <> j).
  Proof.
    intros G S A T W. pose proof G as [I P].
    assert (ON : forall k, who e = Some k -> only b b' k out -> aget j (b_tasks b') = Some t /\ (forall o, In o out -> about o <> j)).
    { intros k E O. eapply O; eauto. congruence. }
    assert (AC : forall t0 x, add_client t0 x b = BOk b' out -> aget j (b_tasks b') = Some t /\ (forall o, In o out -> about o <> j)).
    { intros t0 x H. unfold add_client in H. destruct (reg_add (p_ident x) (b_reg b)) as [r0 [c|c|]]; [| |discriminate]; injection H as <- <-; cbn; rewrite aget_N;
        (destruct (N.eqb_spec j (b_conns b)) as [->|]; [pose proof (task_num _ _ _ G A); lia|split; [exact A|intros o []]]). }
    destruct e; cbn [bstep] in S.
    - destruct (_ <? _); [discriminate|]. eapply AC; exact S.
    - destruct (_ <? _); [discriminate|]. eapply AC; exact S.
    - apply (ON _ eq_refl). unfold do_put in S. destruct (aget k (b_tasks b)) as [[x c| | | | | | | |]|]; try discriminate. destruct (aget c (b_chans b)) as [ch|]; [|discriminate].
      destruct (negb _); [|destruct (ctl_room _); [|discriminate]]; injection S as <- <-; [eapply only_del; [apply I|reflexivity|repeat constructor]|eapply only_set; [reflexivity|constructor]].
    - apply (ON _ eq_refl). unfold do_fail in S. destruct (aget k (b_tasks b)) as [[x c|x c|x r0|a0| | | | |]|]; try discriminate.
      + destruct (aget c (b_chans b)) as [ch|]; [|discriminate]. destruct (ch_open ch); [discriminate|]. injection S as <- <-. eapply only_del; [apply I|reflexivity|repeat constructor].
      + injection S as <- <-. eapply only_del; [apply I|rewrite close_tasks; reflexivity|repeat constructor].
      + injection S as <- <-. eapply only_del; [apply I|rewrite close_tasks; reflexivity|repeat constructor].
    - apply (ON _ eq_refl). unfold do_join in S. destruct (_ <=? _); [discriminate|]. destruct (aget k (b_tasks b)) as [[x c|x c|[cn data|s0] r0|a0| | | | |]|]; try discriminate.
      + destruct (match r0 with RNew c => Some (RcNew c) | ROld5 st => Some (RcPresent st) | ROld3 _ => None end); [|discriminate].
        destruct (session_connect5 _ _ _ _ _ _) as [[s ack]|]; [|discriminate].
        assert (SK : b_tasks (start_keep k (A5 s) b) = b_tasks b) by (unfold start_keep; destruct (0 <? _); reflexivity).
        destruct (s_connected s); injection S as <- <-; [eapply only_set; [cbn; rewrite SK; reflexivity|repeat constructor]|eapply only_del; [apply I|rewrite close_tasks; cbn; rewrite SK; reflexivity|repeat constructor]].
      + destruct (match r0 with RNew c => Some (RcNew3 c) | ROld3 st => Some (RcPresent3 st) | ROld5 _ => None end); [|discriminate].
        destruct (session_connect3 _ _ _) as [s ack]. injection S as <- <-. assert (SK : b_tasks (start_keep k (A3 s) b) = b_tasks b) by (unfold start_keep; destruct (0 <? _); reflexivity).
        eapply only_set; [cbn; rewrite SK; reflexivity|repeat constructor].
    - apply (ON _ eq_refl). unfold do_start in S. destruct (aget k (b_tasks b)) as [[| | |[s|s]| | | | |]|]; try discriminate.
      + destruct (pendings5 _ _) as [s1 o]. injection S as <- <-. eapply only_set; [reflexivity|apply about_map5].
      + destruct (after_packet3 _ _) as [s1 o]. injection S as <- <-. eapply only_set; [reflexivity|apply about_map3].
    - apply (ON _ eq_refl). unfold do_packet5 in S. destruct (aget k (b_tasks b)) as [[| | | |[s|s]| | | |]|]; try discriminate. destruct (is_disconnected5 s); [discriminate|].
      destruct (packet_step5 _ _ _ _ _ _ _) as [s1 g o|s1 g|]; [| |discriminate]; injection S as <- <-.
      + eapply only_set; [|apply about_map5]. destruct (is_disconnected5 s1); reflexivity.
      + eapply only_set; [reflexivity|constructor].
    - apply (ON _ eq_refl). unfold do_packet3 in S. destruct (aget k (b_tasks b)) as [[| | | |[s|s]| | | |]|]; try discriminate. destruct (z_disc s); [discriminate|].
      destruct (packet_step3 _ _ _ _ _ _) as [s1 g o|s1 g|]; [| |discriminate]; injection S as <- <-; eapply only_set; try reflexivity; [apply about_map3|constructor].
    - apply (ON _ eq_refl). unfold do_malformed in S. destruct (aget k (b_tasks b)) as [[| | | |[s|s]| | | |]|]; try discriminate. destruct (is_disconnected5 s); [discriminate|].
      destruct (error_disconnect _ _ _) as [s1 p]. injection S as <- <-. eapply only_set; [reflexivity|repeat constructor].
    - apply (ON _ eq_refl). unfold do_close in S. destruct (aget k (b_tasks b)) as [[| | | |a0| | | |]|]; try discriminate. injection S as <- <-. eapply only_set; [reflexivity|constructor].
    - apply (ON _ eq_refl). unfold do_control in S.
      assert (POP : forall on a0, aget k (b_tasks b) = Some (if on : bool then TOnline a0 else TOffline a0) ->
        match aget (a_id a0) (b_chans b) with Some (Chan (m :: r) ms o) => control pick on k a0 m (set_chan (a_id a0) (Chan r ms o) b) | _ => BNo end = BOk b' out -> only b b' k out).
      { intros on a0 AK H. destruct (aget (a_id a0) (b_chans b)) as [[[|m r0] ms o]|] eqn:CH; try discriminate.
        refine (control_only on k a0 m _ b b' out I CH (ex_intro _ r0 eq_refl) _ AK (set_chan (a_id a0) (Chan r0 ms o) b) eq_refl H).
        pose proof (open_own b a0 k _ G AK) as RF. unfold received_for in RF. rewrite CH in RF. apply RF. destruct on; reflexivity. }
      destruct (aget k (b_tasks b)) as [[| | | |a0| | |a0|]|] eqn:AK; try discriminate; [apply (POP true a0); auto|apply (POP false a0); auto].
    - apply (ON _ eq_refl). unfold do_normal in S.
      assert (POP : forall on a0, match aget (a_id a0) (b_chans b) with
        | Some (Chan cs (m :: r) o) => let '(a1, out) := normal (seconds b) (b_cfg b) k on (snd m) a0 in BOk (set_task k (if on : bool then TOnline a1 else TOffline a1) (set_chan (a_id a0) (Chan cs r o) b)) out
        | _ => BNo end = BOk b' out -> only b b' k out).
      { intros on a0 H. destruct (aget (a_id a0) (b_chans b)) as [[cs [|m r0] o]|]; try discriminate. destruct (normal _ _ _ _ _ _) as [a1 o1] eqn:N. injection H as <- <-.
        eapply only_set; [reflexivity|]. eapply normal_about; exact N. }
      destruct (aget k (b_tasks b)) as [[| | | |a0| | |a0|]|]; try discriminate; [destruct (a_disc a0); [discriminate|]; apply (POP true a0); exact S|apply (POP false a0); exact S].
    - apply (ON _ eq_refl). unfold do_flush in S.
      assert (FL : forall a0 (f : sess -> task), match flush d a0 b with Some (a1, b1) => BOk (set_task k (f a1) b1) [] | None => BNo end = BOk b' out -> only b b' k out).
      { intros a0 f H. unfold flush in H. destruct (aget d (a_bcast a0)) as [[|m ms]|]; [| |discriminate].
        - injection H as <- <-. eapply only_set; [reflexivity|constructor].
        - destruct (aget d (b_chans b)) as [ch|]; [|discriminate]. destruct (negb _); [|destruct (norm_room ch); [|discriminate]]; injection H as <- <-; (eapply only_set; [reflexivity|constructor]). }
      destruct (aget k (b_tasks b)) as [[| | | |a0| |a0| |a0 st]|]; try discriminate; [apply (FL a0 TOnline)|apply (FL a0 TDrain)|apply (FL a0 (fun a1 => TOffDrain a1 st))]; exact S.
    - apply (ON _ eq_refl). unfold do_end in S. destruct (aget k (b_tasks b)) as [[| | | | |a0| | |]|]; try discriminate.
      destruct (negb hook); [injection S as <- <-; eapply only_del; [apply I|rewrite close_tasks; reflexivity|repeat constructor]|].
      assert (NW : match send_will pick k a0 b with
        | None => BPanic | Some (a1, b1, out, ok) => if ok then BOk (set_task k (TDrain a1) b1) out else BOk (close (a_id a0) (end_task k b1)) (out ++ [OClosed k])%list end = BOk b' out -> only b b' k out).
      { intros H. destruct (send_will pick k a0 b) as [[[[a1 b1] o] ok]|] eqn:SW; [|discriminate]. destruct (will_tasks _ _ _ _ _ _ _ SW) as (T1 & F).
        destruct ok; injection H as <- <-; [eapply only_set; [cbn; rewrite T1; reflexivity|exact F]|].
        eapply only_del; [apply I|rewrite close_tasks; cbn; rewrite T1; reflexivity|]. apply Forall_app. split; [exact F|repeat constructor]. }
      destruct a0 as [s|s].
      + destruct (s_cdisc s); [injection S as <- <-; eapply only_set; [reflexivity|constructor]|]. destruct (will_due s) as [d|]; [|apply NW; exact S].
        injection S as <- <-. eapply only_set; [|constructor]. destruct (d <? _); reflexivity.
      + destruct (z_disc s); [injection S as <- <-; eapply only_set; [reflexivity|constructor]|]. apply NW; exact S.
    - apply (ON _ eq_refl). unfold do_done in S.
      assert (FI : forall a0, match remove_client a0 b with None => BPanic | Some b1 => BOk (close (a_id a0) (end_task k b1)) [] end = BOk b' out -> only b b' k out).
      { intros a0 H. destruct (remove_client a0 b) as [b1|] eqn:RM; [|discriminate]. injection H as <- <-. eapply only_del; [apply I|rewrite close_tasks; cbn; rewrite (remove_tasks _ _ _ RM); reflexivity|constructor]. }
      destruct (aget k (b_tasks b)) as [[| | | | | |a0| |a0 st]|]; try discriminate; (destruct (a_bcast a0); [|discriminate]).
      + destruct (a_ends a0); [eapply FI; exact S|]. destruct (reg_offline _ _); [|discriminate]. destruct a0; injection S as <- <-; (eapply only_set; [reflexivity|constructor]).
      + destruct st; [eapply FI; exact S|]. injection S as <- <-. eapply only_set; [reflexivity|constructor].
    - assert (X : b_tasks b' = b_tasks b /\ out = []).
      { unfold do_fire in S. destruct (nth_error (b_timers b) n) as [[c k half due|c tt due|c tt due|c m]|]; try discriminate.
        - destruct (_ <? _); [discriminate|]. destruct (_ <=? _); [|destruct (in_list _ _)]; injection S as <- <-; auto.
        - destruct (_ <? _); [discriminate|]. destruct (in_list _ _); injection S as <- <-; auto.
        - destruct (_ <? _); [discriminate|]. destruct (in_list _ _); injection S as <- <-; auto.
        - destruct (aget c (b_chans b)); [|discriminate]. destruct (negb _); [injection S as <- <-; auto|]. destruct (ctl_room _); [|discriminate]. injection S as <- <-; auto. }
      destruct X as (-> & ->). split; [exact A|intros o []].
    - injection S as <- <-. split; [exact A|intros o []].
  Qed.

  (** ** The inbox *)
  Lemma inbox_step e b b' out j t a : good b -> bstep e b = BOk b' out -> aget j (b_tasks b) = Some t -> t_sess t = Some a -> who e <> Some j ->
    exists more, waiting b' (a_id a) = waiting b (a_id a) ++ more /\ (more = [] \/ exists k m, e = EFlush k (a_id a) /\ more = [m]).
  Proof.
    intros G S A T W. pose proof (chan_step _ _ _ _ _ _ _ (a_id a) G S) as C.
    assert (TK : taken (a_id a) (Past b e out) = []).
    { assert (ONE : forall k t1 a1, aget k (b_tasks b) = Some t1 -> t_sess t1 = Some a1 -> a_id a1 = a_id a -> k = j).
      { intros k t1 a1 A1 T1 E. destruct G as [I _].
        assert (RJ : forall i t2 a2, aget i (b_tasks b) = Some t2 -> t_sess t2 = Some a2 -> exists v s d, rl b i = Some (Owns v s (a_id a2) d)).
        { intros i t2 a2 A2 T2. rewrite (rl_of _ _ _ A2). destruct t2; cbn in T2; try discriminate; injection T2 as <-; do 3 eexists; reflexivity. }
        destruct (RJ _ _ _ A T) as (v & s & d & R1). destruct (RJ _ _ _ A1 T1) as (v' & s' & d' & R2). rewrite E in R2. eapply (k_one _ _ _ _ _ (i_core _ I)); eauto. }
      unfold taken. cbn [w_e w_b]. destruct e; try reflexivity.
      - destruct (aget k (b_tasks b)) as [[| | | | | | |[s|s]|]|] eqn:AK; try reflexivity. destruct (aget (a_id a) (b_chans b)) as [[[|[]] ms o]|]; try reflexivity.
        destruct (N.eqb_spec (z_id s) (a_id a)) as [E|]; [|reflexivity]. exfalso. apply W. cbn. f_equal. eapply ONE; [exact AK|reflexivity|exact E].
      - unfold sess_at. destruct (aget k (b_tasks b)) as [t1|] eqn:AK; [|reflexivity]. destruct (t_sess t1) as [a1|] eqn:T1; [|reflexivity].
        destruct (N.eqb_spec (a_id a1) (a_id a)) as [E|]; [|reflexivity]. exfalso. apply W. cbn. f_equal. eapply ONE; eauto. }
    rewrite TK in C. cbn [app] in C. exists (map snd (passed (a_id a) (Past b e out))). split; [symmetry; exact C|].
    unfold passed. cbn [w_e w_b]. destruct e; auto. destruct (N.eqb_spec d (a_id a)) as [->|]; [|auto]. destruct (received_for _ _); [|auto]. cbn [andb].
    destruct (sess_at b k) as [a1|]; [|auto]. destruct (queue_of (a_bcast a1) (a_id a)) as [|m l]; [auto|]. right. exists k, (a_id a1, m). auto.
  Qed.

  (** ** Causes *)
  Lemma stop_why e b b' out j a a' : good b -> bstep e b = BOk b' out -> aget j (b_tasks b) = Some (TOnline a) -> aget j (b_tasks b') = Some (TEnd a') ->
    e = EClose j \/ (exists len x, e = EPacket5 j len x) \/ (exists len x, e = EPacket3 j len x) \/ e = EControl j /\ head_ctl b (a_id a) CKick.
  Proof.
    intros G S A A'. assert (W : who e = Some j).
    { destruct (option_N_dec (who e) (Some j)) as [E|E]; [exact E|]. destruct (step_only _ _ _ _ _ _ _ G S A eq_refl E) as (X & _). rewrite X in A'. discriminate. }
    destruct e; try discriminate; injection W as ->; cbn [bstep] in S; eauto 6.
    - unfold do_put in S. rewrite A in S. discriminate.
    - unfold do_fail in S. rewrite A in S. discriminate.
    - unfold do_join in S. destruct (_ <=? _); [discriminate|]. rewrite A in S. discriminate.
    - unfold do_start in S. rewrite A in S. discriminate.
    - unfold do_malformed in S. rewrite A in S. destruct a as [s|s]; [|discriminate]. destruct (is_disconnected5 s); [discriminate|]. destruct (error_disconnect _ _ _). injection S as <- _.
      cbn in A'. rewrite aget_N, N.eqb_refl in A'. discriminate.
    - do 3 right. split; [reflexivity|]. unfold do_control in S. rewrite A in S. destruct (aget (a_id a) (b_chans b)) as [[[|m r0] ms o]|] eqn:CH; try discriminate.
      assert (HO : forall i x rr bb, b_tasks bb = b_tasks b -> hand_over j i x rr bb = BOk b' out -> False).
      { intros i x rr bb E H. injection H as <- _. cbn in A'. rewrite aget_N, E in A'. destruct (j =? i); [discriminate|]. rewrite adel_N in A' by apply G. rewrite N.eqb_refl in A'. discriminate. }
      assert (ST : forall t0 bb o0, BOk (set_task j t0 bb) o0 = BOk b' out -> match t0 with TEnd _ => False | _ => True end -> False).
      { intros t0 bb o0 H X. injection H as <- _. cbn in A'. rewrite aget_N, N.eqb_refl in A'. injection A' as ->. exact X. }
      destruct m as [i|i| |t|t], a as [s|s]; cbn [control] in S; try (eexists; eexists; split; [exact CH|reflexivity]); exfalso.
      + destruct (aget i _) as [[| | | | | | | |]|]; try discriminate. eapply HO; [|exact S]. reflexivity.
      + eapply ST; [exact S|exact Logic.I].
      + eapply ST; [exact S|exact Logic.I].
      + destruct (aget i _) as [[| | | | | | | |]|]; try discriminate. destruct (aget (z_id s) _); [|discriminate]. eapply HO; [|exact S]. reflexivity.
      + destruct (_ && _); [|eapply ST; [exact S|exact Logic.I]]. destruct (send_will pick j (A5 s) _) as [[[[a1 b1] o1] ok]|]; [|discriminate].
        destruct (remove_client a1 b1); [|discriminate]. eapply ST; [exact S|exact Logic.I].
      + discriminate.
      + destruct (_ && _); [|eapply ST; [exact S|exact Logic.I]]. destruct (send_will pick j (A5 s) _) as [[[[a1 b1] o1] ok]|]; [|discriminate]. eapply ST; [exact S|exact Logic.I].
      + discriminate.
    - unfold do_normal in S. rewrite A in S. destruct (a_disc a); [discriminate|]. destruct (aget (a_id a) (b_chans b)) as [[cs [|m r0] o]|]; try discriminate.
      destruct (normal _ _ _ _ _ _). injection S as <- _. cbn in A'. rewrite aget_N, N.eqb_refl in A'. discriminate.
    - unfold do_flush in S. rewrite A in S. destruct (flush d a b) as [[a1 b1]|]; [|discriminate]. injection S as <- _. cbn in A'. rewrite aget_N, N.eqb_refl in A'. discriminate.
    - unfold do_end in S. rewrite A in S. discriminate.
    - unfold do_done in S. rewrite A in S. discriminate.
  Qed.

  Lemma why_ended c h b e b' out j a : brun c h b -> bstep e b = BOk b' out -> aget j (b_tasks b) = Some (TOnline a) -> (forall a', aget j (b_tasks b') <> Some (TOnline a')) ->
    cause h e j a.
  Proof.
    intros R S A NO. pose proof (run_good _ _ _ _ _ _ R) as G. pose proof G as [I P].
    pose proof (step_move _ _ _ _ _ _ _ I S j) as M. rewrite A in M.
    assert (HEAD : forall m, head_ctl b (a_id a) m -> exists ch, aget (a_id a) (b_chans b) = Some ch /\ In m (ch_ctl ch) /\ ch_open ch = true).
    { intros m (ch & q & CH & E). exists ch. split; [exact CH|]. split; [rewrite E; left; reflexivity|]. pose proof (open_own b a j _ G A eq_refl) as RF. unfold received_for in RF. now rewrite CH in RF. }
    destruct (aget j (b_tasks b')) as [t'|] eqn:A'.
    - assert (E' : exists a', t' = TEnd a'). { inversion M; subst; eauto; exfalso; eapply NO; reflexivity. }
      destruct E' as (a' & ->). destruct (stop_why _ _ _ _ _ _ _ G S A A') as [E|[(len & x & E)|[(len & x & E)|(E & HC)]]].
      + apply its_socket. exact E.
      + eapply its_packet5. exact E.
      + eapply its_packet3. exact E.
      + destruct (HEAD _ HC) as (ch & CH & IN & _).
        destruct (a_disc a) eqn:D; [apply its_end; auto|].
        destruct (kick_reason _ _ _ _ _ _ _ _ _ R A eq_refl) as (h2 & p & h1 & n & k0 & half & due & EH & _ & _ & K); [cbn; now rewrite D|right; eauto|].
        destruct K as [(_ & K1 & K2)|(NE & q & Q1 & Q2 & Q3)]; [eapply its_silence; eauto|]. eapply its_identifier; [exact E|split; [exact Q1|exact Q3]|exact Q2|exact NE].
    - assert (HN : exists i, e = EControl j /\ head_ctl b (a_id a) (online_msg (a_v5 a) i)).
      { inversion M; subst; try discriminate; try (match goal with H : TOnline _ = _ \/ _ |- _ => destruct H; discriminate end); try (match goal with H : (exists x r, TOnline _ = _) \/ _ |- _ => destruct H as [(? & ? & ?)|(? & ?)]; discriminate end).
        match goal with H : (if ?on then TOnline _ else TOffline _) = TOnline _ |- _ => destruct on; [injection H as ->|discriminate] end. eauto. }
      destruct HN as (i & E & HC). destruct (HEAD _ HC) as (ch & CH & IN & OP).
      destruct (k_online _ _ _ _ _ (i_core _ I) (a_id a) (ch_ctl ch) i (a_v5 a)) as (s & RL); [unfold cv; rewrite CH; cbn; unfold cview; now rewrite OP|exact IN|].
      pose proof (sess_known _ _ _ _ I A eq_refl (fun x => ltac:(discriminate))) as KN. apply known_iff in KN; auto. destruct KN as (o & KN).
      destruct (k_wait _ _ _ _ _ (i_core _ I) _ _ _ _ _ RL) as (_ & KW). specialize (KW _ _ KN).
      unfold rl in RL. destruct (aget i (b_tasks b)) as [t|] eqn:AI; [|discriminate]. destruct t as [x c0|x c0|x r| | | | | |]; try discriminate. injection RL as V IDX CI.
      pose proof (conn_from _ _ _ _ _ _ _ _ R AI) as (q & Q1 & Q2 & _). pose proof (connecting_asks _ _ _ Q2) as AS.
      eapply its_identifier; [exact E|exact Q1| |intros ->; rewrite A in AI; discriminate]. rewrite AS, KW. f_equal. exact IDX.
  Qed.

  Lemma why_disconnect e b b' out j code r : bstep e b = BOk b' out -> In (OPkt5 j (KDisconnect code r)) out -> (exists len x, e = EPacket5 j len x) \/ (exists reason, e = EMalformed j reason).
  Proof.
    intros S IN. assert (IP : In (KDisconnect code r) (pkts5 j out)) by (apply in_flat_map; eexists; split; [exact IN|]; cbn; rewrite N.eqb_refl; now left).
    assert (NM : messages5 (pkts5 j out) -> False) by (intros M; unfold messages5 in M; rewrite Forall_forall in M; exact (M _ IP)).
    assert (D : (exists len x, e = EPacket5 j len x) \/ (exists len x, e = EPacket3 j len x) \/ (forall len x, e <> EPacket5 j len x) /\ (forall len x, e <> EPacket3 j len x)).
    { destruct e; try (right; right; split; intros; discriminate).
      - destruct (N.eq_dec k j) as [->|NE]; [left; eauto|right; right; split; intros; congruence].
      - destruct (N.eq_dec k j) as [->|NE]; [right; left; eauto|right; right; split; intros; congruence]. }
    destruct D as [D|[(len & x & ->)|(N5 & N3)]]; [left; exact D| |].
    - exfalso. cbn [BrokerModel.bstep] in S. unfold do_packet3 in S. destruct (aget j (b_tasks b)) as [[| | | |[s|s]| | | |]|]; try discriminate. destruct (z_disc s); [discriminate|].
      destruct (packet_step3 _ _ _ _ _ _) as [s1 g o|s1 g|]; [| |discriminate]; injection S as _ <-; [rewrite pkts5_map3 in IP|]; destruct IP.
    - destruct (unasked_lemma _ _ _ _ _ _ _ j S N5 N3) as (U & _). destruct e; try (exfalso; apply NM; exact U). destruct U as [(NE & Z)|(-> & _)]; [rewrite Z in IP; destruct IP|eauto].
  Qed.
End Apart.
