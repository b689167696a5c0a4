(** A run of the broker does not panic as long as no shared filter is named. *)
From Coq Require Import List Bool NArith String Lia.
From Verif Require Import Base BaseLemmas TopicModel TopicSpec MsgModel PendingModel OutModel RouteModel RouteSpec RouteInv RetainModel GlobModel Sess5Model Sess3Model ConnModel
  InSpec RecvSpec DelivFacts SubProofs SubFacts RegModel BrokerModel
  BrokerSpec FrameProofs CoreProofs BrokerInv TaskMove StepProofs RunProofs RegProofs GaugeProofs EvolProofs HistProofs LifeSpec TabProofs TabInv RouteRun LifeProofs.
Import ListNotations.
Local Open Scope N_scope.
Local Open Scope list_scope.

(** The topic of a will. *)
Definition aw_topic (w : awill) : string := match w with W5 w => wl_topic w | W3 w => wl3_topic w end.

Section Panic.
  Variables (hash5 : wpub5 -> N) (hash3 : wpub3 -> N) (pick : draw -> broker -> string -> string -> N).
  Notation bstep := (bstep hash5 hash3 pick).
  Notation brun := (brun hash5 hash3 pick).

  Definition all_plain (c : config) (h : list past) : Prop := forall p, In p h -> Forall plain (shared_asked c (w_e p)).
  Definition wills_named (h : list past) : Prop := forall k w, In w (asked_will k h) -> valid_topic_name (aw_topic w).

  Lemma plain_unsubs ops c fs : subs_plain ops -> subs_plain (ops ++ map (fun f => Unsub f c) fs).
  Proof. intros P f d q I. apply in_app_or in I. destruct I as [I|I]; [eauto|]. apply in_map_iff in I. destruct I as (? & ? & _). discriminate. Qed.

  Lemma unroute_plain c fs : forall ops, subs_plain ops -> snd (unroute c fs (rt_run ops)) = false.
  Proof.
    unfold unroute. induction fs as [|f fs IH]; intros ops P; [reflexivity|]. cbn [fold_left fst snd].
    assert (N : snd (rt_step (rt_run ops) (Unsub f c)) = false).
    { apply safe_step. right. apply subs_plain_safe. apply (plain_unsubs ops c [f] P). }
    cbn in N. destruct (rt_unsubscribe (rt_run ops) f c) as [t1 p1] eqn:E. cbn in N. subst p1. cbn [orb].
    replace t1 with (rt_run (ops ++ [Unsub f c])); [apply IH; apply (plain_unsubs ops c [f] P)|]. rewrite rt_run_snoc. cbn. rewrite E. reflexivity.
  Qed.

  Lemma remove_plain c h b b0 a ops : brun c h b -> subs_plain ops -> b_route b0 = rt_run ops -> b_reg b0 = b_reg b -> remove_client a b0 <> None.
  Proof.
    intros R P RT RG. unfold remove_client. rewrite RG, RT. pose proof (remove_ok _ _ _ _ _ _ (a_id a) R) as N. destruct (reg_remove (a_id a) (b_reg b)); [|contradiction].
    pose proof (unroute_plain (a_id a) (a_filters a) ops P) as U. destruct (unroute _ _ _) as [t p]. cbn in U. subst p. discriminate.
  Qed.

  Lemma will_total k a b ops : b_route b = rt_run ops -> (forall w, a_will a = Some w -> valid_topic_name (aw_topic w)) -> send_will pick k a b <> None.
  Proof.
    intros RT V. unfold send_will. destruct a as [s|s]; cbn [a_will] in V.
    - assert (X : send_will5 (pick (DWill k) b) s (glob_of b) <> Panic).
      { unfold send_will5. destruct (s_will s) as [w|]; [|discriminate]. destruct (enc_len5 _) as [len|]; [|discriminate].
        destruct (send_publish5_spec (pick (DWill k) b) ops (SendPub (wl_topic w) (wl_retain w) (wl_qos w) (wl_payload w) (set_alias None (set_subids [] (wl_props w))) len) (with_will None s) (glob_of b) RT
          (V _ eq_refl)) as (s' & g' & -> & _). discriminate. }
      destruct (send_will5 _ _ _) as [[[s1 g] ok]|]; [discriminate|contradiction].
    - assert (X : send_will3 s (glob_of b) <> Panic).
      { unfold send_will3. destruct (z_will s) as [w|]; [|discriminate]. destruct (enc_len3 _) as [len|]; [|discriminate].
        unfold send_publish3. cbn [sp3_topic sp3_retain sp3_qos sp3_payload sp3_len].
        match goal with |- context[collect3 (rt_get_matches (g_route ?g1) _)] => assert (RG : g_route g1 = rt_run ops) end.
        { unfold store_retained. destruct (wl3_retain w); [|exact RT]. repeat match goal with |- context[if ?x then _ else _] => destruct x end; exact RT. }
        rewrite RG. destruct (collect3_ok ops (wl3_topic w) (rt_get_matches (rt_run ops) (wl3_topic w)) (V _ eq_refl) (fun _ H => H)) as (l & ->).
        destruct (fold_left _ _ _) as [bb cnt]. discriminate. }
      destruct (send_will3 _ _) as [[[s1 g] ok]|]; [discriminate|contradiction].
  Qed.

  Lemma will_frame k a b a' b' out ok : send_will pick k a b = Some (a', b', out, ok) -> b_reg b' = b_reg b /\ a_filters a' = a_filters a /\ b_route b' = b_route b.
  Proof.
    intros H. pose proof (will_subs _ _ _ _ _ _ _ _ H). destruct (will_moved _ _ _ _ _ _ _ _ H) as (_ & _ & _ & RT & _). split; [|auto].
    unfold send_will in H. destruct a as [s|s]; [destruct (send_will5 _ _ _) as [[[s1 g] k1]|]|destruct (send_will3 _ _) as [[[s1 g] k1]|]]; try discriminate; injection H as <- <- <- <-; reflexivity.
  Qed.

  Lemma own_will c h b k t a : brun c h b -> wills_named h -> aget k (b_tasks b) = Some t -> t_sess t = Some a -> forall w, a_will a = Some w -> valid_topic_name (aw_topic w).
  Proof.
    intros R WN A T w W. destruct (will_account _ _ _ _ _ _ k R) as (_ & [(_ & [X|(w' & X & Y)])|(w' & _ & _ & X)]); unfold will_at in X; rewrite A in X;
      assert (E : t_will t = a_will a) by (destruct t; cbn in T |- *; congruence); rewrite E, W in X; try discriminate.
    injection X as <-. apply (WN k). rewrite Y. left. reflexivity.
  Qed.

  Definition fine (e : bev) : Prop :=
    match e with EPacket5 _ _ x => wf_in5 x | EPacket3 _ _ x => wf_in3 x | _ => True end.

  Lemma control_v3 b c m q ms o k t s : inv b -> aget k (b_tasks b) = Some t -> role_of t = Owns false (a_ident (A3 s)) c false -> aget c (b_chans b) = Some (Chan (m :: q) ms o) -> for5 m = false.
  Proof.
    intros I A RO C. destruct (for5 m) eqn:F; auto. exfalso.
    assert (RK : rl b k = Some (Owns false (a_ident (A3 s)) c false)) by (rewrite (rl_of _ _ _ A), RO; auto).
    destruct (owner_open _ _ _ _ _ (i_core _ I) _ _ _ _ _ RK) as (q0 & CV). pose proof (cv_of _ _ _ C) as CV'. cbn in CV'. rewrite CV in CV'. injection CV' as -> <-.
    pose proof (k_v5 _ _ _ _ _ (i_core _ I) _ _ m CV (or_introl eq_refl) F) as X. specialize (X _ _ _ _ RK). discriminate.
  Qed.

  (** The step does not panic if the removals and the changes of subscriptions it makes do not. *)
  Lemma no_panic_if c h b e ops hr : cf_max_qos c <= 2 -> brun c h b -> (forall p, In p h -> proper p) -> wills_named h -> fine e ->
    b_cfg b = c -> b_route b = rt_run ops -> b_retain b = ret_run hr ->
    (forall k t a a1 b0, aget k (b_tasks b) = Some t -> t_sess t = Some a -> a_id a1 = a_id a -> a_filters a1 = a_filters a -> b_route b0 = rt_run ops -> b_reg b0 = b_reg b -> remove_client a1 b0 <> None) ->
    (forall k len x s, e = EPacket5 k len x -> safe_calls ops (filters5 x) (leaving5 (s_id s) x) \/ exists p fs, x = IUnsub p fs /\ unsubscribe_all fs s (glob_of b) <> Panic) ->
    (forall k len x s, e = EPacket3 k len x -> safe_calls ops (filters3 x) (leaving3 (z_id s) x) \/ exists p fs, x = YUnsub p fs /\ unsubscribe_all3 fs s (glob_of b) <> Panic) ->
    bstep e b <> BPanic.
  Proof.
    intros MQ R PR WN FE CF RT RE RM U5 U3. pose proof (run_good _ _ _ _ _ _ R) as G. pose proof G as [I _].
    assert (SW : forall k t a b0, aget k (b_tasks b) = Some t -> t_sess t = Some a -> b_route b0 = rt_run ops -> send_will pick k a b0 <> None).
    { intros k t a b0 A T RT0. eapply will_total; eauto. eapply own_will; eauto. }
    assert (CTL : forall on k a m b0, aget k (b_tasks b) = Some (if on : bool then TOnline a else TOffline a) -> b_route b0 = rt_run ops -> b_reg b0 = b_reg b -> (match a with A5 _ => True | A3 _ => for5 m = false end) -> control pick on k a m b0 <> BPanic).
    { intros on k a m b0 A RT0 RG0 F. assert (SW0 : send_will pick k a b0 <> None) by (eapply SW; eauto; destruct on; reflexivity).
      unfold control, hand_over. destruct m as [j|j| |t|t], a as [s|s]; try discriminate F; try discriminate.
      - destruct (aget j (b_tasks b0)) as [[]|]; discriminate.
      - destruct (aget j (b_tasks b0)) as [[]|]; try discriminate. destruct (aget (z_id s) (b_chans b0)); [|discriminate]. destruct on; discriminate.
      - destruct on; discriminate.
      - destruct on; discriminate.
      - destruct (_ && _); [|discriminate]. destruct (send_will pick k (A5 s) b0) as [[[[a1 b1] out] ok]|] eqn:W; [|contradiction].
        destruct (will_frame _ _ _ _ _ _ _ W) as (W1 & W2 & W3). pose proof (RM k _ (A5 s) a1 b1 A ltac:(destruct on; reflexivity) (proj1 (will_moved _ _ _ _ _ _ _ _ W)) W2 (eq_trans W3 RT0) (eq_trans W1 RG0)) as X. destruct (remove_client a1 b1); [discriminate|contradiction].
      - destruct (_ && _); [|discriminate]. destruct (send_will pick k (A5 s) b0) as [[[[a1 b1] out] ok]|] eqn:W; [discriminate|contradiction]. }
    destruct e as [t0 uuid p data|t0 uuid p|k|k|k|k|k len x|k len x|k reason|k|k|k|k d|k hook|k|n|d]; cbn [BrokerModel.bstep]; cbn [fine] in FE.
    - destruct (_ <? _); [discriminate|]. apply connect_no_panic; auto.
    - destruct (_ <? _); [discriminate|]. apply connect_no_panic; auto.
    - unfold do_put. destruct (aget k (b_tasks b)) as [[]|]; try discriminate. destruct (aget c0 (b_chans b)) as [ch|]; [|discriminate]. destruct (negb _); [discriminate|]. destruct (ctl_room ch); discriminate.
    - unfold do_fail. destruct (aget k (b_tasks b)) as [[]|]; try discriminate. destruct (aget c0 (b_chans b)) as [ch|]; [|discriminate]. destruct (ch_open ch); discriminate.
    - unfold do_join. destruct (_ <=? _); [discriminate|]. destruct (aget k (b_tasks b)) as [[| |x r| | | | | |]|] eqn:A; try discriminate. pose proof (i_ok _ I _ _ A) as OK. cbn in OK.
      destruct x as [cn data|s0].
      + assert (SC : forall rc, session_connect5 unit (b_cfg b) (b_now b) rc data cn <> None).
        { intros rc. unfold session_connect5. rewrite CF. destruct (max_qos_ok c MQ) as (mq & -> & _). destruct (match rc with RcNew id => _ | RcPresent st => _ end) as [s1 pr]. discriminate. }
        destruct r as [c0|st|st]; try contradiction;
          match goal with |- context[session_connect5 unit ?c1 ?n1 ?rc1 ?d1 ?cn1] => pose proof (SC rc1) as X; destruct (session_connect5 unit c1 n1 rc1 d1 cn1) as [[s ack]|]; [|contradiction] end;
          destruct (s_connected s); discriminate.
      + destruct r as [c0|st|st]; try contradiction; match goal with |- context[session_connect3 ?a ?b ?c] => destruct (session_connect3 a b c) as [s ack] end; discriminate.
    - unfold do_start. destruct (aget k (b_tasks b)) as [[| | |[s|s]| | | | |]|]; try discriminate; [destruct (pendings5 _ _)|destruct (after_packet3 _ _)]; discriminate.
    - unfold do_packet5. destruct (aget k (b_tasks b)) as [[| | | |[s|s]| | | |]|] eqn:A; try discriminate. destruct (is_disconnected5 s) eqn:D; [discriminate|].
      destruct (life5_lemma _ _ _ _ _ _ _ s R PR (sess_at_some _ _ _ _ A eq_refl)) as (l & _ & SR).
      pose proof (c50_no_panic hash5 (pick (DPacket k x) b) c s l (seconds b) len x (glob_of b) ops hr MQ SR D CF RT RE FE) as X.
      destruct (U5 _ _ _ s eq_refl) as [SC|(p & fs & -> & NP)].
      + destruct (packet_step5 _ _ _ _ _ _ _); [discriminate|discriminate|]. exfalso. apply X; auto.
      + unfold packet_step5, handle_packet5. destruct (_ <? len); [destruct (error_disconnect _ _ _) as [s1 o1]; destruct (after_packet5 _ _); discriminate|].
        unfold handle_unsubscribe5. destruct (unsubscribe_all fs s (glob_of b)) as [[[s3 g3] c3]|]; [|contradiction]. destruct (after_packet5 _ _). discriminate.
    - unfold do_packet3. destruct (aget k (b_tasks b)) as [[| | | |[s|s]| | | |]|] eqn:A; try discriminate. destruct (z_disc s) eqn:D; [discriminate|].
      destruct (life3_lemma _ _ _ _ _ _ _ s R PR (sess_at_some _ _ _ _ A eq_refl)) as (l & _ & SR).
      pose proof (c50_v3_no_panic hash3 c s l (seconds b) len x (glob_of b) ops hr MQ SR D CF RT RE FE) as X.
      destruct (U3 _ _ _ s eq_refl) as [SC|(p & fs & -> & NP)].
      + destruct (packet_step3 _ _ _ _ _ _); [discriminate|discriminate|]. exfalso. apply X; auto.
      + unfold packet_step3, handle_packet3. destruct (_ <? len); [discriminate|].
        unfold handle_unsubscribe3. destruct (unsubscribe_all3 fs s (glob_of b)) as [[s3 g3]|]; [|contradiction]. destruct (after_packet3 _ _). discriminate.
    - unfold do_malformed. destruct (aget k (b_tasks b)) as [[| | | |[s|s]| | | |]|]; try discriminate. destruct (is_disconnected5 s); [discriminate|]. destruct (error_disconnect _ _ _). discriminate.
    - unfold do_close. destruct (aget k (b_tasks b)) as [[]|]; discriminate.
    - unfold do_control. destruct (aget k (b_tasks b)) as [[| | | |a| | |a|]|] eqn:A; try discriminate;
        destruct (aget (a_id a) (b_chans b)) as [[[|m q] ms o]|] eqn:C; try discriminate.
      + apply (CTL true); auto. destruct a as [s|s]; auto. eapply control_v3; eauto. reflexivity.
      + apply (CTL false); auto. destruct a as [s|s]; auto. eapply control_v3; eauto. reflexivity.
    - unfold do_normal. destruct (aget k (b_tasks b)) as [[| | | |a| | |a|]|] eqn:A; try discriminate.
      + destruct (a_disc a); [discriminate|]. destruct (aget (a_id a) (b_chans b)) as [[q [|m ms] o]|]; try discriminate. destruct (normal _ _ _ _ _ _); discriminate.
      + destruct (aget (a_id a) (b_chans b)) as [[q [|m ms] o]|]; try discriminate. destruct (normal _ _ _ _ _ _); discriminate.
    - unfold do_flush. destruct (aget k (b_tasks b)) as [[| | | |a| |a| |a st]|]; try discriminate; destruct (flush d a b) as [[? ?]|]; discriminate.
    - unfold do_end. destruct (aget k (b_tasks b)) as [[| | | | |a| | |]|] eqn:A; try discriminate. destruct (negb hook); [discriminate|].
      pose proof (SW k _ a b A eq_refl RT) as X.
      assert (Y : match send_will pick k a b with None => BPanic | Some (a1, b1, out, ok) => if ok : bool then BOk (set_task k (TDrain a1) b1) out else BOk (close (a_id a) (end_task k b1)) (out ++ [OClosed k]) end <> BPanic).
      { destruct (send_will pick k a b) as [[[[a1 b1] out] ok]|]; [destruct ok; discriminate|contradiction]. }
      destruct a as [s|s]; [destruct (s_cdisc s); [discriminate|]; destruct (will_due s); [discriminate|exact Y]|destruct (z_disc s); [discriminate|exact Y]].
    - unfold do_done. destruct (aget k (b_tasks b)) as [[| | | | | |a| |a st]|] eqn:A; try discriminate; destruct (a_bcast a); try discriminate.
      + destruct (a_ends a).
        * pose proof (RM k _ a a b A eq_refl eq_refl eq_refl RT eq_refl) as X. destruct (remove_client a b); [discriminate|contradiction].
        * pose proof (offline_ok _ _ _ _ _ _ _ _ R A) as X. destruct (reg_offline _ _); [|contradiction]. destruct a; discriminate.
      + destruct st; [|discriminate]. pose proof (RM k _ a a b A eq_refl eq_refl eq_refl RT eq_refl) as X. destruct (remove_client a b); [discriminate|contradiction].
    - unfold do_fire. destruct (nth_error _ _) as [[c0 k half due|c0 t due|c0 t due|c0 m]|]; try discriminate.
      + destruct (_ <? due); [discriminate|]. destruct (_ <=? _); [discriminate|]. destruct (in_list _ _); discriminate.
      + destruct (_ <? due); [discriminate|]. destruct (in_list _ _); discriminate.
      + destruct (_ <? due); [discriminate|]. destruct (in_list _ _); discriminate.
      + destruct (aget c0 (b_chans b)) as [ch|]; [|discriminate]. destruct (negb _); [discriminate|]. destruct (ctl_room ch); discriminate.
    - discriminate.
  Qed.

  Lemma broker_no_panic c h b e : cf_max_qos c <= 2 -> brun c h b -> (forall p, In p h -> proper p) -> all_plain c h -> wills_named h -> fine e -> bstep e b <> BPanic.
  Proof.
    intros MQ R PR PL WN FE. destruct (run_tables _ _ _ _ _ _ R) as (ops & hr & CF & RT & RE & _ & _ & SP & _). specialize (SP PL).
    apply (no_panic_if c h b e ops hr); auto.
    - intros k t a a1 b0 _ _ _ _ RT0 RG. eapply remove_plain; eauto.
    - intros k len x s _. left. right. apply subs_plain_safe. destruct x; cbn; rewrite ?app_nil_r; auto using plain_unsubs.
    - intros k len x s _. left. right. apply subs_plain_safe. destruct x; cbn; rewrite ?app_nil_r; auto using plain_unsubs.
  Qed.

  Lemma unshared_no_panic c h b e : cf_max_qos c <= 2 -> cf_shared c = false -> brun c h b -> (forall p, In p h -> proper p) -> fine e -> wills_named h -> bstep e b <> BPanic.
  Proof.
    intros MQ SH R P FE W. apply (broker_no_panic c h); auto. intros p I. unfold shared_asked. rewrite SH. destruct (w_e p); try constructor. destruct x; constructor.
  Qed.
End Panic.
