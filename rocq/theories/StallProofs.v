(** Deliveries go on: the lemmas of StallProps. *)
From Coq Require Import List Bool Arith NArith Lia String.
From Verif Require Import Base BaseLemmas TopicModel MsgModel PendingModel AliasModel OutModel RouteModel RetainModel GlobModel Sess5Model Sess3Model ConnModel RegModel BrokerModel
  OutSpec PendingProofs OutProofs OutInv OutLemmas OutFacts InSpec InProofs InRun LinkSpec LinkProofs LinkProofs3 LinkFacts BrokerSpec
  FrameProofs CoreProofs BrokerInv TaskMove StepProofs RunProofs EvolProofs LifeSpec LifeProofs LifeFacts RecordProofs StallSpec.
Import ListNotations.
Local Open Scope N_scope.
Local Open Scope list_scope.

Section Queue.
  Context {M W : Type}.
  Variable wpid : W -> option pid.
  Variable wdup : W -> bool.
  Variable carries : N -> N -> M -> W -> Prop.
  Variable lifetime : M -> option N.
  Variable mok : M -> Prop.
  Notation st := (pstatus M).
  Notation oev := (oev M W).
  Notation Inv := (OutProofs.Inv wpid wdup carries lifetime mok).
  Notation mrun := (mrun wpid wdup carries lifetime mok).
  Notation flushed := (flushed wpid wdup carries lifetime).
  Notation just_expired := (just_expired (M := M) wpid).

  (** Nothing is unfinished, or something was transmitted. *)
  Definition moving (l : list st) : Prop := heldl l = [] \/ exists s, In s l /\ last_of s <> 0.

  Lemma drop_moving l : moving l -> moving (drop_done l).
  Proof.
    induction l as [|[ad la p m d|la p|] l IH]; intros H; try exact H. cbn [drop_done]. apply IH.
    destruct H as [H|(s & [<-|I] & N)]; [left; exact H|cbn in N; congruence|right; eauto].
  Qed.
  Lemma drop_head l x r : drop_done l = x :: r -> status_pid (x : st) <> None.
  Proof. induction l as [|[] l IH]; cbn; intros E; try discriminate; [injection E as <- _; discriminate|injection E as <- _; discriminate|eauto]. Qed.

  Lemma flushed_moving now timeout n (l l' : list st) o : 0 < now -> timeout <= now -> flushed now timeout n l l' o [] ->
    (l = [] \/ (0 < n)%nat /\ exists x r, l = x :: r /\ status_pid x <> None) -> moving l'.
  Proof.
    intros P T F [->|(N & x & r & -> & X)].
    - inversion F; subst; left; reflexivity.
    - inversion F; subst; [lia| | |]; right.
      + eexists. split; [left; reflexivity|]. destruct x as [ad la p m d|la p|]; cbn in *; [lia|lia|congruence].
      + eexists. split; [left; reflexivity|]. cbn. lia.
      + eexists. split; [left; reflexivity|]. cbn. lia.
  Qed.

  Lemma flush_moving q now l' o e : 0 < now -> pq_timeout q <= now -> 0 < pq_inflight q ->
    flushed now (pq_timeout q) (current_inflight (clean_complete q)) (drop_done (pq q)) l' o e -> e = [] -> moving (drop_done l').
  Proof.
    intros P T I F ->. apply drop_moving. refine (flushed_moving _ _ _ _ _ _ P T F _). clear F. destruct (drop_done (pq q)) as [|x r] eqn:D; [left; reflexivity|right].
    split; [|exists x, r; split; [reflexivity|eapply drop_head; eauto]]. unfold current_inflight. cbn [clean_complete pq pq_inflight pq_set]. rewrite D. cbn [List.length]. lia.
  Qed.

  Lemma expired_end (log : list oev) now o e : e <> [] -> just_expired (log ++ flush_events now o e).
  Proof.
    intros N. destruct (exists_last N) as (e0 & p & ->). exists (log ++ map (ESent now) o ++ map (EExpired now) e0), now, p, [].
    split; [|constructor]. unfold flush_events. rewrite map_app, <- !app_assoc. reflexivity.
  Qed.
  Lemma expired_app (log evs : list oev) : just_expired log -> Forall (of_qos0 wpid) evs -> just_expired (log ++ evs).
  Proof.
    intros (l1 & t & p & l2 & -> & F) G. exists l1, t, p, (l2 ++ evs). split; [now rewrite <- app_assoc|now apply Forall_app].
  Qed.

  Lemma moving_log q log : Inv q log -> moving (pq q) -> (exists p, active p log = true) ->
    exists p, on_its_way wpid wdup carries lifetime (pq_timeout q) p log.
  Proof.
    intros I MV (p & A). rewrite (OutProofs.i_act _ _ _ _ _ _ _ I) in A. destruct MV as [E|(s & S & L)]; [rewrite E in A; discriminate|].
    destruct (status_pid s) as [p'|] eqn:SP; [|destruct s; cbn in *; congruence]. exists p'. pose proof (OutProofs.i_life _ _ _ _ _ _ _ I p') as LF.
    rewrite (abs_in p' (pq q) s (OutProofs.i_nd _ _ _ _ _ _ _ I) S SP) in LF. unfold on_its_way. exists (last_of s).
    pose proof (OutProofs.i_ok _ _ _ _ _ _ _ I) as OK. rewrite Forall_forall in OK. specialize (OK _ S).
    destruct s as [ad la p0 m d|la p0|]; cbn in *; [| |discriminate].
    - left. exists ad, m. destruct d; [unfold opt in LF; destruct (N.eqb_spec la 0); [congruence|exact LF]|]. exfalso. destruct OK as (_ & OK). auto.
    - right. unfold opt in LF. destruct (N.eqb_spec la 0); [congruence|exact LF].
  Qed.
End Queue.


(** ** MQTT 5 *)
Section V5.
  Variables (hash : wpub5 -> N) (cfg : config).

  Definition joint5 (s : sess5) (l : list (sev5 * list pkt5)) (log : list (oev pub5 wpub5)) : Prop :=
    exists rm amax ops, Forall op5_ok ops /\
      run5 rm (cf_max_pending cfg) (cf_inflight_timeout cfg) amax ops = (s_out s, log) /\ logs5 cfg l log /\ receive_max log = s_rmax s.
  Definition flows5 (o : out5) (log : list (oev pub5 wpub5)) : Prop :=
    no_reuse log -> 0 < pq_inflight (o5_q o) -> moving (pq (o5_q o)) \/ just_expired wpid5 log.

  Lemma joint_step5 s l log e s' out ops evs : joint5 s l log -> trans5 (s_out s) ops (s_out s') evs -> logged5 cfg e out evs ->
    Forall (fun e => match e with EConn _ => False | _ => True end) evs -> s_rmax s' = s_rmax s -> joint5 s' (l ++ [(e, out)]) (log ++ evs).
  Proof.
    intros (rm & amax & ops0 & F & R & L & X) (F1 & E1) LG NC SR. exists rm, amax, (ops0 ++ ops). split; [now apply Forall_app|]. split.
    - unfold run5 in *. rewrite fold_left_app, R. now apply run5_from.
    - split; [now constructor|]. rewrite LinkProofs.receive_max_app by auto. congruence.
  Qed.

  (** After a flush something moves. *)
  Lemma flush_flows5 rm amax ops o log t o' outs : Forall op5_ok ops ->
    run5 rm (cf_max_pending cfg) (cf_inflight_timeout cfg) amax ops = (o, log) -> 0 < t -> cf_inflight_timeout cfg <= t ->
    handle_pendings5 t o = (o', outs) -> flows5 o' (log ++ flush_events t outs (given_up (o5_q o) (o5_q o'))).
  Proof.
    intros F R T TO H NR IF. pose proof (run5_mrun _ _ _ _ _ _ _ F R) as MR. pose proof (mrun_inv _ _ _ _ _ _ _ _ _ _ _ MR (no_reuse_app _ _ NR)) as I.
    destruct (mrun_len _ _ _ _ _ _ _ _ _ _ _ MR) as (_ & TE & _).
    destruct (loop_mstep wpid5 w5_dup carries5 lifetime5 mok5 (pendings_body5 t (o5_amax o)) (o5_next o) t (o5_q o) (o5_al o) T (good_body5 _ _) (body5_pid _ _))
      as (q1 & a' & outs' & e & EL & _ & _ & FL). destruct (FL (OutProofs.i_nd _ _ _ _ _ _ _ I) (OutProofs.i_ok _ _ _ _ _ _ _ I)) as (GU & l' & AL & FF).
    unfold handle_pendings5 in H. rewrite EL in H. injection H as <- <-. cbn [o5_q] in *. change (if is_nil e then _ else _) with (after_loop e q1) in *. rewrite GU. rewrite AL in *. cbn [pq pq_set pq_inflight] in *.
    destruct e as [|p e]; [left|right; apply expired_end; discriminate]. eapply (flush_moving _ _ _ _ mok5 (o5_q o) t l' outs' []); [exact T|rewrite TE; exact TO|exact IF|exact FF|reflexivity].
  Qed.

  Lemma pendings_flows5 s l log t s' out : joint5 s l log -> 0 < t -> cf_inflight_timeout cfg <= t -> pendings5 t s = (s', out) ->
    exists evs, trans5 (s_out s) [O5Flush t] (s_out s') evs /\ (forall q, LinkSpec.entry t None (fun _ => True) (flat_map wire5 out) q evs) /\ flows5 (s_out s') (log ++ evs).
  Proof.
    intros (rm & amax & ops & F & R & _) T TO. unfold pendings5. destruct (handle_pendings5 t (s_out s)) as (o, k) eqn:H. intros E. injection E as <- <-.
    exists (flush_events t k (given_up (o5_q (s_out s)) (o5_q o))). split; [apply trans5_one; [exact T|cbn; now rewrite H]|]. split; [|eapply flush_flows5; eauto].
    intros q. exists [], (flush_events t k (given_up (o5_q (s_out s)) (o5_q o))). split; auto. split; auto. unfold flush_events. split.
    - rewrite sents_app, sents_map, sents_expired, app_nil_r. now rewrite wire_of_sent.
    - apply Forall_app. split; apply Forall_forall; intros e I; apply in_map_iff in I; destruct I as (? & <- & _); reflexivity.
  Qed.

  (** A message that needs no acknowledgement, or is not for this client. *)
  Lemma recv_zero5 t m s s' r : recv_publish5 t m s = (s', r) -> match r with Some (q, _) => qos_eqb q L0 = true | None => True end ->
    exists ops evs, trans5 (s_out s) ops (s_out s') evs /\ (forall q, LinkSpec.entry t None (fun _ => True) (flat_map wire5 (match r with Some (_, Some k) => [k] | _ => [] end)) q evs) /\
      Forall (of_qos0 wpid5) evs /\ o5_q (s_out s') = o5_q (s_out s).
  Proof.
    assert (REF : exists ops evs, trans5 (s_out s) ops (s_out s) evs /\ (forall q, LinkSpec.entry t None (fun _ => True) [] q evs) /\ Forall (of_qos0 wpid5) evs /\ o5_q (s_out s) = o5_q (s_out s)).
    { exists [], []. split; [apply trans5_nil|]. split; [intros q; apply entry_nil|]. split; [constructor|reflexivity]. }
    unfold recv_publish5.
    destruct (match rp_ids m with Precomputed l => Some l | Lookup f => _ end) as [l|]; [|intros E; injection E as <- <-; intros _; exact REF].
    destruct (negb (qos_eqb _ L0)) eqn:Q.
    - destruct (s_maxpkt s <? rp_len m); [intros E; injection E as <- <-; intros _; exact REF|].
      destruct (out5_push t _ (s_out s)) as (o, full) eqn:P. intros E. injection E as <- <-. intros X. rewrite X in Q. discriminate.
    - destruct (negb (s_cdisc s) && negb (s_sdisc s)); [|intros E; injection E as <- <-; intros _; exact REF].
      destruct (s_maxpkt s <? _); [intros E; injection E as <- <-; intros _; exact REF|].
      destruct (out5_qos0 _ _ _ _ (s_out s)) as (o, w) eqn:P. intros E. injection E as <- <-. intros _. cbn [s_out with_out flat_map wire5 app].
      assert (W : wpid5 w = None /\ o5_q o = o5_q (s_out s)) by (unfold out5_qos0 in P; destruct (apply_alias _ _ _ _) as ((a, b), c); injection P as <- <-; split; reflexivity).
      eexists [O5Zero t _ _ _ _], [ESent t (SPub w)].
      split; [apply trans5_one; [exact I|cbn; rewrite P; reflexivity]|].
      split; [intros q; exists [], [ESent t (SPub w)]; repeat split; repeat constructor|]. split; [repeat constructor; exact (proj1 W)|exact (proj2 W)].
  Qed.
  Lemma normal_zero5 t c m s s' r : handle_normal5 t c m s = (s', r) -> match r with Some (q, _) => qos_eqb q L0 = true | None => True end ->
    exists ops evs, trans5 (s_out s) ops (s_out s') evs /\ (forall q, LinkSpec.entry t None (fun _ => True) (flat_map wire5 (match r with Some (_, Some k) => [k] | _ => [] end)) q evs) /\
      Forall (of_qos0 wpid5) evs /\ o5_q (s_out s') = o5_q (s_out s).
  Proof.
    assert (REF : exists ops evs, trans5 (s_out s) ops (s_out s) evs /\ (forall q, LinkSpec.entry t None (fun _ => True) [] q evs) /\ Forall (of_qos0 wpid5) evs /\ o5_q (s_out s) = o5_q (s_out s)).
    { exists [], []. split; [apply trans5_nil|]. split; [intros q; apply entry_nil|]. split; [constructor|reflexivity]. }
    unfold handle_normal5. destruct m as [m|m].
    - destruct (aget _ _); [|intros E; injection E as <- <-; intros _; exact REF]. apply recv_zero5.
    - destruct (filters_info _ _) as ((has, rap), ids). destruct has; [|intros E; injection E as <- <-; intros _; exact REF]. apply recv_zero5.
  Qed.

  Lemma flows_zero5 o o' log evs : flows5 o log -> o5_q o' = o5_q o -> Forall (of_qos0 wpid5) evs -> flows5 o' (log ++ evs).
  Proof.
    intros F Q Z NR I. rewrite Q in *. destruct (F (no_reuse_app _ _ NR) I) as [MV|JE]; [left; exact MV|right; now apply expired_app].
  Qed.

  (** A packet, without the flush after it. *)
  Lemma handle_moves5 pick t len x s g s' g' out : 0 < t -> g_cfg g = cfg -> handle_packet5 hash pick t len x s g = Go s' g' out ->
    exists A, moves5 t (ack5 cfg len x) A (fun _ => by_subscribe5 x) (s_out s) (s_out s') (flat_map wire5 (after_answer5 x out)) /\
      (forall ok k, A ok -> answered5 x (out ++ k) ok) /\ (forall k, after_answer5 x (out ++ k) = after_answer5 x out ++ k).
  Proof.
    intros T GC. unfold handle_packet5. rewrite GC. unfold ack5.
    assert (SAME : forall o, flat_map wire5 o = [] -> moves5 t None (fun _ => False) (fun _ => by_subscribe5 x) (s_out s) (s_out s) (flat_map wire5 o)).
    { intros o ->. exists [], []. split; [apply trans5_nil|]. exists [], []. repeat split; constructor. }
    destruct (cf_packet_server cfg <? len).
    { cbn [error_disconnect]. intros E. injection E as <- _ <-. exists (fun _ => False). split; [|split; [intros ? ? []|destruct x; reflexivity]].
      destruct x; cbn [after_answer5 tl]; apply SAME; reflexivity. }
    assert (ACK : forall k p (A : bool -> Prop) o1 ok, out5_on_queue (ack_queue k t p) (s_out s) = (o1, ok) -> A ok ->
      moves5 t (Some (k, p)) A (fun _ => by_subscribe5 x) (s_out s) o1 []).
    { intros k p A o1 ok E HA. exists [O5Ack k t p], [EAcked k t p ok]. split; [apply trans5_one; [exact T|cbn; now rewrite E]|].
      exists [EAcked k t p ok], []. split; [reflexivity|]. split; [eauto|]. split; [reflexivity|constructor]. }
    destruct x as [w|p|p|p|p|p id fs|p fs| |code expiry|]; cbn [after_answer5 answered5].
    - destruct (handle_publish5 hash pick w s g) as [((s1, g1), o1)|] eqn:P; [|discriminate]. apply publish_out in P. destruct P as ((P1 & _) & P2).
      intros E. injection E as <- _ <-. exists (fun _ => False). rewrite P1. split; [apply SAME; exact P2|]. split; [intros ? ? []|reflexivity].
    - unfold handle_puback5. intros E. injection E as <- _ <-. exists (fun _ => True). split; [|split; [auto|reflexivity]].
      destruct (out5_on_queue (pend_complete p L1) (s_out s)) as (o1, ok) eqn:Q. cbn [flat_map]. eapply ACK; [exact Q|exact I].
    - unfold handle_pubrec5. destruct (out5_on_queue (pend_pubrec t p) (s_out s)) as (o1, ok) eqn:Q.
      intros E. injection E as <- _ <-. exists (fun o => o = ok). split; [|split; [|reflexivity]].
      + cbn [flat_map tl]. eapply ACK; [exact Q|reflexivity].
      + intros ? k ->. exists k. destruct ok; reflexivity.
    - unfold handle_pubrel5. destruct (aget p (s_qos2 s)); intros E; injection E as <- _ <-; (exists (fun _ => False); split; [apply SAME; reflexivity|split; [intros ? ? []|reflexivity]]).
    - unfold handle_pubcomp5. intros E. injection E as <- _ <-. exists (fun _ => True). split; [|split; [auto|reflexivity]].
      destruct (out5_on_queue (pend_complete p L2) (s_out s)) as (o1, ok) eqn:Q. cbn [flat_map]. eapply ACK; [exact Q|exact I].
    - destruct (handle_subscribe5 t p id fs s g) as [((s1, g1), o1)|] eqn:P; [|discriminate]. apply subscribe_out in P; auto.
      intros E. injection E as <- _ <-. exists (fun _ => True). split; [|split; [auto|reflexivity]]. destruct P as (ops & evs & Tr & En). exists ops, evs. split; auto.
      refine (entry_imp _ _ _ (fun _ => True) _ _ _ _ _ (fun _ _ => I) En). intros m _. exists p, id, fs. reflexivity.
    - unfold handle_unsubscribe5. destruct (unsubscribe_all fs s g) as [((s1, g1), cs)|] eqn:P; [|discriminate]. apply unsubscribe_all_out in P.
      intros E. injection E as <- _ <-. exists (fun _ => False). rewrite P. split; [apply SAME; reflexivity|]. split; [intros ? ? []|reflexivity].
    - intros E. injection E as <- _ <-. exists (fun _ => False). split; [apply SAME; reflexivity|split; [intros ? ? []|reflexivity]].
    - destruct (handle_disconnect5 code expiry s) as (s1, o1) eqn:P. apply disconnect_out in P. destruct P as ((P1 & _) & P2).
      intros E. injection E as <- _ <-. exists (fun _ => False). rewrite P1. split; [apply SAME; exact P2|]. split; [intros ? ? []|reflexivity].
    - discriminate.
  Qed.

  Lemma packet_flows5 pick t len x s g s' g' out l log : joint5 s l log -> 0 < t -> cf_inflight_timeout cfg <= t -> g_cfg g = cfg ->
    packet_step5 hash pick t len x s g = Go s' g' out ->
    exists evs, joint5 s' (l ++ [(VPkt t len x g, out)]) (log ++ evs) /\ (is_disconnected5 s' = false -> flows5 (s_out s') (log ++ evs)).
  Proof.
    intros J T TO GC E. pose proof (packet_rmax _ _ _ _ _ _ _ _ _ _ E) as RM. unfold packet_step5 in E. destruct (handle_packet5 _ _ _ _ _ _ _) as [s1 g1 o1| |] eqn:HP; try discriminate.
    destruct (handle_moves5 _ _ _ _ _ _ _ _ _ T GC HP) as (A & (ops & evs & Tr & En) & AN & AF).
    destruct (after_packet5 t s1) as (s2, k) eqn:P. injection E as <- _ <-. unfold after_packet5 in P. destruct (is_disconnected5 s1) eqn:D.
    - injection P as <- <-. exists evs. split; [|congruence]. eapply joint_step5; [exact J|exact Tr| |eapply entry_conn; eauto|exact RM].
      cbn [logged5]. rewrite AF, !app_nil_r. refine (entry_imp _ _ _ _ _ _ _ _ (fun _ H => H) _ En). intros ok H. rewrite <- (app_nil_r o1). now apply AN.
    - destruct J as (rm & amax & ops0 & F0 & R0 & L0 & X0).
      destruct Tr as (F1 & E1).
      assert (R1 : run5 rm (cf_max_pending cfg) (cf_inflight_timeout cfg) amax (ops0 ++ ops) = (s_out s1, log ++ evs)).
      { unfold run5 in *. rewrite fold_left_app, R0. now apply run5_from. }
      unfold pendings5 in P. destruct (handle_pendings5 t (s_out (with_last t s1))) as (o2, k2) eqn:H. injection P as <- <-. change (s_out (with_last t s1)) with (s_out s1) in H.
      set (ev2 := flush_events (M := pub5) (W := wpub5) t k2 (given_up (o5_q (s_out s1)) (o5_q o2))).
      assert (T2 : trans5 (s_out s1) [O5Flush t] o2 ev2) by (apply trans5_one; [exact T|cbn; now rewrite H]).
      exists (evs ++ ev2). split.
      + eapply (joint_step5 s _ _ _ _ _ (ops ++ [O5Flush t])); [exists rm, amax, ops0; auto|eapply trans5_app; [split; [exact F1|exact E1]|exact T2]| | |exact RM].
        * cbn [logged5]. rewrite AF, flat_map_app. apply entry_app; [refine (entry_imp _ _ _ _ _ _ _ _ (fun _ H => H) _ En); intros ok HA; now apply AN|].
          exists [], ev2. split; auto. split; auto. unfold ev2, flush_events. split.
          -- rewrite sents_app, sents_map, sents_expired, app_nil_r. now rewrite wire_of_sent.
          -- apply Forall_app. split; apply Forall_forall; intros e I; apply in_map_iff in I; destruct I as (? & <- & _); reflexivity.
        * apply Forall_app. split; [eapply entry_conn; eauto|]. unfold ev2, flush_events. apply Forall_app. split; apply Forall_forall; intros e I; apply in_map_iff in I; destruct I as (? & <- & _); exact Logic.I.
      + intros _. rewrite app_assoc. cbn [s_out with_out]. eapply (flush_flows5 _ _ (ops0 ++ ops)); [now apply Forall_app|exact R1|exact T|exact TO|exact H].
  Qed.
End V5.


Lemma snoc_app {A} (l : list A) x y : l ++ [x; y] = (l ++ [x]) ++ [y]. Proof. rewrite <- app_assoc. reflexivity. Qed.

Section Broker.
  Variables (hash5 : wpub5 -> N) (hash3 : wpub3 -> N) (pick : draw -> broker -> string -> string -> N).
  Notation bstep := (bstep hash5 hash3 pick).
  Notation brun := (brun hash5 hash3 pick).
  Notation evol := (evol hash5 hash3 pick).

  Lemma joint_still5 c s l log e s' : joint5 c s l log -> s_out s' = s_out s -> s_rmax s' = s_rmax s -> still5 (e, []) -> joint5 c s' (l ++ [(e, [])]) log.
  Proof.
    intros J O R S. rewrite <- (app_nil_r log). eapply (joint_step5 c s _ _ _ s' [] [] []); [exact J|rewrite O; apply trans5_nil| |constructor|exact R].
    destruct e; try contradiction; split; reflexivity.
  Qed.

  Lemma seconds_pos b e out : after_1970 (Past b e out) -> (forall n, e <> ETick n) -> 0 < seconds b.
  Proof. unfold after_1970. cbn [w_e w_b]. intros A N. destruct e; try (exfalso; eapply N; reflexivity); unfold seconds; apply N.div_str_pos; lia. Qed.
  Lemma late_at c b e out : late c (Past b e out) -> (forall n, e <> ETick n) -> cf_inflight_timeout c <= seconds b.
  Proof. unfold late. cbn [w_e w_b]. intros A N. destruct e; try (exfalso; eapply N; reflexivity); exact A. Qed.

  Lemma evol_flows5 c e b b' out k s s' l log : bstep e b = BOk b' out -> wf_glob c (glob_of b) -> b_cfg b = c -> after_1970 (Past b e out) -> late c (Past b e out) ->
    evol b e out k (A5 s) (A5 s') -> joint5 c s l log ->
    e = EStart k \/ aget k (b_tasks b) = Some (TOnline (A5 s)) /\ (is_disconnected5 s = false -> flows5 (s_out s) log) ->
    exists d log', did5 k (Past b e out) d /\ joint5 c s' (l ++ d) log' /\ (is_disconnected5 s' = false -> flows5 (s_out s') log').
  Proof.
    intros ST WG CF AF LT V J B. remember (A5 s) as a eqn:EA. remember (A5 s') as a' eqn:EA'.
    assert (GC : g_cfg (glob_of b) = c) by (apply WG).
    destruct V as [a ID|len x s1 s2 g o E A D PS O|len x s1 s2 g E A D PS O|reason s1 s2 p E D ED O|len x s1 s2 g o E A D PS O|len x s1 s2 g E A D PS O
      |on a a' cs [c0 m] r o E A D CH NM|d a bc n E O|s1 s2 o E A PE O|s1 s2 o E A PE O|a a' b0 b1 ok GB E SW|a E O]; try discriminate EA; try discriminate EA'.
    - rewrite EA in EA'. injection EA' as <-. exists [], log. rewrite app_nil_r. split; [apply d5_still; [|apply (step_quiet _ _ _ _ _ _ _ _ ST ID)|constructor]|].
      + cbn [w_e]. unfold idle in ID. unfold passive. destruct e; auto. destruct x; auto.
      + split; [exact J|]. destruct B as [->|(_ & B)]; [cbn in ID; congruence|exact B].
    - injection EA as ->. injection EA' as ->. subst e out.
      destruct (packet_flows5 hash5 c _ _ _ _ _ _ _ _ _ _ _ J (seconds_pos _ _ _ AF ltac:(discriminate)) (late_at _ _ _ _ LT ltac:(discriminate)) GC PS) as (evs & J' & F).
      exists [(VPkt (seconds b) len x (glob_of b), o)], (log ++ evs). split; [|split; [exact J'|exact F]].
      pose proof (d5_pkt k (Past b (EPacket5 k len x) (map (OPkt5 k) o)) len x eq_refl) as DD. cbn [w_b w_out] in DD. rewrite pkts5_map in DD. exact DD.
    - injection EA as ->. injection EA' as ->. subst e out. exists [], log. rewrite app_nil_r.
      assert (X : x = IOther /\ s' = s). { unfold packet_step5 in PS. destruct (handle_packet5 _ _ _ _ _ _ _) eqn:HP; [destruct (after_packet5 _ _); discriminate| |discriminate]. inversion PS; subst.
        unfold handle_packet5 in HP. destruct (_ <? _); [destruct (error_disconnect _ _ _); discriminate|]. destruct x; try discriminate; [| | | | | |inversion HP; auto];
          repeat match goal with H : match ?y with _ => _ end = _ |- _ => destruct y; try discriminate end. }
      destruct X as (-> & ->). split; [apply d5_still; [exact Logic.I|reflexivity|constructor]|]. split; [exact J|]. destruct B as [B|(_ & B)]; [discriminate|exact B].
    - injection EA as ->. injection EA' as ->. subst e out. exists [(VBad, [p])], log. pose proof (d5_bad k (Past b (EMalformed k reason) [OPkt5 k p]) reason eq_refl) as DD.
      cbn [w_out] in DD. change [OPkt5 k p] with (map (OPkt5 k) [p]) in DD. rewrite pkts5_map in DD. split; [exact DD|].
      injection ED as <- <-. split; [|unfold is_disconnected5; cbn; intros X; rewrite orb_true_r in X; discriminate].
      rewrite <- (app_nil_r log). eapply (joint_step5 c s _ _ _ _ _ [] []); [exact J|apply trans5_nil|split; reflexivity|constructor|reflexivity].
    - subst a a' e. cbn [snd normal] in NM. destruct (handle_normal5 (seconds b) (b_cfg b) m s) as [s1 res] eqn:HN. rewrite CF in HN.
      assert (TP := seconds_pos _ _ _ AF ltac:(discriminate)). assert (TL := late_at _ _ _ _ LT ltac:(discriminate)).
      assert (W : waiting b (a_id (A5 s)) = (c0, m) :: r) by (unfold waiting; rewrite CH; reflexivity).
      destruct B as [B|(A1 & B)]; [discriminate|]. destruct on; [|rewrite A in A1; discriminate]. specialize (D eq_refl). cbn [a_disc] in D. specialize (B D).
      pose proof (normal_frame _ _ _ _ _ _ HN) as (oo & X).
      assert (Z : match res with Some (q, _) => qos_eqb q L0 = true | None => True end -> A5 s1 = A5 s' /\ out = map (OPkt5 k) (match res with Some (_, Some k) => [k] | _ => [] end) ->
        exists d log', did5 k (Past b (ENormal k) out) d /\ joint5 c s' (l ++ d) log' /\ (is_disconnected5 s' = false -> flows5 (s_out s') log')).
      { intros Q (E1 & ->). injection E1 as ->. destruct (normal_zero5 _ _ _ _ _ _ HN Q) as (ops & evs & Tr & En & FZ & EQ).
        eexists _, (log ++ evs). split; [eapply (d5_msg k (Past b (ENormal k) _)); eauto|]. cbn [w_b w_out]. rewrite pkts5_map. split.
        - eapply joint_step5; [exact J|exact Tr|cbn [logged5]; apply En|eapply entry_conn; apply (En (fun _ => True))|now rewrite X].
        - intros _. eapply flows_zero5; eauto. }
      destruct res as [[q pk]|].
      + destruct (qos_eqb q L0) eqn:Q.
        * injection NM as <- <-. apply Z; [reflexivity|]. split; [reflexivity|]. rewrite app_nil_r. destruct pk; reflexivity.
        * clear Z. pose proof (normal_none5 _ _ _ _ _ _ _ HN Q) as ->. destruct (pendings5 (seconds b) s1) as [s2 more] eqn:PE. injection NM as -> <-. cbn [opt_list app].
          destruct (normal_moves _ _ _ _ _ _ TP HN) as ((ops & evs & Tr & En) & _). cbn [flat_map] in En.
          assert (J1 : joint5 c s1 (l ++ [(VMsg (seconds b) m, [])]) (log ++ evs)) by (eapply joint_step5; [exact J|exact Tr|cbn [logged5 flat_map]; exact En|eapply entry_conn; exact En|now rewrite X]).
          destruct (pendings_flows5 _ _ _ _ _ _ _ J1 TP TL PE) as (ev2 & Tr2 & En2 & FL).
          eexists _, ((log ++ evs) ++ ev2). split; [eapply (d5_send k (Past b (ENormal k) _)); eauto|]. cbn [w_b w_out]. rewrite pkts5_map, snoc_app. split; [|intros _; exact FL].
          eapply joint_step5; [exact J1|exact Tr2|cbn [logged5]; apply En2|eapply entry_conn; apply (En2 (fun _ => True))|]. destruct (pendings_frame _ _ _ _ PE) as (o2 & ->). reflexivity.
      + injection NM as <- <-. apply Z; [exact Logic.I|split; reflexivity].
    - subst e out a. injection EA' as <-. exists [(VSend bc n, [])], log. split; [apply d5_still; [exact Logic.I|reflexivity|repeat constructor]|].
      split; [eapply joint_still5; [exact J|reflexivity|reflexivity|exact Logic.I]|]. destruct B as [B|(_ & B)]; [discriminate|exact B].
    - injection EA as ->. injection EA' as ->. subst e out.
      assert (TP := seconds_pos _ _ _ AF ltac:(discriminate)). assert (TL := late_at _ _ _ _ LT ltac:(discriminate)).
      assert (J1 : joint5 c (with_last (seconds b) s) (l ++ [(VSet, [])]) log) by (eapply joint_still5; [exact J|reflexivity|reflexivity|exact Logic.I]).
      destruct (pendings_flows5 _ _ _ _ _ _ _ J1 TP TL PE) as (ev2 & Tr2 & En2 & FL).
      eexists _, (log ++ ev2). split; [apply (d5_start k (Past b (EStart k) _)); reflexivity|]. cbn [w_b w_out]. rewrite pkts5_map, snoc_app. split; [|intros _; exact FL].
      eapply joint_step5; [exact J1|exact Tr2|cbn [logged5]; apply En2|eapply entry_conn; apply (En2 (fun _ => True))|]. destruct (pendings_frame _ _ _ _ PE) as (o2 & ->). reflexivity.
    - subst a. destruct (will_steps5 _ _ _ _ _ _ _ _ _ SW EA') as (s0 & bc & n & X & ->). injection X as <-. exists [(VSet, []); (VSend bc n, [])], log.
      split; [apply d5_still; [destruct E; subst e; exact Logic.I|apply (quiet_will pick k _ _ _ _ _ _ _ SW)|repeat constructor]|]. rewrite snoc_app. split.
      + eapply joint_still5; [eapply (joint_still5 _ _ _ _ _ (with_will None s)); [exact J|reflexivity|reflexivity|]; exact Logic.I|reflexivity..|exact Logic.I].
      + destruct B as [B|(_ & B)]; [destruct E; subst e; discriminate|exact B].
    - subst e out a. injection EA' as <-. exists [(VSet, [])], log. split; [apply d5_still; [exact Logic.I|reflexivity|repeat constructor]|].
      split; [eapply joint_still5; [exact J|reflexivity|reflexivity|exact Logic.I]|]. destruct B as [B|(_ & B)]; [discriminate|exact B].
  Qed.

  Lemma online_before e b b' out k a' : good b -> bstep e b = BOk b' out -> aget k (b_tasks b') = Some (TOnline a') ->
    e = EStart k \/ exists a, aget k (b_tasks b) = Some (TOnline a).
  Proof.
    intros (I & _) S A. pose proof (step_move _ _ _ _ _ _ _ I S k) as M. rewrite A in M. inversion M; subst; eauto.
  Qed.

  Lemma flow5_run c h b : brun c h b -> (forall p, In p h -> proper p) -> (forall p, In p h -> after_1970 p) -> (forall p, In p h -> late c p) ->
    forall k s, aget k (b_tasks b) = Some (TOnline (A5 s)) ->
    exists l log, life5 k h l /\ joint5 c s l log /\ (is_disconnected5 s = false -> flows5 (s_out s) log).
  Proof.
    induction 1 as [|h b e b' out R IH ST]; intros PR AF LT k s A; [discriminate|].
    assert (PR' : forall p, In p h -> proper p) by (intros; apply PR; right; auto).
    assert (AF' : forall p, In p h -> after_1970 p) by (intros; apply AF; right; auto).
    specialize (IH PR' AF' (fun p I => LT p (or_intror I))). pose proof (run_good _ _ _ _ _ _ R) as G. destruct (run_glob _ _ _ _ _ _ R) as (CF & WG).
    assert (SA : sess_at b' k = Some (A5 s)) by (unfold sess_at; rewrite A; reflexivity).
    pose proof (online_before _ _ _ _ _ _ G ST A) as ON.
    destruct (step_evol _ _ _ _ _ _ _ G ST k _ SA) as [(a & A0 & V)|(x & r & o & A0 & E & _)].
    - pose proof (evol_v _ _ _ _ _ _ _ _ _ V) as AV. destruct a as [s0|s0]; [|discriminate].
      assert (K : exists l log, life5 k h l /\ joint5 c s0 l log /\ (e = EStart k \/ aget k (b_tasks b) = Some (TOnline (A5 s0)) /\ (is_disconnected5 s0 = false -> flows5 (s_out s0) log))).
      { destruct ON as [->|(a & A1)].
        - destruct (is_run5 _ _ _ _ _ _ _ _ R PR' AF' A0) as (l & L & SR & C). destruct (run_linked _ _ _ _ SR C) as (rm & amax & ops & log & X). exists l, log. split; auto. split; [|auto]. exists rm, amax, ops. exact X.
        - unfold sess_at in A0. rewrite A1 in A0. injection A0 as ->. destruct (IH _ _ A1) as (l & log & L & J & F). exists l, log. auto. }
      destruct K as (l & log & L & J & F).
      destruct (evol_flows5 c e b b' out k s0 s l log) as (d & log' & D & J' & F'); auto; [apply AF; left; auto|apply LT; left; auto|].
      exists (l ++ d), log'. split; [apply lf5_step; auto|auto].
    - destruct ON as [->|(a & A1)]; [discriminate|]. rewrite A0 in A1. discriminate.
  Qed.

  Lemma flow5 c h b k s q t0 uuid p data : brun c h b -> (forall p, In p h -> proper p) -> (forall p, In p h -> after_1970 p) -> (forall p, In p h -> late c p) ->
    aget k (b_tasks b) = Some (TOnline (A5 s)) -> a_disc (A5 s) = false -> made_by h q k -> w_e q = EConnect5 t0 uuid p data -> 0 < rmax5 c p ->
    exists l log, life5 k h l /\ logs5 c l log /\ (few_enough c log -> (exists p, active p log = true) ->
      (exists p, on_its_way wpid5 w5_dup carries5 lifetime5 (cf_inflight_timeout c) p log) \/ just_expired wpid5 log).
  Proof.
    intros R PR AF LT A D Q EQ RP. destruct (flow5_run _ _ _ R PR AF LT _ _ A) as (l & log & L & (rm & amax & ops & F & RU & LG & RM) & FL). exists l, log. split; auto. split; auto. intros FE AC.
    assert (El : log = snd (run5 rm (cf_max_pending c) (cf_inflight_timeout c) amax ops)) by now rewrite RU.
    assert (NR : no_reuse log) by (rewrite El; apply few_no_reuse5; [exact F|now rewrite <- El]).
    pose proof (run5_mrun _ _ _ _ _ _ _ F RU) as MR. pose proof (mrun_inv _ _ _ _ _ _ _ _ _ _ _ MR NR) as I. destruct (mrun_len _ _ _ _ _ _ _ _ _ _ _ MR) as (_ & TE & _).
    assert (SA : sess_at b k = Some (A5 s)) by (unfold sess_at; rewrite A; reflexivity).
    destruct (rmax_from _ _ _ _ _ _ _ _ R SA) as (q' & t0' & uuid' & p' & data' & Q' & E' & X).
    assert (q' = q) by (eapply made_unique; eauto; [rewrite E'|rewrite EQ]; exact Logic.I). subst q'. rewrite E' in EQ. injection EQ as <- <- <- <-.
    destruct (FL D NR) as [MV|JE]; [rewrite <- (OutProofs.i_rm _ _ _ _ _ _ _ I), RM, X; exact RP| |right; exact JE].
    left. rewrite <- TE. eapply moving_log; eauto.
  Qed.

  (** ** MQTT 3: messages do not expire *)
  Lemma pend3_moving t s s' out : pendings3 t s = (s', out) -> 0 < t -> pq_timeout (o3_q (z_out s')) <= t -> 0 < pq_inflight (o3_q (z_out s')) -> moving (pq (o3_q (z_out s'))).
  Proof.
    unfold pendings3. destruct (handle_pendings3 t (z_out s)) as (o, l) eqn:H. intros E. injection E as <- _. cbn [z_out zwith_out]. unfold handle_pendings3 in H.
    set (q0 := clean_complete (o3_q (z_out s))) in *. rewrite (pend_loop_pass (pendings_body3 t) t (pq_timeout q0) q0 tt eq_refl) in H.
    destruct (pass (pendings_body3 t) t (pq_timeout q0) (current_inflight q0) (pq q0) tt) as [[[l1 u] o1] e1] eqn:P. injection H as <- _. cbn [o3_q pq pq_set pq_timeout pq_inflight].
    intros T TO IF. destruct (pq q0) as [|x r] eqn:D.
    - left. destruct (current_inflight q0); cbn in P; injection P as <- _ _ _; reflexivity.
    - pose proof (drop_head _ _ _ D) as X. assert (CI : exists n, current_inflight q0 = S n).
      { unfold current_inflight. rewrite D. cbn [List.length]. exists (Nat.pred (N.to_nat (N.min (pq_inflight q0) (N.of_nat (S (List.length r)))))). lia. }
      destruct CI as (n & CI). rewrite CI in P. cbn [pass] in P. right. destruct (due t (pq_timeout q0) x) eqn:DU.
      + destruct x as [ad la p m d|la p|]; cbn [pendings_body3] in P; [| |discriminate DU]; destruct (pass _ _ _ n r _) as [[[l2 a2] o2] e2]; injection P as <- _ _ _; (eexists; split; [left; reflexivity|]); cbn; lia.
      + destruct (pass _ _ _ n r _) as [[[l2 a2] o2] e2]. injection P as <- _ _ _. exists x. split; [left; reflexivity|]. destruct x as [ad la p m d|la p|]; cbn in *; [apply N.leb_gt in DU; lia|apply N.leb_gt in DU; lia|congruence].
  Qed.

  Lemma normal_zero3 t m s s' r : handle_normal3 t m s = (s', r) -> match r with Some (q, _) => qos_eqb q L0 = true | None => True end -> s' = s.
  Proof.
    assert (K : forall x, recv_publish3 t x s = (s', r) -> match r with Some (q, _) => qos_eqb q L0 = true | None => True end -> s' = s).
    { intros x. unfold recv_publish3. destruct (aget _ _); [|intros E; injection E as <- <-; auto]. destruct (negb (qos_eqb _ L0)) eqn:Q.
      - destruct (out3_push _ _ _). intros E; injection E as <- <-. intros X. rewrite X in Q. discriminate.
      - destruct (negb (z_disc s)); intros E; injection E as <- <-; auto. }
    unfold handle_normal3. destruct m as [m|m]; [apply K|]. destruct (n5_filters m); [intros E; injection E as <- <-; auto|apply K].
  Qed.

  Lemma fields3 c h b k s : brun c h b -> (forall p, In p h -> proper p) -> (forall p, In p h -> after_1970 p) -> sess_at b k = Some (A3 s) ->
    pq_timeout (o3_q (z_out s)) = cf_inflight_timeout c /\ pq_inflight (o3_q (z_out s)) = cf_inflight_client c.
  Proof.
    intros R P T A. destruct (is_run3 _ _ _ _ _ _ _ _ R P T A) as (l & L & S & C). destruct (run_linked3 _ _ _ _ S C) as (ops & log & F & RU & LG).
    pose proof (run3_mrun _ _ _ _ _ _ F RU) as MR. destruct (mrun_len _ _ _ _ _ _ _ _ _ _ _ MR) as (_ & TE & _). split; auto.
    pose proof (OutFacts.run3_rm (cf_inflight_client c) (cf_max_pending c) (cf_inflight_timeout c) ops) as X. rewrite RU in X. exact X.
  Qed.

  Lemma flow3_run c h b : brun c h b -> (forall p, In p h -> proper p) -> (forall p, In p h -> after_1970 p) -> (forall p, In p h -> late c p) -> 0 < cf_inflight_client c ->
    forall k s, aget k (b_tasks b) = Some (TOnline (A3 s)) -> moving (pq (o3_q (z_out s))).
  Proof.
    induction 1 as [|h b e b' out R IH ST]; intros PR AF LT CP k s' A; [discriminate|].
    specialize (IH (fun p I => PR p (or_intror I)) (fun p I => AF p (or_intror I)) (fun p I => LT p (or_intror I)) CP). pose proof (run_good _ _ _ _ _ _ R) as G.
    assert (SA : sess_at b' k = Some (A3 s')) by (unfold sess_at; rewrite A; reflexivity).
    destruct (fields3 c (Past b e out :: h) b' k s') as (TE & IE); auto; [econstructor; eauto|].
    assert (PEND : forall t s o, t = seconds b -> (forall n, e <> ETick n) -> pendings3 t s = (s', o) -> moving (pq (o3_q (z_out s')))).
    { intros t s o -> NT PE. eapply pend3_moving; [exact PE|eapply seconds_pos; [apply AF; left; reflexivity|exact NT]| |lia]. rewrite TE. eapply late_at; [apply LT; left; reflexivity|exact NT]. }
    pose proof (online_before _ _ _ _ _ _ G ST A) as ON.
    destruct (step_evol _ _ _ _ _ _ _ G ST k _ SA) as [(a & A0 & V)|(x & r & o & A0 & E & _)].
    2:{ destruct ON as [->|(a & A1)]; [discriminate|]. rewrite A0 in A1. discriminate. }
    assert (OLD : forall s, a = A3 s -> e <> EStart k -> moving (pq (o3_q (z_out s)))).
    { intros s -> NE. destruct ON as [|(a & A1)]; [contradiction|]. apply (IH k). unfold sess_at in A0. rewrite A1 in A0. injection A0 as ->. exact A1. }
    remember (A3 s') as a' eqn:EA'.
    destruct V as [a ID|len x s1 s2 g o E A1 D PS O|len x s1 s2 g E A1 D PS O|reason s1 s2 p E D ED O|len x s1 s2 g o E A1 D PS O|len x s1 s2 g E A1 D PS O
      |on a a' cs [c0 m] r o E A1 D CH NM|d a bc n E O|s1 s2 o E A1 PE O|s1 s2 o E A1 PE O|a a' b0 b1 ok GB E SW|a E O]; try discriminate EA'.
    - subst a. apply OLD; [reflexivity|]. intros ->. cbn in ID. congruence.
    - injection EA' as ->. subst e. unfold packet_step3 in PS. destruct (handle_packet3 _ _ _ _ _ _) as [s3 g3 o3| |]; try discriminate. destruct (after_packet3 (seconds b) s3) as (s4, o4) eqn:AP. injection PS as <- _ _.
      eapply PEND; [reflexivity|discriminate|exact AP].
    - subst e. cbn [BrokerModel.bstep] in ST. unfold do_packet3 in ST. rewrite A1, D, PS in ST. injection ST as <- _. change (aget k (aset k (TEnd (A3 s2)) (b_tasks (put_glob g b))) = Some (TOnline (A3 s2))) in A. rewrite aget_aset_eq in A. discriminate.
    - subst a' e. destruct a as [s|s]; cbn [snd normal] in NM.
      { destruct (handle_normal5 _ _ _ _) as [s1 [[q pk]|]]; [destruct on; [destruct (if qos_eqb q L0 then _ else _)|]|]; discriminate. }
      destruct (handle_normal3 (seconds b) m s) as [s1 res] eqn:HN.
      assert (Z : match res with Some (q, _) => qos_eqb q L0 = true | None => True end -> A3 s1 = A3 s' -> moving (pq (o3_q (z_out s')))).
      { intros Q X. injection X as <-. rewrite (normal_zero3 _ _ _ _ _ HN Q). apply OLD; [reflexivity|discriminate]. }
      destruct on; [|destruct ON as [|(a & A2)]; [discriminate|rewrite A1 in A2; discriminate]].
      destruct res as [[q pk]|]; [|injection NM as X _; apply Z; [exact Logic.I|now rewrite X]]. destruct (qos_eqb q L0) eqn:Q.
      + injection NM as X _. apply Z; [reflexivity|now rewrite X].
      + destruct (pendings3 (seconds b) s1) as [s2 more] eqn:PE. injection NM as -> _. eapply PEND; [reflexivity|discriminate|exact PE].
    - destruct a as [s|s]; [discriminate|]. injection EA' as <-. subst e. apply (OLD s); [reflexivity|discriminate].
    - injection EA' as ->. subst e. eapply PEND; [reflexivity|discriminate|exact PE].
    - destruct (will_steps3 _ _ _ _ _ _ _ _ _ SW EA') as (s0 & bc & n & X & ->). apply (OLD s0); [exact X|]. destruct E; subst e; discriminate.
    - destruct a as [s|s]; [discriminate|]. injection EA' as <-. subst e. apply (OLD s); [reflexivity|discriminate].
  Qed.

  Lemma flow3 c h b k s : brun c h b -> (forall p, In p h -> proper p) -> (forall p, In p h -> after_1970 p) -> (forall p, In p h -> late c p) -> 0 < cf_inflight_client c ->
    aget k (b_tasks b) = Some (TOnline (A3 s)) ->
    exists l log, life3 k h l /\ logs3 c l log /\ (few_enough c log -> (exists p, active p log = true) ->
      exists p, on_its_way wpid3 w3_dup carries3 lifetime3 (cf_inflight_timeout c) p log).
  Proof.
    intros R PR AF LT CP A. assert (SA : sess_at b k = Some (A3 s)) by (unfold sess_at; rewrite A; reflexivity).
    destruct (is_run3 _ _ _ _ _ _ _ _ R PR AF SA) as (l & L & S & C). destruct (run_linked3 _ _ _ _ S C) as (ops & log & F & RU & LG). exists l, log. split; auto. split; auto. intros FE AC.
    assert (El : log = snd (run3 (cf_inflight_client c) (cf_max_pending c) (cf_inflight_timeout c) ops)) by now rewrite RU.
    assert (NR : no_reuse log) by (rewrite El; apply few_no_reuse3; [exact F|now rewrite <- El]).
    pose proof (run3_mrun _ _ _ _ _ _ F RU) as MR. pose proof (mrun_inv _ _ _ _ _ _ _ _ _ _ _ MR NR) as I. destruct (mrun_len _ _ _ _ _ _ _ _ _ _ _ MR) as (_ & TE & _).
    rewrite <- TE. eapply moving_log; eauto. eapply flow3_run; eauto.
  Qed.
End Broker.
