(** Sessions of a broker run: delivery, subscriptions and the routing table, for LifeProps. *)
From Coq Require Import List Bool NArith String Lia.
From Verif Require Import Base BaseLemmas TopicModel TopicSpec MsgModel PendingModel OutModel RouteModel RouteSpec RouteInv RouteProps RetainModel RetainSpec GlobModel Sess5Model Sess3Model ConnModel
  OutSpec DelivSpec InSpec InFacts DelivLast SubFacts LinkSpec LinkProofs LinkProofs3 LinkFacts RegModel BrokerModel
  BrokerSpec FrameProofs CoreProofs BrokerInv TaskMove StepProofs RunProofs RegProofs EvolProofs HistProofs LifeSpec TabProofs TabInv RouteRun LifeProofs LifeFacts SubsSpec SubsProofs RecvSpec ReplySpec RecordSpec.
Import ListNotations.
Local Open Scope N_scope.
Local Open Scope list_scope.

Section Record.
  Variables (hash5 : wpub5 -> N) (hash3 : wpub3 -> N) (pick : draw -> broker -> string -> string -> N).
  Notation bstep := (bstep hash5 hash3 pick).
  Notation brun := (brun hash5 hash3 pick).

  (** ** Sessions are runs *)
  Lemma is_run5 c h b k s : brun c h b -> (forall p, In p h -> proper p) -> (forall p, In p h -> after_1970 p) -> sess_at b k = Some (A5 s) ->
    exists l, life5 k h l /\ srun5 hash5 c s l /\ Forall clocked5 l.
  Proof.
    intros R P T A. destruct (life5_lemma _ _ _ _ _ _ _ _ R P A) as (l & L & S). exists l. split; auto. split; auto. eapply life5_clocked; eauto.
  Qed.
  Lemma is_run3 c h b k s : brun c h b -> (forall p, In p h -> proper p) -> (forall p, In p h -> after_1970 p) -> sess_at b k = Some (A3 s) ->
    exists l, life3 k h l /\ srun3 hash3 c s l /\ Forall clocked3 l.
  Proof.
    intros R P T A. destruct (life3_lemma _ _ _ _ _ _ _ _ R P A) as (l & L & S). exists l. split; auto. split; auto. eapply life3_clocked; eauto.
  Qed.

  Lemma window5 c h b k s q t0 uuid p data : brun c h b -> (forall p, In p h -> proper p) -> (forall p, In p h -> after_1970 p) -> sess_at b k = Some (A5 s) ->
    made_by h q k -> w_e q = EConnect5 t0 uuid p data ->
    exists l log, life5 k h l /\ logs5 c l log /\ (few_enough c log -> N.of_nat (List.length (unacked5 c k h)) <= rmax5 c p).
  Proof.
    intros R P T A Q E. destruct (is_run5 _ _ _ _ _ R P T A) as (l & L & S & C). destruct (s08 _ _ _ _ S C) as (log & G & _ & B). exists l, log. split; auto. split; auto. intros F.
    rewrite <- (life5_inflight _ _ _ _ _ _ _ _ R L). destruct (rmax_from _ _ _ _ _ _ _ _ R A) as (q' & t0' & uuid' & p' & data' & Q' & E' & X).
    assert (q' = q) by (eapply made_unique; eauto; [rewrite E'|rewrite E]; exact Logic.I). subst q'. rewrite E' in E. injection E as <- <- <- <-. rewrite <- X. auto.
  Qed.
  Lemma window3 c h b k s : brun c h b -> (forall p, In p h -> proper p) -> (forall p, In p h -> after_1970 p) -> sess_at b k = Some (A3 s) ->
    exists l log, life3 k h l /\ logs3 c l log /\ (few_enough c log -> N.of_nat (List.length (unacked3 c k h)) <= cf_inflight_client c).
  Proof.
    intros R P T A. destruct (is_run3 _ _ _ _ _ R P T A) as (l & L & S & C). destruct (t08 _ _ _ _ S C) as (log & G & B). exists l, log. split; auto. split; auto. intros F.
    rewrite <- (life3_inflight _ _ _ _ _ _ _ _ R L). auto.
  Qed.


  (** ** Delivery, for every session of a broker run *)
  Lemma order5 c h b k s : brun c h b -> (forall p, In p h -> proper p) -> (forall p, In p h -> after_1970 p) -> sess_at b k = Some (A5 s) -> 
    exists l log, life5 k h l /\ logs5 c l log /\ (few_enough c log -> in_order carries5 (first_sent wpid5 w5_dup log) (queued log) /\
      (no_expiry_event log -> no_early_ack wpid5 w5_dup carries5 lifetime5 (cf_inflight_timeout c) log ->
       exists sent_ones waiting, queued log = sent_ones ++ waiting /\ Forall2 (transmits carries5) (first_sent wpid5 w5_dup log) sent_ones)).
  Proof. intros R P T A. destruct (is_run5 _ _ _ _ _ R P T A) as (l & L & S & C). destruct (s09 _ _ _ _ S C) as (log & G & H). exists l, log. auto. Qed.
  Lemma pids5 c h b k s : brun c h b -> (forall p, In p h -> proper p) -> (forall p, In p h -> after_1970 p) -> sess_at b k = Some (A5 s) -> 
    exists l log, life5 k h l /\ logs5 c l log /\ (forall p, In p (arrivals log) -> 1 <= p <= 65535) /\ (few_enough c log -> no_reuse log).
  Proof. intros R P T A. destruct (is_run5 _ _ _ _ _ R P T A) as (l & L & S & C). destruct (s10 _ _ _ _ S C) as (log & G & H). exists l, log. auto. Qed.
  Lemma again5 c h b k s : brun c h b -> (forall p, In p h -> proper p) -> (forall p, In p h -> after_1970 p) -> sess_at b k = Some (A5 s) -> 
    exists l log, life5 k h l /\ logs5 c l log /\ (few_enough c log -> forall p, exists st, OutSpec.life wpid5 w5_dup carries5 lifetime5 (cf_inflight_timeout c) p log st).
  Proof. intros R P T A. destruct (is_run5 _ _ _ _ _ R P T A) as (l & L & S & C). destruct (s11 _ _ _ _ S C) as (log & G & H). exists l, log. auto. Qed.
  Lemma drops5 c h b k s : brun c h b -> (forall p, In p h -> proper p) -> (forall p, In p h -> after_1970 p) -> sess_at b k = Some (A5 s) -> 0 < cf_max_pending c ->
    exists l log, life5 k h l /\ logs5 c l log /\ (few_enough c log -> forall l1 t p m l2, log = l1 ++ EFull t p m :: l2 ->
     exists a t0 p0 m0 b, l1 = a ++ EQueued t0 p0 m0 :: b /\ active p0 l1 = true /\ cf_max_pending c <= 1 + N.of_nat (List.length (queued b))).
  Proof. intros R P T A X. destruct (is_run5 _ _ _ _ _ R P T A) as (l & L & S & C). destruct (s12_drop _ _ _ _ S C X) as (log & G & H). exists l, log. auto. Qed.
  Lemma order3 c h b k s : brun c h b -> (forall p, In p h -> proper p) -> (forall p, In p h -> after_1970 p) -> sess_at b k = Some (A3 s) -> 
    exists l log, life3 k h l /\ logs3 c l log /\ (few_enough c log -> in_order carries3 (first_sent wpid3 w3_dup log) (queued log) /\
      (no_expiry_event log -> no_early_ack wpid3 w3_dup carries3 lifetime3 (cf_inflight_timeout c) log ->
       exists sent_ones waiting, queued log = sent_ones ++ waiting /\ Forall2 (transmits carries3) (first_sent wpid3 w3_dup log) sent_ones)).
  Proof. intros R P T A. destruct (is_run3 _ _ _ _ _ R P T A) as (l & L & S & C). destruct (t09 _ _ _ _ S C) as (log & G & H). exists l, log. auto. Qed.
  Lemma pids3 c h b k s : brun c h b -> (forall p, In p h -> proper p) -> (forall p, In p h -> after_1970 p) -> sess_at b k = Some (A3 s) -> 
    exists l log, life3 k h l /\ logs3 c l log /\ (forall p, In p (arrivals log) -> 1 <= p <= 65535) /\ (few_enough c log -> no_reuse log).
  Proof. intros R P T A. destruct (is_run3 _ _ _ _ _ R P T A) as (l & L & S & C). destruct (t10 _ _ _ _ S C) as (log & G & H). exists l, log. auto. Qed.
  Lemma again3 c h b k s : brun c h b -> (forall p, In p h -> proper p) -> (forall p, In p h -> after_1970 p) -> sess_at b k = Some (A3 s) -> 
    exists l log, life3 k h l /\ logs3 c l log /\ (few_enough c log -> forall p, exists st, OutSpec.life wpid3 w3_dup carries3 lifetime3 (cf_inflight_timeout c) p log st).
  Proof. intros R P T A. destruct (is_run3 _ _ _ _ _ R P T A) as (l & L & S & C). destruct (t11 _ _ _ _ S C) as (log & G & H). exists l, log. auto. Qed.
  Lemma drops3 c h b k s : brun c h b -> (forall p, In p h -> proper p) -> (forall p, In p h -> after_1970 p) -> sess_at b k = Some (A3 s) -> 0 < cf_max_pending c ->
    exists l log, life3 k h l /\ logs3 c l log /\ (few_enough c log -> forall l1 t p m l2, log = l1 ++ EFull t p m :: l2 ->
     exists a t0 p0 m0 b, l1 = a ++ EQueued t0 p0 m0 :: b /\ active p0 l1 = true /\ cf_max_pending c <= 1 + N.of_nat (List.length (queued b))).
  Proof. intros R P T A X. destruct (is_run3 _ _ _ _ _ R P T A) as (l & L & S & C). destruct (t12_drop _ _ _ _ S C X) as (log & G & H). exists l, log. auto. Qed.
  Lemma expiry5 c h b k s : brun c h b -> (forall p, In p h -> proper p) -> (forall p, In p h -> after_1970 p) -> sess_at b k = Some (A5 s) -> 
    exists l log, life5 k h l /\ logs5 c l log /\ (few_enough c log -> forall l1 t w p l2, log = l1 ++ ESent t (SPub w) :: l2 -> wpid5 w = Some p -> w5_dup w = false ->
     exists t0 m, OutSpec.life wpid5 w5_dup carries5 lifetime5 (cf_inflight_timeout c) p l1 (Waiting t0 m) /\ In (EQueued t0 p m) l1 /\ carries5 t0 t m w /\
       (forall v, lifetime5 m = Some v -> v < 2 ^ 32 -> t - t0 < v /\ pp_expiry (w5_props w) = Some (v - (t - t0))) /\
       (lifetime5 m = None -> pp_expiry (w5_props w) = None)).
  Proof. intros R P T A. destruct (is_run5 _ _ _ _ _ R P T A) as (l & L & S & C). destruct (s14 _ _ _ _ S C) as (log & G & H). exists l, log. auto. Qed.

  (** ** Subscriptions *)
  Lemma aget_qmap m f : aget f (qmap m) = option_map (fun d => so_qos (sd_opts d)) (aget f m).
  Proof. induction m as [|[g v] m IH]; cbn; auto. destruct (String.eqb f g); auto. Qed.
  Lemma held_sess b k a : sess_at b k = Some a -> (forall a', aget k (b_tasks b) <> Some (TOffDrain a' true)) -> held b k = Some (a_id a, a_subs a).
  Proof.
    unfold sess_at, held. destruct (aget k (b_tasks b)) as [t|]; [|discriminate]. destruct t as [| | |a0|a0|a0|a0|a0|a0 []]; cbn; intros E N; try discriminate; injection E as ->; auto. destruct (N a eq_refl).
  Qed.
  Lemma on_record5 c h b k s : brun c h b -> (forall p, In p h -> proper p) -> sess_at b k = Some (A5 s) ->
    exists l, life5 k h l /\ forall f, aget f (a_subs (A5 s)) = subscribed5 l f.
  Proof.
    intros R P A. destruct (life5_lemma _ _ _ _ _ _ _ _ R P A) as (l & L & S). exists l. split; auto. intros f. destruct (run_rec _ _ _ _ S) as (_ & E). cbn [a_subs]. rewrite aget_qmap, <- E. reflexivity.
  Qed.
  Lemma on_record3 c h b k s : cf_max_qos c <= 2 -> brun c h b -> (forall p, In p h -> proper p) -> sess_at b k = Some (A3 s) ->
    exists l, life3 k h l /\ forall f, aget f (a_subs (A3 s)) = subscribed3 c l f.
  Proof.
    intros M R P A. destruct (life3_lemma _ _ _ _ _ _ _ _ R P A) as (l & L & S). exists l. split; auto. intros f. destruct (run3_rec _ _ M _ _ S) as (_ & E). rewrite <- E. reflexivity.
  Qed.

  Lemma routed_in c h b k d m T f q : brun c h b -> held b k = Some (d, m) -> valid_topic_name T -> plain f -> topic_matches f T -> aget f m = Some q -> routes_to (b_route b) T f d q.
  Proof.
    intros R H V P M G. destruct (run_tables _ _ _ _ _ _ R) as (ops & hr & _ & RT & _ & AH & _). destruct (AH _ _ _ H) as (_ & HS). rewrite RT.
    apply (proj1 (C01_route_lookup_exact ops T V)). split; auto. split; auto. apply (HS _ _ G).
  Qed.
  Lemma routed_only c h b T f d q : brun c h b -> (forall p, In p h -> lossless p) -> valid_topic_name T -> routes_to (b_route b) T f d q ->
    plain f /\ topic_matches f T /\ exists k m, held b k = Some (d, m) /\ aget f m = Some q.
  Proof.
    intros R LL V H. destruct (run_tables _ _ _ _ _ _ R) as (ops & hr & _ & RT & _ & _ & _ & _ & HE). rewrite RT in H.
    apply (proj1 (C01_route_lookup_exact ops T V)) in H. destruct H as (P & M & C). split; auto. split; auto. apply (HE LL _ _ _ C).
  Qed.
  Lemma routed_iff c h b k d m T f q : brun c h b -> (forall p, In p h -> lossless p) -> held b k = Some (d, m) -> valid_topic_name T ->
    (routes_to (b_route b) T f d q <-> plain f /\ topic_matches f T /\ aget f m = Some q).
  Proof.
    intros R LL H V. split.
    - intros X. destruct (routed_only _ _ _ _ _ _ _ R LL V X) as (P & M & k' & m' & H' & G). split; auto. split; auto.
      assert (k' = k) by (eapply held_one; eauto; exact (proj1 (run_good _ _ _ _ _ _ R))). subst k'. rewrite H in H'. injection H' as <-. auto.
    - intros (P & M & G). eapply routed_in; eauto.
  Qed.

  Lemma recorded c h b k a : cf_max_qos c <= 2 -> brun c h b -> (forall p, In p h -> proper p) -> sess_at b k = Some a ->
    exists m, on_record c h k a m /\ forall f, aget f (a_subs a) = m f.
  Proof.
    intros M R P A. destruct a as [s|s].
    - destruct (on_record5 _ _ _ _ _ R P A) as (l & L & E). exists (subscribed5 l). split; auto. exists l. auto.
    - destruct (on_record3 _ _ _ _ _ M R P A) as (l & L & E). exists (subscribed3 c l). split; auto. exists l. auto.
  Qed.
  Lemma record_routed c h b k a : cf_max_qos c <= 2 -> brun c h b -> (forall p, In p h -> proper p) -> sess_at b k = Some a -> not_removed b k ->
    exists m, on_record c h k a m /\ forall T f q, valid_topic_name T -> plain f -> topic_matches f T -> m f = Some q -> routes_to (b_route b) T f (a_id a) q.
  Proof.
    intros M R P A N. destruct (recorded _ _ _ _ _ M R P A) as (m & L & E). exists m. split; auto. intros T f q V PL MT SQ. eapply (routed_in c h b k _ (a_subs a)); eauto; [exact (held_sess _ _ _ A N)|]. rewrite E. auto.
  Qed.
  Lemma routed_exact c h b k a : cf_max_qos c <= 2 -> brun c h b -> (forall p, In p h -> proper p) -> (forall p, In p h -> lossless p) -> sess_at b k = Some a -> not_removed b k ->
    exists m, on_record c h k a m /\ forall T f q, valid_topic_name T -> (routes_to (b_route b) T f (a_id a) q <-> plain f /\ topic_matches f T /\ m f = Some q).
  Proof.
    intros M R P LL A N. destruct (recorded _ _ _ _ _ M R P A) as (m & L & E). exists m. split; auto. intros T f q V. rewrite <- E. eapply routed_iff; eauto. exact (held_sess _ _ _ A N).
  Qed.

  (** ** A published message is handed to everyone on record *)
  Lemma held_reachable c h b k d m bc : brun c h b -> held b k = Some (d, m) -> reachable (glob_of b) bc d.
  Proof.
    intros R H. left. cbn [glob_of g_live]. pose proof (i_core _ (proj1 (run_good _ _ _ _ _ _ R))) as K. destruct (held_owner _ _ _ _ H) as (v & i & O).
    destruct (k_reg _ _ _ _ _ K _ _ _ _ O) as (o & A). apply in_list_iff. apply (k_cl _ _ _ _ _ K). congruence.
  Qed.
  Lemma hand5 c h b j s len w b' out : brun c h b -> (forall p, In p h -> proper p) -> sess_at b j = Some (A5 s) -> wf_in5 (IPub w) -> len <= cf_packet_server c ->
    bstep (EPacket5 j len (IPub w)) b = BOk b' out -> (forall code reason, ~ In (OPkt5 j (KDisconnect code reason)) out) ->
    exists l s', life5 j h l /\ sess_at b' j = Some (A5 s') /\ forall T k d m f q,
      topic_for (cf_alias_max c) l w = Some T -> (forall p, w5_qp w = Q2 p -> opener l p = None /\ w5_dup w = false) ->
      held b k = Some (d, m) -> aget f m = Some q -> plain f -> topic_matches f T -> wanted s d f ->
      exists y, handed (s_bcast s) (s_bcast s') d [y] /\ nm_topic y = T /\ nm_payload y = w5_payload w /\ nm_qos y = qp_qos (w5_qp w) /\ In f (nm_filters y).
  Proof.
    intros R P A W LE S ND. destruct (life5_lemma _ _ _ _ _ _ _ _ R P A) as (l & L & SR). destruct (run_tables _ _ _ _ _ _ R) as (ops & hr & C & RT & _ & AH & _).
    cbn [BrokerModel.bstep] in S. unfold do_packet5 in S. unfold sess_at in A. destruct (aget j (b_tasks b)) as [[| | | |[s0|s0]| | | |]|] eqn:AJ; try discriminate. cbn in A. injection A as ->.
    destruct (is_disconnected5 s) eqn:D; [discriminate|]. destruct (packet_step5 _ _ _ _ _ _ _) as [s1 g o|s1 g|] eqn:PS; [| |discriminate].
    2:{ exfalso. unfold packet_step5, handle_packet5 in PS. destruct (_ <? _); [cbn in PS; destruct (after_packet5 _ _); discriminate|]. destruct (handle_publish5 _ _ _ _ _) as [[[? ?] ?]|]; [|discriminate]. destruct (after_packet5 _ _); discriminate. }
    inversion S; subst b' out; clear S. exists l, s1. split; auto. split.
    { unfold sess_at, set_task, set_tasks, set_last, set_lasts. destruct (is_disconnected5 s1); cbn [b_tasks]; rewrite aget_aset, eqb_refl; reflexivity. }
    intros T k d m f q HT HQ HH HG PL M WT.
    assert (UP : is_disconnected5 s1 = false).
    { destruct (c48 hash5 (pick (DPacket j (IPub w)) b) c s l (seconds b) len w (glob_of b) ops SR D) as (s3 & g3 & o3 & E3 & Q).
      { destruct W as (W1 & W2). exact (conj W1 (conj W2 (conj C (conj RT LE)))). }
      rewrite PS in E3. injection E3 as <- <- <-. destruct Q as [(Q & _)|(_ & code & (reason & Q) & _)]; auto. exfalso. apply (ND code reason).
      apply in_map_iff. exists (KDisconnect code reason). split; auto. assert (X : In (KDisconnect code reason) (answers o)) by (rewrite Q; now left). exact (proj1 (proj1 (filter_In _ _ _) X)). }
    eapply (c22_one hash5 (pick (DPacket j (IPub w)) b) c ops l w s s1 (glob_of b) o T d f q); eauto.
    - exists (seconds b), len, g. split; auto. split; auto. split; [|exact PS]. destruct W as (W1 & W2). exact (conj W1 (conj W2 (conj C (conj RT LE)))).
    - left. split; auto. split; auto. split; auto. apply (proj2 (AH _ _ _ HH)). auto.
    - eapply held_reachable; eauto.
  Qed.
  Lemma hand3 c h b j s len w b' out : brun c h b -> (forall p, In p h -> proper p) -> sess_at b j = Some (A3 s) -> wf_in3 (YPub w) -> len <= cf_packet_server c ->
    bstep (EPacket3 j len (YPub w)) b = BOk b' out -> over b' j = false ->
    exists s', sess_at b' j = Some (A3 s') /\ forall k d m f q, (forall p, w3_qp w = Q2 p -> w3_dup w = false) ->
      held b k = Some (d, m) -> aget f m = Some q -> plain f -> topic_matches f (w3_topic w) ->
      exists xs y, handed (z_bcast s) (z_bcast s') d xs /\ In y xs /\ nm_topic y = w3_topic w /\ nm_payload y = w3_payload w /\ nm_qos y = qp_qos (w3_qp w) /\ nm_filters y = [f] /\ nm_sqos y = q.
  Proof.
    intros R P A W LE S ND. destruct (life3_lemma _ _ _ _ _ _ _ _ R P A) as (l & L & SR). destruct (run_tables _ _ _ _ _ _ R) as (ops & hr & C & RT & _ & AH & _).
    cbn [BrokerModel.bstep] in S. unfold do_packet3 in S. unfold sess_at in A. destruct (aget j (b_tasks b)) as [[| | | |[s0|s0]| | | |]|] eqn:AJ; try discriminate. cbn in A. injection A as ->.
    destruct (z_disc s) eqn:D; [discriminate|]. destruct (packet_step3 _ _ _ _ _ _) as [s1 g o|s1 g|] eqn:PS; [| |discriminate]; inversion S; subst b' out; clear S.
    2:{ exfalso. revert ND. unfold over, set_task, set_tasks. cbn [b_tasks]. rewrite aget_aset, eqb_refl. discriminate. }
    exists s1. split.
    { unfold sess_at, set_task, set_tasks, set_last, set_lasts. cbn [b_tasks]. rewrite aget_aset, eqb_refl. reflexivity. }
    intros k d m f q HQ HH HG PL M.
    eapply (c49_v3 hash3 c ops l w s s1 (glob_of b) o d f q); eauto.
    - exists (seconds b), len, g. split; auto. split; auto. split; [|exact PS]. destruct W as (W1 & W2). exact (conj W1 (conj W2 (conj C (conj RT LE)))).
    - split; auto. split; auto. apply (proj2 (AH _ _ _ HH)). auto.
    - eapply held_reachable; eauto.
  Qed.
  Lemma published5 c h b j s len w b' out : cf_max_qos c <= 2 -> brun c h b -> (forall p, In p h -> proper p) -> sess_at b j = Some (A5 s) -> wf_in5 (IPub w) -> len <= cf_packet_server c ->
    bstep (EPacket5 j len (IPub w)) b = BOk b' out -> (forall code reason, ~ In (OPkt5 j (KDisconnect code reason)) out) ->
    exists l s', life5 j h l /\ sess_at b' j = Some (A5 s') /\ forall k a, sess_at b k = Some a -> not_removed b k -> exists m, on_record c h k a m /\
      forall T f q, topic_for (cf_alias_max c) l w = Some T -> (forall p, w5_qp w = Q2 p -> opener l p = None /\ w5_dup w = false) ->
        m f = Some q -> plain f -> topic_matches f T -> wanted s (a_id a) f ->
        exists y, handed (s_bcast s) (s_bcast s') (a_id a) [y] /\ nm_topic y = T /\ nm_payload y = w5_payload w /\ nm_qos y = qp_qos (w5_qp w) /\ In f (nm_filters y).
  Proof.
    intros M R P A W LE S ND. destruct (hand5 _ _ _ _ _ _ _ _ _ R P A W LE S ND) as (l & s' & L & A' & H). exists l, s'. split; auto. split; auto.
    intros k a AK N. destruct (recorded _ _ _ _ _ M R P AK) as (m & RC & E). exists m. split; auto. intros T f q HT HQ MF PL MT WT. apply (H T k (a_id a) (a_subs a) f q); auto; [exact (held_sess _ _ _ AK N)|]. rewrite E. auto.
  Qed.
  Lemma published3 c h b j s len w b' out : cf_max_qos c <= 2 -> brun c h b -> (forall p, In p h -> proper p) -> sess_at b j = Some (A3 s) -> wf_in3 (YPub w) -> len <= cf_packet_server c ->
    bstep (EPacket3 j len (YPub w)) b = BOk b' out -> over b' j = false -> (forall p, w3_qp w = Q2 p -> w3_dup w = false) ->
    exists s', sess_at b' j = Some (A3 s') /\ forall k a, sess_at b k = Some a -> not_removed b k -> exists m, on_record c h k a m /\
      forall f q, m f = Some q -> plain f -> topic_matches f (w3_topic w) ->
        exists xs y, handed (z_bcast s) (z_bcast s') (a_id a) xs /\ In y xs /\ nm_topic y = w3_topic w /\ nm_payload y = w3_payload w /\ nm_qos y = qp_qos (w3_qp w) /\ nm_filters y = [f] /\ nm_sqos y = q.
  Proof.
    intros M R P A W LE S ND HQ. destruct (hand3 _ _ _ _ _ _ _ _ _ R P A W LE S ND) as (s' & A' & H). exists s'. split; auto.
    intros k a AK N. destruct (recorded _ _ _ _ _ M R P AK) as (m & RC & E). exists m. split; auto. intros f q MF PL MT. apply (H k (a_id a) (a_subs a) f q); auto; [exact (held_sess _ _ _ AK N)|]. rewrite E. auto.
  Qed.
End Record.
