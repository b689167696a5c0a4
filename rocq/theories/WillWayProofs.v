(** Proofs for WillWayProps. *)
From Coq Require Import List Bool Arith NArith String Lia.
From Verif Require Import Base BaseLemmas TopicModel TopicSpec MsgModel PendingModel OutModel RouteModel RouteSpec RetainModel RetainSpec GlobModel Sess5Model Sess3Model ConnModel
  OutSpec DelivSpec DelivFacts InSpec RegModel BrokerModel
  BrokerSpec FrameProofs CoreProofs BrokerInv TaskMove StepProofs RunProofs RegProofs EvolProofs LifeSpec TabProofs TabInv RouteRun SubsSpec RecvSpec RecordSpec RecordProofs
  AccSpec EndSpec EndProofs GetSpec GetProofs WillWaySpec.
Import ListNotations.
Local Open Scope N_scope.
Local Open Scope list_scope.

Section WillWay.
  Variables (hash5 : wpub5 -> N) (hash3 : wpub3 -> N) (pick : draw -> broker -> string -> string -> N).
  Notation brun := (BrokerSpec.brun hash5 hash3 pick).
  Notation bgo := (BrokerSpec.bgo hash5 hash3 pick).
  Notation bstep := (BrokerModel.bstep hash5 hash3 pick).
  Notation evol := (EvolProofs.evol hash5 hash3 pick).

  (** A step that publishes a will. *)
  Lemma will_move c h b e b' out j w : brun c h b -> bstep e b = BOk b' out -> In w (wills_of j out) ->
    exists a a' b0 b1 ok, sess_at b j = Some a /\ sess_at b' j = Some a' /\ a_will a = Some w /\ aw_ok w = true /\ glob_of b0 = glob_of b /\ send_will pick j a b0 = Some (a', b1, out, ok).
  Proof.
    intros R S W. pose proof (run_good _ _ _ _ _ _ R) as G. pose proof (step_move _ _ _ _ _ _ _ (proj1 G) S j) as M.
    assert (SO : forall a, In w (send_ok a) -> a_will a = Some w /\ aw_ok w = true).
    { intros a. unfold send_ok. destruct (a_will a) as [w0|]; [|intros []]. destruct (aw_ok w0) eqn:K; [|intros []]. intros [<-|[]]. auto. }
    assert (X : exists a a', sess_at b j = Some a /\ sess_at b' j = Some a' /\ aspent a a' /\ In w (send_ok a)).
    { remember (wills_of j out) as ws eqn:WS. clear WS. inversion M; subst; try contradiction; exists a, a'; unfold sess_at; repeat match goal with H : _ = aget _ _ |- _ => rewrite <- H end; auto. }
    destruct X as (a & a' & A & A' & SP & IW). destruct (SO _ IW) as (AW & OK).
    assert (NW : a_will a' = None) by (destruct a, a'; cbn in SP |- *; try contradiction; [destruct SP as (_ & _ & _ & _ & -> & _)|destruct SP as (_ & _ & _ & _ & -> & _)]; reflexivity).
    destruct (step_evol _ _ _ _ _ _ _ G S j a' A') as [(a0 & A0 & V)|(x & r & o & X & _)].
    2:{ unfold sess_at in A. rewrite X in A. discriminate. }
    rewrite A in A0. injection A0 as <-.
    assert (NK : forall l : list bout, out = l -> wills_of j l <> []) by (intros l <- E; rewrite E in W; destruct W).
    destruct V as [a ID|len x s1 s2 g o E A0 D PS O|len x s1 s2 g E A0 D PS O|reason s1 s2 p E D ED O|len x s1 s2 g o E A0 D PS O|len x s1 s2 g E A0 D PS O
      |on a a' cs m r o E A0 D CH NM|d a bc n E O|s1 s2 o E A0 PE O|s1 s2 o E A0 PE O|a a' b0 b1 ok GB E SW|a E O]; try congruence;
      try (exfalso; apply (NK _ O); first [apply wills_map5|apply wills_map3|reflexivity]).
    - exfalso. unfold normal in NM. destruct a as [s|s]; [destruct (handle_normal5 _ _ _ _) as (s1 & [(q & p)|])|destruct (handle_normal3 _ _ _) as (s1 & [(q & p)|])]; destruct on;
        try (injection NM as _ NM; symmetry in NM; apply (NK _ NM); reflexivity).
      + destruct (if qos_eqb q L0 then _ else _) as (s2, more). injection NM as _ NM. symmetry in NM. apply (NK _ NM), wills_map5.
      + destruct (if qos_eqb q L0 then _ else _) as (s2, more). injection NM as _ NM. symmetry in NM. apply (NK _ NM), wills_map3.
    - exists a, a', b0, b1, ok. auto 8.
  Qed.

  (** ** What is queued for a subscriber *)
  Lemma will_made5 c h b e b' out j w : cf_max_qos c <= 2 -> brun c h b -> (forall p, In p h -> proper p) -> bstep e b = BOk b' out -> In (OWill5 j w) out -> valid_topic_name (wl_topic w) ->
    exists s n, sess_at b j = Some (A5 s) /\ s_will s = Some w /\ enc_len5 (will_packet5 w) = Some n /\
      forall k a, sess_at b k = Some a -> not_removed b k -> exists m, on_record c h k a m /\
        forall f q, m f = Some q -> plain f -> topic_matches f (wl_topic w) -> wanted s (a_id a) f ->
          exists y, AccSpec.queued j (a_id a) b b' = [y] /\ nm_topic y = wl_topic w /\ nm_payload y = wl_payload w /\ nm_qos y = wl_qos w /\ In f (nm_filters y) /\
            qos_leb q (nm_sqos y) = true /\ nm_size y = n.
  Proof.
    intros M R P S IW V. assert (W : In (W5 w) (wills_of j out)) by (apply in_flat_map; exists (OWill5 j w); split; [exact IW|cbn; rewrite N.eqb_refl; now left]).
    destruct (will_move _ _ _ _ _ _ _ _ R S W) as (a0 & a0' & b0 & b1 & ok & A & A' & AW & OK & GB & SW). destruct (run_tables _ _ _ _ _ _ R) as (ops & hr & C & RT & _ & AH & _).
    destruct a0 as [s|s]; cbn in AW; [|destruct (z_will s); discriminate]. destruct (s_will s) as [w0|] eqn:WS; [|discriminate]. injection AW as ->.
    cbn in OK. change (match enc_len5 (will_packet5 w) with Some _ => true | None => false end = true) in OK. destruct (enc_len5 (will_packet5 w)) as [n|] eqn:EN; [|discriminate].
    exists s, n. split; auto. split; auto. split; auto.
    unfold send_will in SW. rewrite GB in SW. destruct (send_will5 _ _ _) as [[[s1 g1] ok1]|] eqn:WE; [|discriminate]. injection SW as <- _ _ _.
    unfold send_will5 in WE. rewrite WS in WE. fold (will_packet5 w) in WE. rewrite EN in WE.
    destruct (send_publish5_forwards (pick (DWill j) b0) ops (wl_topic w) (wl_retain w) (wl_qos w) (wl_payload w) (set_alias None (set_subids [] (wl_props w))) n (with_will None s) (glob_of b) RT V)
      as (s2 & g2 & E2 & (FW & _) & _). rewrite E2 in WE. injection WE as <- _ _.
    intros k a AK NR. destruct (recorded _ _ _ _ _ _ _ _ M R P AK) as (m & RC & E). exists m. split; auto. intros f q MF PL MT WT.
    assert (HH : held b k = Some (a_id a, a_subs a)) by exact (held_sess _ _ _ AK NR).
    assert (TH : through (pick (DWill j) b0) ops (with_will None s) (wl_topic w) (a_id a) f q).
    { left. split; [split; auto; split; auto; apply (proj2 (AH _ _ _ HH)); rewrite E; auto|exact WT]. }
    destruct (FW (a_id a)) as (fs & _ & HI & _ & H2). cbn [pm_topic pm_retain pm_qos pm_payload pm_props s_bcast with_will] in *. assert (IF : In f fs) by (apply HI; eauto).
    destruct (H2 ltac:(intros ->; destruct IF) ltac:(eapply held_reachable; eauto)) as (sq & _ & LE & HD).
    eexists. split; [eapply handed_queued; [exact A|exact A'|exact HD]|]. cbn. repeat (split; [reflexivity|]). split; [exact IF|]. split; [|reflexivity]. exact (LE _ _ TH).
  Qed.
  Lemma will_made3 c h b e b' out j w : cf_max_qos c <= 2 -> brun c h b -> (forall p, In p h -> proper p) -> bstep e b = BOk b' out -> In (OWill3 j w) out -> valid_topic_name (wl3_topic w) ->
    exists s n, sess_at b j = Some (A3 s) /\ z_will s = Some w /\ enc_len3 (will_packet3 w) = Some n /\
      forall k a, sess_at b k = Some a -> not_removed b k -> exists m, on_record c h k a m /\
        forall f q, m f = Some q -> plain f -> topic_matches f (wl3_topic w) ->
          exists x1 y x2, AccSpec.queued j (a_id a) b b' = x1 ++ y :: x2 /\ nm_topic y = wl3_topic w /\ nm_payload y = wl3_payload w /\ nm_qos y = wl3_qos w /\ nm_filters y = [f] /\ nm_sqos y = q /\
            nm_size y = n + 1 /\ (forall x, In x (x1 ++ x2) -> nm_topic x = wl3_topic w /\ nm_payload x = wl3_payload w /\ nm_filters x <> [f]).
  Proof.
    intros M R P S IW V. assert (W : In (W3 w) (wills_of j out)) by (apply in_flat_map; exists (OWill3 j w); split; [exact IW|cbn; rewrite N.eqb_refl; now left]).
    destruct (will_move _ _ _ _ _ _ _ _ R S W) as (a0 & a0' & b0 & b1 & ok & A & A' & AW & OK & GB & SW). destruct (run_tables _ _ _ _ _ _ R) as (ops & hr & C & RT & _ & AH & _).
    destruct a0 as [s|s]; cbn in AW; [destruct (s_will s); discriminate|]. destruct (z_will s) as [w0|] eqn:WS; [|discriminate]. injection AW as ->.
    cbn in OK. change (match enc_len3 (will_packet3 w) with Some _ => true | None => false end = true) in OK. destruct (enc_len3 (will_packet3 w)) as [n|] eqn:EN; [|discriminate].
    exists s, n. split; auto. split; auto. split; auto.
    unfold send_will in SW. rewrite GB in SW. destruct (send_will3 _ _) as [[[s1 g1] ok1]|] eqn:WE; [|discriminate]. injection SW as <- _ _ _.
    unfold send_will3 in WE. rewrite WS in WE. fold (will_packet3 w) in WE. rewrite EN in WE.
    destruct (send_publish3_forwards ops (wl3_topic w) (wl3_retain w) (wl3_qos w) (wl3_payload w) n (zwith_will None s) (glob_of b) RT V) as (s2 & g2 & E2 & (FW & _) & _). rewrite E2 in WE. injection WE as <- _ _.
    intros k a AK NR. destruct (recorded _ _ _ _ _ _ _ _ M R P AK) as (m & RC & E). exists m. split; auto. intros f q MF PL MT.
    assert (HH : held b k = Some (a_id a, a_subs a)) by exact (held_sess _ _ _ AK NR).
    assert (PS' : plain_sub ops (wl3_topic w) (a_id a) f q) by (split; auto; split; auto; apply (proj2 (AH _ _ _ HH)); rewrite E; auto).
    destruct (FW (a_id a)) as (es & NDp & HI & _ & H2). cbn [pm_topic pm_retain pm_qos pm_payload pm_props z_bcast zwith_will] in *. specialize (H2 ltac:(eapply held_reachable; eauto)).
    pose proof (proj2 (HI f q) PS') as IE. destruct (in_split _ _ IE) as (e1 & e2 & ->). rewrite map_app in H2. cbn [map] in H2.
    eexists _, _, _. split; [eapply handed_queued; [exact A|exact A'|exact H2]|]. cbn [nm_topic nm_payload nm_qos nm_filters nm_sqos nm_size n3_topic n3_payload n3_qos n3_filter n3_sqos n3_len fst snd].
    repeat (split; [reflexivity|]).
    intros x IX. rewrite <- map_app in IX. apply in_map_iff in IX. destruct IX as ((g0, q0) & <- & IG). cbn [nm_topic nm_payload nm_filters n3_topic n3_payload n3_filter fst snd].
    split; auto. split; auto. intros X. injection X as ->. rewrite map_app in NDp. cbn [map fst] in NDp. apply NoDup_remove_2 in NDp. apply NDp. rewrite <- map_app. apply in_map_iff. exists (f, q0). auto.
  Qed.

  (** ** All of the way *)
  Local Notation gone_through := (gone_through hash5 hash3 pick).
  Lemma will55 c h1 b1 e b2 out h b j w k0 a k r : cf_max_qos c <= 2 -> gone_through c h1 b1 e b2 out h b j (a_id a) -> In (OWill5 j w) out -> valid_topic_name (wl_topic w) ->
    sess_at b1 k0 = Some a -> not_removed b1 k0 -> sess_at b k = Some (A5 r) -> s_id r = a_id a ->
    exists s n m, sess_at b1 j = Some (A5 s) /\ s_will s = Some w /\ enc_len5 (will_packet5 w) = Some n /\ on_record c h1 k0 a m /\
      forall f q, m f = Some q -> plain f -> topic_matches f (wl_topic w) -> wanted s (a_id a) f ->
        exists y lr l1 now live o, life5 k h lr /\ srun5 hash5 c r lr /\ reached5 (a_id a) h j (queued_in j (a_id a) h1 b1) y lr l1 now live o /\
          fate5 hash5 c l1 now y live o (wl_topic w) (wl_payload w) (wl_qos w) n f q.
  Proof.
    intros MQ (R & S & P & WE & h2 & b3 & h3 & a' & G2 & G3 & -> & AJ & QE) IW V AK NR AR ID. pose proof (before_proper _ _ _ _ P) as P1.
    destruct (will_made5 _ _ _ _ _ _ _ _ MQ R P1 S IW V) as (s & n & SJ & SW & EN & MD). destruct (MD _ _ AK NR) as (m & RC & MD'). exists s, n, m. repeat (split; [assumption|]).
    intros f q MF PL MT WT. destruct (MD' f q MF PL MT WT) as (y & Q & Y1 & Y2 & Y3 & Y4 & Y5 & Y6).
    destruct (way5 hash5 hash3 pick c h1 h2 h3 b1 b2 b3 b j k a a' out R G2 G3 AJ QE WE _ [] y [] r S P AR ID Q) as (lr & l1 & now & live & o & LR & SR & RE & FT).
    rewrite app_nil_r in RE. exists y, lr, l1, now, live, o. repeat (split; [assumption|]). rewrite <- Y1, <- Y2, <- Y3, <- Y6. apply FT; auto.
  Qed.
  Lemma will53 c h1 b1 e b2 out h b j w k0 a k r : cf_max_qos c <= 2 -> gone_through c h1 b1 e b2 out h b j (a_id a) -> In (OWill5 j w) out -> valid_topic_name (wl_topic w) ->
    sess_at b1 k0 = Some a -> not_removed b1 k0 -> sess_at b k = Some (A3 r) -> z_id r = a_id a ->
    exists s m, sess_at b1 j = Some (A5 s) /\ s_will s = Some w /\ on_record c h1 k0 a m /\
      forall f q, m f = Some q -> plain f -> topic_matches f (wl_topic w) -> wanted s (a_id a) f ->
        exists y lr l1 now live o, life3 k h lr /\ srun3 hash3 c r lr /\ reached3 (a_id a) h j (queued_in j (a_id a) h1 b1) y lr l1 now live o /\
          fate3 hash3 c l1 now y live o (wl_topic w) (wl_payload w) (wl_qos w) f q.
  Proof.
    intros MQ (R & S & P & WE & h2 & b3 & h3 & a' & G2 & G3 & -> & AJ & QE) IW V AK NR AR ID. pose proof (before_proper _ _ _ _ P) as P1.
    destruct (will_made5 _ _ _ _ _ _ _ _ MQ R P1 S IW V) as (s & n & SJ & SW & EN & MD). destruct (MD _ _ AK NR) as (m & RC & MD'). exists s, m. repeat (split; [assumption|]).
    intros f q MF PL MT WT. destruct (MD' f q MF PL MT WT) as (y & Q & Y1 & Y2 & Y3 & Y4 & Y5 & Y6).
    destruct (way3 hash5 hash3 pick c h1 h2 h3 b1 b2 b3 b j k a a' out MQ R G2 G3 AJ QE WE _ [] y [] r S P AR ID Q) as (lr & l1 & now & live & o & LR & SR & RE & FT).
    rewrite app_nil_r in RE. exists y, lr, l1, now, live, o. repeat (split; [assumption|]). rewrite <- Y1, <- Y2, <- Y3. apply FT; auto.
  Qed.
  Lemma will35 c h1 b1 e b2 out h b j w k0 a k r : cf_max_qos c <= 2 -> gone_through c h1 b1 e b2 out h b j (a_id a) -> In (OWill3 j w) out -> valid_topic_name (wl3_topic w) ->
    sess_at b1 k0 = Some a -> not_removed b1 k0 -> sess_at b k = Some (A5 r) -> s_id r = a_id a ->
    exists s n m, sess_at b1 j = Some (A3 s) /\ z_will s = Some w /\ enc_len3 (will_packet3 w) = Some n /\ on_record c h1 k0 a m /\
      forall f q, m f = Some q -> plain f -> topic_matches f (wl3_topic w) ->
        exists x1 y lr l1 now live o, life5 k h lr /\ srun5 hash5 c r lr /\ reached5 (a_id a) h j (queued_in j (a_id a) h1 b1 ++ x1) y lr l1 now live o /\
          nm_filters y = [f] /\ Forall (fun x => nm_topic x = wl3_topic w /\ nm_payload x = wl3_payload w /\ nm_filters x <> [f]) x1 /\
          fate5 hash5 c l1 now y live o (wl3_topic w) (wl3_payload w) (wl3_qos w) (n + 1) f q.
  Proof.
    intros MQ (R & S & P & WE & h2 & b3 & h3 & a' & G2 & G3 & -> & AJ & QE) IW V AK NR AR ID. pose proof (before_proper _ _ _ _ P) as P1.
    destruct (will_made3 _ _ _ _ _ _ _ _ MQ R P1 S IW V) as (s & n & SJ & SW & EN & MD). destruct (MD _ _ AK NR) as (m & RC & MD'). exists s, n, m. repeat (split; [assumption|]).
    intros f q MF PL MT. destruct (MD' f q MF PL MT) as (x1 & y & x2 & Q & Y1 & Y2 & Y3 & Y4 & Y5 & Y6 & Y7).
    destruct (way5 hash5 hash3 pick c h1 h2 h3 b1 b2 b3 b j k a a' out R G2 G3 AJ QE WE _ x1 y x2 r S P AR ID Q) as (lr & l1 & now & live & o & LR & SR & RE & FT).
    exists x1, y, lr, l1, now, live, o. repeat (split; [assumption|]). split; [apply Forall_forall; intros x IX; apply Y7, in_or_app; auto|].
    rewrite <- Y1, <- Y2, <- Y3, <- Y6. apply FT; [rewrite Y4; now left|rewrite Y5; destruct q; reflexivity].
  Qed.
  Lemma will33 c h1 b1 e b2 out h b j w k0 a k r : cf_max_qos c <= 2 -> gone_through c h1 b1 e b2 out h b j (a_id a) -> In (OWill3 j w) out -> valid_topic_name (wl3_topic w) ->
    sess_at b1 k0 = Some a -> not_removed b1 k0 -> sess_at b k = Some (A3 r) -> z_id r = a_id a ->
    exists s m, sess_at b1 j = Some (A3 s) /\ z_will s = Some w /\ on_record c h1 k0 a m /\
      forall f q, m f = Some q -> plain f -> topic_matches f (wl3_topic w) ->
        exists x1 y lr l1 now live o, life3 k h lr /\ srun3 hash3 c r lr /\ reached3 (a_id a) h j (queued_in j (a_id a) h1 b1 ++ x1) y lr l1 now live o /\
          nm_filters y = [f] /\ Forall (fun x => nm_topic x = wl3_topic w /\ nm_payload x = wl3_payload w /\ nm_filters x <> [f]) x1 /\
          fate3 hash3 c l1 now y live o (wl3_topic w) (wl3_payload w) (wl3_qos w) f q.
  Proof.
    intros MQ (R & S & P & WE & h2 & b3 & h3 & a' & G2 & G3 & -> & AJ & QE) IW V AK NR AR ID. pose proof (before_proper _ _ _ _ P) as P1.
    destruct (will_made3 _ _ _ _ _ _ _ _ MQ R P1 S IW V) as (s & n & SJ & SW & EN & MD). destruct (MD _ _ AK NR) as (m & RC & MD'). exists s, m. repeat (split; [assumption|]).
    intros f q MF PL MT. destruct (MD' f q MF PL MT) as (x1 & y & x2 & Q & Y1 & Y2 & Y3 & Y4 & Y5 & Y6 & Y7).
    destruct (way3 hash5 hash3 pick c h1 h2 h3 b1 b2 b3 b j k a a' out MQ R G2 G3 AJ QE WE _ x1 y x2 r S P AR ID Q) as (lr & l1 & now & live & o & LR & SR & RE & FT).
    exists x1, y, lr, l1, now, live, o. repeat (split; [assumption|]). split; [apply Forall_forall; intros x IX; apply Y7, in_or_app; auto|].
    rewrite <- Y1, <- Y2, <- Y3. apply FT; [rewrite Y4; now left|rewrite Y5; destruct q; reflexivity].
  Qed.
End WillWay.
