(** Proofs for ShareProps. *)
From Coq Require Import List Bool Arith NArith String Lia.
From Verif Require Import Base BaseLemmas TopicModel TopicSpec MsgModel PendingModel OutModel RouteModel RouteSpec RouteInv RouteProps RetainModel RetainSpec GlobModel Sess5Model Sess3Model ConnModel
  OutSpec DelivSpec InSpec LinkSpec CliSpec InFacts DelivLast SubFacts RegModel BrokerModel
  BrokerSpec FrameProofs CoreProofs BrokerInv TaskMove StepProofs RunProofs RegProofs EvolProofs HistProofs LifeSpec TabProofs TabInv RouteRun LifeProofs LifeFacts SubsSpec SubsProofs RecvSpec RecvProofs ReplySpec RecordSpec RecordProofs
  AccSpec AccProofs AccRecv DrainSpec DrainProofs EndSpec EndProofs GroupSpec GroupProofs GetSpec GetProofs ShareSpec.
Import ListNotations.
Local Open Scope N_scope.
Local Open Scope list_scope.

Lemma published_handed hash pick cfg h l w s s' g out d : RecvSpec.published5 hash pick cfg h l w s s' g out -> exists xs, handed (s_bcast s) (s_bcast s') d xs.
Proof.
  intros (now & len & g' & HR & Hd & Hin & E).
  destruct (incoming_result hash pick cfg s l now len w g h HR Hd Hin) as (s1 & g1 & o1 & E1 & PR & _ & TO & _).
  rewrite E in E1. injection E1 as <- <- <-.
  assert (NF : not_forwarded5 s s' g g' -> exists xs, handed (s_bcast s) (s_bcast s') d xs).
  { intros (_ & B & _). exists []. unfold handed. now rewrite B, app_nil_r. }
  destruct PR as [code _ (_ & _ & R) _|T p hh _ _ _ _ _ R _ _|T p _ _ _ _ _ R _ _|T n AC EL _ (FW & _) _ _ _ _ _]; auto.
  destruct (FW d) as (fs & ND & HI & H1 & H2). destruct fs as [|f0 fr] eqn:EF; [exists []; apply H1; now left|].
  assert (DR : reachable g (s_bcast s) d \/ ~ reachable g (s_bcast s) d).
  { unfold reachable. destruct (in_dec N.eq_dec d (g_live g)); [auto|]. destruct (in_dec N.eq_dec d (keys (s_bcast s))); [auto|]. right. tauto. }
  destruct DR as [DR|DR]; [|exists []; apply H1; now right]. destruct (H2 ltac:(discriminate) DR) as (sq & A1 & A2 & A3). eexists. exact A3.
Qed.

Section Share.
  Variables (hash5 : wpub5 -> N) (hash3 : wpub3 -> N) (pick : draw -> broker -> string -> string -> N).
  Local Notation bstep := (bstep hash5 hash3 pick).
  Local Notation brun := (brun hash5 hash3 pick).
  Local Notation bgo := (bgo hash5 hash3 pick).

  Lemma chosen5 c h b j s len w b' out : cf_max_qos c <= 2 -> brun c h b -> (forall p, In p h -> proper p) -> (forall p, In p h -> lossless p) -> sess_at b j = Some (A5 s) -> wf_in5 (IPub w) -> len <= cf_packet_server c ->
    bstep (EPacket5 j len (IPub w)) b = BOk b' out -> (forall code reason, ~ In (OPkt5 j (KDisconnect code reason)) out) ->
    exists l, life5 j h l /\ (forall T, topic_for (cf_alias_max c) l w = Some T -> valid_topic_name T) /\ forall T gr inner sh, topic_for (cf_alias_max c) l w = Some T -> (forall p, w5_qp w = Q2 p -> opener l p = None /\ w5_dup w = false) ->
      offers_group (b_route b) T inner gr sh ->
      topic_matches inner T /\ exists k d ms q q', held b k = Some (d, ms) /\ aget (share_filter gr inner) ms = Some q' /\ In (d, q) (sh_items sh) /\
        (forall d' y, In y (AccSpec.queued j d' b b') -> In (share_filter gr inner) (nm_filters y) -> d' = d) /\
        exists y, AccSpec.queued j d b b' = [y] /\ nm_topic y = T /\ nm_payload y = w5_payload w /\ nm_qos y = qp_qos (w5_qp w) /\ In (share_filter gr inner) (nm_filters y) /\
          qos_leb q (nm_sqos y) = true /\ enc_len5 w = Some (nm_size y).
  Proof.
    intros M R P LO A W LE S ND. destruct (life5_lemma _ _ _ _ _ _ _ _ R P A) as (l & L & SR). destruct (run_tables _ _ _ _ _ _ R) as (ops & hr & C & RT & _ & AH & _ & _ & HE). specialize (HE LO).
    pose proof S as S0. pose proof A as A0.
    cbn [BrokerModel.bstep] in S. unfold do_packet5 in S. unfold sess_at in A. destruct (aget j (b_tasks b)) as [[| | | |[s0|s0]| | | |]|] eqn:AJ; try discriminate. cbn in A. injection A as ->.
    destruct (is_disconnected5 s) eqn:D; [discriminate|]. destruct (packet_step5 _ _ _ _ _ _ _) as [s1 g o|s1 g|] eqn:PS; [| |discriminate].
    2:{ exfalso. unfold packet_step5, handle_packet5 in PS. destruct (_ <? _); [cbn in PS; destruct (after_packet5 _ _); discriminate|]. destruct (handle_publish5 _ _ _ _ _) as [[[? ?] ?]|]; [|discriminate]. destruct (after_packet5 _ _); discriminate. }
    injection S as H0 H1.
    assert (A' : sess_at b' j = Some (A5 s1)).
    { subst b'. unfold sess_at, set_task, set_tasks, set_last, set_lasts. destruct (is_disconnected5 s1); cbn [b_tasks]; rewrite aget_aset, eqb_refl; reflexivity. }
    set (pk := pick (DPacket j (IPub w)) b) in *.
    assert (PB : RecvSpec.published5 hash5 pk c ops l w s s1 (glob_of b) o).
    { exists (seconds b), len, g. split; auto. split; auto. split; [|exact PS]. destruct W as (W1 & W2). exact (conj W1 (conj W2 (conj C (conj RT LE)))). }
    exists l. split; auto.
    assert (UP : is_disconnected5 s1 = false).
    { destruct (c48 hash5 pk c s l (seconds b) len w (glob_of b) ops SR D) as (s3 & g3 & o3 & E3 & Q).
      { destruct W as (W1 & W2). exact (conj W1 (conj W2 (conj C (conj RT LE)))). }
      rewrite PS in E3. injection E3 as <- <- <-. destruct Q as [(Q & _)|(_ & code & (reason & Q) & _)]; auto. exfalso. apply (ND code reason). subst out.
      apply in_map_iff. exists (KDisconnect code reason). split; auto. assert (X : In (KDisconnect code reason) (answers o)) by (rewrite Q; now left). exact (proj1 (proj1 (filter_In _ _ _) X)). }
    split; [intros T HT; exact (published_valid _ _ _ _ _ _ _ _ _ _ _ PB UP HT)|]. intros T gr inner sh HT HQ OG. pose proof (published_valid _ _ _ _ _ _ _ _ _ _ _ PB UP HT) as V. rewrite RT in OG.
    destruct (shared_pick_lemma ops T inner gr sh (pk gr inner) V OG) as (TM & _ & _ & d & q & q1 & E & IS & CU). split; [exact TM|].
    destruct (HE _ _ _ CU) as (k & ms & HH & AG). exists k, d, ms, q, q1. split; [exact HH|]. split; [exact AG|]. split; [exact IS|].
    assert (TH : through pk ops s T d (share_filter gr inner) q) by (right; exists gr, inner, sh; auto).
    destruct (c22_one hash5 pk c ops l w s s1 (glob_of b) o T d _ q PB UP HQ HT TH) as (y & HY & Y1 & Y2 & Y3 & Y4); [eapply held_reachable; eauto|].
    split.
    - intros d' y' IY IF. destruct (published_handed _ _ _ _ _ _ _ _ _ _ d' PB) as (xs & HX). rewrite (handed_queued b b' j d' (A5 s) (A5 s1) xs A0 A' HX) in IY.
      assert (NP : ~ plain (share_filter gr inner)).
      { destruct OG as (ct & I1 & I2 & I3). apply in_aget in I3; [|eapply group_nodup; eauto]. destruct (route_shared_sound_lemma ops T ct inner gr sh V I1 I2 I3) as (f & SI & _).
        rewrite <- (shared_info_share_filter _ _ _ SI). unfold plain. congruence. }
      apply (group_one hash5 pk c ops l w s s1 (glob_of b) o (share_filter gr inner) d' d PB NP); [exists xs, y'; auto|exists [y], y; split; [exact HY|split; [now left|exact Y4]]].
    - destruct (published_cases _ _ _ _ _ _ _ _ _ _ _ _ PB HY) as [?|(T' & n & fs & sq & HT' & EL & EX & _ & _ & _ & A2 & _ & _)]; [discriminate|].
      rewrite HT in HT'. injection HT' as <-. exists y. split; [eapply handed_queued; [exact A0|exact A'|exact HY]|]. repeat (split; [assumption|]). injection EX as ->. cbn [nm_sqos nm_size n5_sqos n5_len]. split; auto. eapply A2; eauto.
  Qed.

  Lemma share5_valid c h1 b1 j s len w b2 out : cf_max_qos c <= 2 -> brun c h1 b1 -> (forall p, In p h1 -> proper p) -> (forall p, In p h1 -> lossless p) -> sess_at b1 j = Some (A5 s) -> wf_in5 (IPub w) -> len <= cf_packet_server c ->
    bstep (EPacket5 j len (IPub w)) b1 = BOk b2 out -> (forall code reason, ~ In (OPkt5 j (KDisconnect code reason)) out) ->
    exists l, life5 j h1 l /\ (forall T, topic_for (cf_alias_max c) l w = Some T -> valid_topic_name T) /\ forall T gr inner sh, topic_for (cf_alias_max c) l w = Some T -> (forall p, w5_qp w = Q2 p -> opener l p = None /\ w5_dup w = false) ->
      offers_group (b_route b1) T inner gr sh ->
      topic_matches inner T /\ exists k d ms q q', held b1 k = Some (d, ms) /\ aget (share_filter gr inner) ms = Some q' /\ In (d, q) (sh_items sh) /\
        (forall d' y, In y (AccSpec.queued j d' b1 b2) -> In (share_filter gr inner) (nm_filters y) -> d' = d) /\
        arrives5 hash5 hash3 pick c h1 b1 j len w b2 out d T (share_filter gr inner) q.
  Proof.
    intros MQ R P LO A W LE S ND. destruct (chosen5 c h1 b1 j s len w b2 out MQ R P LO A W LE S ND) as (l & L & V & H). exists l. split; [exact L|]. split; [exact V|]. intros T gr inner sh HT HQ OG.
    destruct (H T gr inner sh HT HQ OG) as (TM & k & d & ms & q & q' & HH & AG & IS & U & y & Q & Y1 & Y2 & Y3 & Y4 & Y5 & Y6). split; [exact TM|]. exists k, d, ms, q, q'. repeat (split; [assumption|]).
    intros h b k' r (R1 & S1 & P1 & W1 & h2 & b3 & h3 & a' & G2 & G3 & -> & A' & QE) AR ID.
    subst d. destruct (way5 hash5 hash3 pick c h1 h2 h3 b1 b2 b3 b j k' (A5 r) a' out R G2 G3 A' QE W1 _ [] y [] r S P1 AR eq_refl Q) as (lr & l1 & now & live & o & LR & SR & RE & FT).
    rewrite app_nil_r in RE. exists y, lr, l1, now, live, o, (nm_size y). repeat (split; [assumption|]).
    assert (F : fate5 hash5 c l1 now y live o T (w5_payload w) (qp_qos (w5_qp w)) (nm_size y) (share_filter gr inner) q) by (rewrite <- Y1, <- Y2, <- Y3; apply FT; auto).
    split; [exact F|]. intros AF. exact (get5 hash5 _ _ _ _ _ _ _ _ _ _ _ _ _ _ _ _ _ _ _ AF LR SR RE F).
  Qed.
  Lemma share5_lemma c h1 b1 j s len w b2 out : cf_max_qos c <= 2 -> brun c h1 b1 -> (forall p, In p h1 -> proper p) -> (forall p, In p h1 -> lossless p) -> sess_at b1 j = Some (A5 s) -> wf_in5 (IPub w) -> len <= cf_packet_server c ->
    bstep (EPacket5 j len (IPub w)) b1 = BOk b2 out -> (forall code reason, ~ In (OPkt5 j (KDisconnect code reason)) out) ->
    exists l, life5 j h1 l /\ forall T gr inner sh, topic_for (cf_alias_max c) l w = Some T -> (forall p, w5_qp w = Q2 p -> opener l p = None /\ w5_dup w = false) ->
      offers_group (b_route b1) T inner gr sh ->
      topic_matches inner T /\ exists k d ms q q', held b1 k = Some (d, ms) /\ aget (share_filter gr inner) ms = Some q' /\ In (d, q) (sh_items sh) /\
        (forall d' y, In y (AccSpec.queued j d' b1 b2) -> In (share_filter gr inner) (nm_filters y) -> d' = d) /\
        arrives5 hash5 hash3 pick c h1 b1 j len w b2 out d T (share_filter gr inner) q.
  Proof.
    intros MQ R P LO A W LE S ND. destruct (share5_valid c h1 b1 j s len w b2 out MQ R P LO A W LE S ND) as (l & L & _ & H). exists l. auto.
  Qed.
End Share.
