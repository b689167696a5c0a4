(** Lemmas for C68: one packet of an MQTT 3 client. *)
From Coq Require Import List Bool String NArith Lia.
From Verif Require Import Base BaseLemmas TopicModel TopicSpec TopicProofs MsgModel PendingModel PendingProofs AliasModel AliasSpec AliasProofs OutModel OutSpec OutFacts
  RouteModel RouteSpec RouteInv RetainModel RetainSpec RetainProofs GlobModel Sess5Model Sess3Model InSpec DelivSpec DelivProofs OfferProofs OriginRoute OriginSpec OriginSess OriginOut OriginPkt.
Import ListNotations.
Local Open Scope N_scope.
Local Open Scope list_scope.

Definition ptaken3 (w : wpub3) (out : list pkt3) : Prop :=
  match w3_qp w with Q0 => True | Q1 i => In (JPuback i) out | Q2 i => In (JPubrec i) out end.
Lemma ack_taken3 w more : ptaken3 w (publish_ack3 (w3_qp w) ++ more).
Proof. unfold ptaken3, publish_ack3. destruct (w3_qp w); cbn; auto. Qed.

Section Client.
  Variable O : string -> string -> string * option N -> qos -> Prop.
  Variable cap : N.
  Variable A : string -> Prop.
  Variable hash3 : wpub3 -> N.
  Notation rc_ok := (rc_ok O). Notation nm_ok := (nm_ok O cap). Notation bcast_ok := (bcast_ok O cap). Notation glob_ok := (glob_ok O cap).
  Notation D := (D O cap A). Notation entry3 := (entry3 O cap A).

  Definition fine3 (x : pkt3) : Prop := match x with JPub w => exists o, D (w3_topic w) (w3_payload w) o (qp_qos (w3_qp w)) | _ => True end.
  Definition ztr (o : out3) (out : list pkt3) (o' : out3) : Prop := Forall entry3 (pq (o3_q o)) -> Forall fine3 out /\ Forall entry3 (pq (o3_q o')).
  Definition subs_ok3 (s : sess3) : Prop := forall f, In f (keys (z_subs s)) -> A f.
  Record step3ok (s : sess3) (out : list pkt3) (s' : sess3) : Prop := {
    y_out : ztr (z_out s) out (z_out s');
    y_subs : subs_ok3 s -> subs_ok3 s';
    y_bcast : bcast_ok (z_bcast s) -> bcast_ok (z_bcast s')
  }.
  Definition no_pub3 (x : pkt3) : Prop := match x with JPub _ => False | _ => True end.
  Lemma ztr_other o out : Forall no_pub3 out -> ztr o out o.
  Proof. intros F E. split; [|exact E]. eapply Forall_impl; [|exact F]. intros [w| | | | | | |]; cbn; tauto. Qed.
  Lemma ztr_trans o1 l1 o2 l2 o3 : ztr o1 l1 o2 -> ztr o2 l2 o3 -> ztr o1 (l1 ++ l2) o3.
  Proof. intros H1 H2 E. destruct (H1 E) as (A1 & A2). destruct (H2 A2) as (B1 & B2). split; [apply Forall_app; auto|exact B2]. Qed.
  Lemma y_refl s out : Forall no_pub3 out -> step3ok s out s.
  Proof. intros F. constructor; auto. now apply ztr_other. Qed.
  Lemma y_trans s1 l1 s2 l2 s3 : step3ok s1 l1 s2 -> step3ok s2 l2 s3 -> step3ok s1 (l1 ++ l2) s3.
  Proof. intros [A1 A2 A3] [B1 B2 B3]. constructor; auto. eapply ztr_trans; eauto. Qed.
  Lemma y_with_out s out o : ztr (z_out s) out o -> step3ok s out (zwith_out o s).
  Proof. intros H. constructor; auto. Qed.
  Lemma ztr_queue f o : (forall q, Forall entry3 (pq q) -> Forall entry3 (pq (fst (f q)))) -> ztr o [] (fst (out3_on_queue f o)).
  Proof. intros H E. unfold out3_on_queue. specialize (H _ E). destruct (f (o3_q o)) as [q b]. split; [constructor|exact H]. Qed.

  Lemma pass3 now timeout : forall n l l' u o e, Forall entry3 l -> pass (pendings_body3 now) now timeout n l tt = (l', u, o, e) -> Forall entry3 l' /\ Forall fine3 (map of_sent3 o).
  Proof.
    induction n as [|n IH]; intros l l' u o e HG.
    { destruct l; intros [= <- <- <- <-]; (split; [exact HG|constructor]). }
    destruct l as [|s r]; cbn [pass].
    { intros [= <- <- <- <-]; (split; [exact HG|constructor]). }
    pose proof (Forall_inv HG) as H1. pose proof (Forall_inv_tail HG) as H2. destruct (due now timeout s).
    - destruct (pendings_body3 now s tt) as [[[s1 u1] o1] e1] eqn:Eb. destruct u1.
      destruct (pass _ now timeout n r tt) as [[[r2 u2] o2] e2] eqn:Ep. intros [= <- <- <- <-].
      destruct (IH _ _ _ _ _ H2 Ep) as (G2 & F2). rewrite map_app. 
      assert (X : entry3 s1 /\ Forall fine3 (map of_sent3 o1)).
      { destruct s as [added last p x dup|last p|]; cbn in Eb; injection Eb as <- <- <-; (split; [try exact H1; try exact Logic.I|cbn; repeat constructor]).
        cbn [fine3 w3_topic w3_payload w3_qp]. rewrite qp_make_qos. exact H1. }
      destruct X. split; [now constructor|apply Forall_app; auto].
    - destruct (pass _ now timeout n r tt) as [[[r2 u2] o2] e2] eqn:Ep. intros [= <- <- <- <-].
      destruct (IH _ _ _ _ _ H2 Ep) as (G2 & H). split; [now constructor|exact H].
  Qed.
  Lemma y_pendings now s : step3ok s (snd (pendings3 now s)) (fst (pendings3 now s)).
  Proof.
    unfold pendings3. destruct (handle_pendings3 now (z_out s)) as [o l] eqn:H. cbn. apply y_with_out. intros E. unfold handle_pendings3 in H.
    rewrite (pend_loop_pass _ now (pq_timeout (clean_complete (o3_q (z_out s)))) _ _ eq_refl) in H.
    destruct (pass _ now _ _ _ tt) as [[[l' u] outs] exps] eqn:Ep. injection H as <- <-. destruct (pass3 _ _ _ _ _ _ _ _ (all_drop entry3 _ E) Ep) as (G & F). auto.
  Qed.

  Lemma recv3_ok now m s s' r : (exists o, O (rp3_topic m) (rp3_payload m) o (rp3_qos m)) -> qos_num (rp3_sqos m) <= cap -> subs_ok3 s -> selects (rp3_filter m) (rp3_topic m) ->
    recv_publish3 now m s = (s', r) -> step3ok s (match r with Some (_, Some k) => [k] | _ => [] end) s' /\ z_subs s' = z_subs s.
  Proof.
    intros (ot & R1) R4 HS SL E. unfold recv_publish3 in E. cbv zeta in E.
    destruct (aget (rp3_filter m) (z_subs s)) as [d|] eqn:G; [|injection E as <- <-; split; [apply y_refl; constructor|reflexivity]].
    assert (HA : A (rp3_filter m)) by (apply HS, in_keys_aget; eauto).
    assert (DD : forall q, q = qos_min (rp3_qos m) (rp3_sqos m) -> D (rp3_topic m) (rp3_payload m) ot q).
    { intros q ->. split; [exists (rp3_qos m); split; [exact R1|apply qmin_l]|]. split; [|eauto]. pose proof (min_le (rp3_qos m) (rp3_sqos m)). lia. }
    destruct (qos_eqb (qos_min (rp3_qos m) (rp3_sqos m)) L0) eqn:Q0; cbn [negb] in E.
    - destruct (negb (z_disc s)); injection E as <- <-; (split; [|reflexivity]); [|apply y_refl; constructor].
      constructor; auto. intros F. split; [|exact F]. constructor; [|constructor]. exists ot. cbn. apply DD. destruct (qos_min _ _); auto; discriminate Q0.
    - destruct (out3_push _ _ _) as [o b] eqn:Z. injection E as <- <-. split; [|reflexivity]. apply y_with_out. intros F. split; [constructor|].
      unfold out3_push in Z. pose proof (fun X => all_push entry3 now (o3_next (z_out s)) (Pub3 (rp3_topic m) (qos_min (rp3_qos m) (rp3_sqos m)) (rp3_retain m) (rp3_payload m)) (o3_q (z_out s)) F X) as H.
      destruct (push_back now _ _ _) as [q b']. injection Z as <- <-. apply H. exists ot. cbn. now apply DD.
  Qed.
  Lemma normal3_ok now m s s' r : nm_ok m -> subs_ok3 s -> handle_normal3 now m s = (s', r) ->
    step3ok s (match r with Some (_, Some k) => [k] | _ => [] end) s'.
  Proof.
    intros M S E. unfold handle_normal3 in E. destruct m as [m|m]; cbn [OriginSess.nm_ok] in M.
    - destruct M as (M1 & M2 & M3 & M4). eapply recv3_ok; [..|exact E]; cbn; eauto.
    - destruct M as (M1 & M2 & M3 & M4 & M5). destruct (n5_filters m) as [|f fs]; [injection E as <- <-; apply y_refl; constructor|].
      pose proof (Forall_inv M5) as M6. eapply recv3_ok; [..|exact E]; cbn; eauto.
  Qed.

  Lemma retained3_ok now f q : is_shared f = false -> qos_num q <= cap -> forall ms s s' out pend, subs_ok3 s ->
    (forall m, In m ms -> rc_ok m /\ topic_matches f (rc_topic m)) -> send_retained3 now f q ms s = (s', out, pend) -> step3ok s out s'.
  Proof.
    intros SH Q. induction ms as [|m ms IH]; intros s s' out pend HS HM E; cbn [send_retained3] in E.
    - injection E as <- <- <-. apply y_refl. constructor.
    - destruct (qos_leb _ _). 2:{ eapply IH; [exact HS| |exact E]. intros; apply HM; now right. }
      destruct (recv_publish3 _ _ _) as [s1 res] eqn:R. destruct (send_retained3 now f q ms s1) as [[s2 out2] p2] eqn:S2.
      destruct (HM m (or_introl eq_refl)) as ((M1 & M2 & M3) & M4).
      destruct (fun X Y Z => recv3_ok now _ _ _ _ X Y HS Z R) as (K & SE); [exists (pr_other (rc_props m)); exact M1|exact Q| |].
      { unfold selects. unfold is_shared in SH. cbn. destruct (shared_info f); [discriminate|]. exact M4. }
      assert (K2 : step3ok s1 out2 s2) by (eapply IH; [unfold subs_ok3; rewrite SE; exact HS|intros; apply HM; now right|exact S2]).
      destruct res as [[q' k]|]; injection E as <- <- <-.
      + destruct k as [k|]; exact (y_trans _ _ _ _ _ K K2).
      + exact (y_trans _ _ _ _ _ K K2).
  Qed.
  Lemma sub_one3_ok now f q s g s' g' code out : cf_max_qos (g_cfg g) = cap -> glob_ok g -> valid_filter f -> A f -> subs_ok3 s ->
    subscribe_one3 now f q s g = Ok3 (s', g', code, out) -> step3ok s out s' /\ glob_ok g' /\ g_cfg g' = g_cfg g.
  Proof.
    intros CQ G V HA HS E. unfold subscribe_one3 in E. destruct (is_shared f) eqn:SH; [discriminate|].
    destruct (max_allowed_qos (g_cfg g)) as [mq|] eqn:MQ; [|discriminate]. apply max_num in MQ.
    set (gr := qos_min q mq) in *. assert (GQ : qos_num gr <= cap) by (pose proof (min_le q mq); subst gr; lia).
    destruct (rt_subscribe _ _ _ _) as (t, p) eqn:R. destruct p; [discriminate|]. pose proof (glob_sub O cap _ _ _ _ _ _ GQ R G) as G1.
    destruct (ret_get_matches (g_retain g) f) as [ms|] eqn:RM; [|discriminate]. set (s1 := zwith_subs _ s) in *.
    assert (HS1 : subs_ok3 s1). { intros f' X. cbn [s1 zwith_subs z_subs] in X. apply in_keys_aset in X. destruct X as [->|X]; auto. }
    assert (HF : step3ok s [] s1) by (constructor; auto; apply ztr_other; constructor).
    destruct (send_retained3 now f gr ms s1) as [[s2 out2] pend] eqn:SR.
    assert (K2 : step3ok s out2 s2).
    { change out2 with ([] ++ out2). eapply y_trans; [exact HF|]. refine (retained3_ok now f gr SH GQ _ _ _ _ _ HS1 _ SR). eapply glob_ret; eauto. }
    destruct pend.
    + pose proof (y_pendings now s2) as KP. destruct (pendings3 now s2) as [s3 out3]. injection E as <- <- <- <-. split; [|split; [exact G1|reflexivity]].
      eapply y_trans; [exact K2|exact KP].
    + injection E as <- <- <- <-. split; [exact K2|split; [exact G1|reflexivity]].
  Qed.
  Lemma sub_all3_ok now : forall fs s g s' g' r, cf_max_qos (g_cfg g) = cap -> glob_ok g -> Forall (fun e => valid_filter (fst e)) fs ->
    (forall f q, In (f, q) fs -> A f) -> subs_ok3 s -> bcast_ok (z_bcast s) ->
    subscribe_all3 now fs s g = (s', g', r) ->
    subs_ok3 s' /\ bcast_ok (z_bcast s') /\ glob_ok g' /\ match r with Ok3 (_, out) => ztr (z_out s) out (z_out s') | _ => ztr (z_out s) [] (z_out s') end.
  Proof.
    induction fs as [|[f q] fs IH]; intros s g s' g' r CQ G V HA HS B E; cbn [subscribe_all3] in E.
    - injection E as <- <- <-. split; [exact HS|]. split; [exact B|]. split; [exact G|]. apply ztr_other. constructor.
    - destruct (subscribe_one3 now f q s g) as [(((s1, g1), code), out1)| |] eqn:E1.
      + destruct (subscribe_all3 now fs s1 g1) as [[s2 g2] r2] eqn:E2. pose proof (Forall_inv V) as V1. pose proof (Forall_inv_tail V) as V2. cbn [fst] in V1.
        destruct (sub_one3_ok _ _ _ _ _ _ _ _ _ CQ G V1 (HA f q (or_introl eq_refl)) HS E1) as ([K1 K2 K3] & G1 & C1).
        destruct (IH s1 g1 s2 g2 r2) as (X1 & X2 & X3 & X4); auto; [congruence|intros f' q' X; apply (HA f' q'); now right|].
        assert (Y : forall out, ztr (z_out s1) out (z_out s2) -> ztr (z_out s) (out1 ++ out) (z_out s2)) by (intros out; apply ztr_trans; exact K1).
        assert (Z : ztr (z_out s1) [] (z_out s2) -> ztr (z_out s) [] (z_out s2)).
        { intros H F. destruct (K1 F) as (_ & F1). apply (H F1). }
        destruct r2 as [[codes out2]| |]; injection E as <- <- <-; auto.
      + injection E as <- <- <-. split; [exact HS|]. split; [exact B|]. split; [exact G|]. apply ztr_other. constructor.
      + injection E as <- <- <-. split; [exact HS|]. split; [exact B|]. split; [exact G|]. apply ztr_other. constructor.
  Qed.
  Lemma unsub_all3_ok : forall fs s g s' g', glob_ok g -> unsubscribe_all3 fs s g = Done (s', g') -> step3ok s [] s' /\ glob_ok g'.
  Proof.
    induction fs as [|f fs IH]; intros s g s' g' G E; cbn [unsubscribe_all3] in E.
    - injection E as <- <-. split; [apply y_refl; constructor|auto].
    - destruct (rt_unsubscribe _ _ _) as (t, p) eqn:R. destruct p; [discriminate|].
      destruct (IH _ _ _ _ (glob_unsub O cap _ _ _ _ _ R G) E) as (K & G1). split; [|exact G1].
      change (@nil pkt3) with (@nil pkt3 ++ []). eapply y_trans; [|exact K]. constructor; auto; [apply ztr_other; constructor|].
      intros HS f' X. apply HS. cbn [zwith_subs z_subs] in X. eapply in_keys_adel_sub; eauto.
  Qed.

  Definition asked3 (len : N) (x : in3) (g : glob) (out : list pkt3) : Prop :=
    match x with
    | YPub w => len <= cf_packet_server (g_cfg g) -> ptaken3 w out -> starts_with_dollar (w3_topic w) = false ->
       w3_dup w = false \/ (exists i, w3_qp w = Q1 i) -> O (w3_topic w) (w3_payload w) bare (qp_qos (w3_qp w))
    | YSub _ fs => forall f q, In (f, q) fs -> A f
    | _ => True
    end.
  Record pkt3ok (s : sess3) (out : list pkt3) (s' : sess3) (g' : glob) : Prop := {
    i_out : ztr (z_out s) out (z_out s');
    i_subs : subs_ok3 s';
    i_bcast : bcast_ok (z_bcast s');
    i_glob : glob_ok g'
  }.
  Lemma of_step3 s out s' g' : step3ok s out s' -> glob_ok g' -> bcast_ok (z_bcast s) -> subs_ok3 s -> pkt3ok s out s' g'.
  Proof. intros [K1 K2 K3] G B S. constructor; auto. Qed.
  Lemma handle3_ok now len x s g s' g' out more : wf_in3 x -> cf_max_qos (g_cfg g) = cap -> glob_ok g -> bcast_ok (z_bcast s) -> subs_ok3 s -> asked3 len x g (out ++ more) ->
    handle_packet3 hash3 now len x s g = Go3 s' g' out -> pkt3ok s out s' g'.
  Proof.
    intros W CQ G B HS HA E. unfold handle_packet3 in E. destruct (N.ltb_spec (cf_packet_server (g_cfg g)) len) as [LT|LE]; [discriminate|].
    destruct x as [w|p|p|p|p|p fs|p fs| | |].
    - destruct (handle_publish3 _ _ _ _) as [((s1, g1), out1)| |] eqn:HP; [|discriminate..]. injection E as <- <- <-. unfold handle_publish3 in HP.
      destruct (String.eqb_spec (w3_topic w) ""); [discriminate|]. destruct (starts_with_dollar (w3_topic w)) eqn:SD; [discriminate|].
      destruct (is_q0 (w3_qp w) && w3_dup w) eqn:Q0; [discriminate|]. cbv zeta in HP.
      assert (CQ2 : forall s2, match w3_qp w with
        | Q2 p => match aget p (z_qos2 s) with
                  | Some h' => if negb (hash3 w =? h') then None else if negb (w3_dup w) then None else Some s
                  | None => Some (zwith_qos2 (aset p (hash3 w) (z_qos2 s)) s) end
        | _ => Some s end = Some s2 -> exists q, s2 = zwith_qos2 q s).
      { intros s2. assert (X : s = zwith_qos2 (z_qos2 s) s) by now destruct s. destruct (w3_qp w); [intros [= <-]; eexists; exact X..|].
        destruct (aget _ _); [destruct (negb _); [discriminate|destruct (negb _); [discriminate|]]|]; intros [= <-]; [eexists; exact X|eexists; reflexivity]. }
      destruct (match w3_qp w with Q2 p => _ | _ => Some s end) as [s2|]; [|discriminate]. destruct (CQ2 s2 eq_refl) as (q & ->).
      destruct (w3_dup w && is_q2 (w3_qp w)) eqn:DQ.
      + injection HP as <- <- <-. constructor; auto. apply ztr_other. unfold publish_ack3. destruct (w3_qp w); repeat constructor.
      + destruct (enc_len3 w) as [ln|]; [|discriminate]. destruct (send_publish3 _ _ _) as [(s3, g3)|] eqn:SP; [|discriminate]. injection HP as <- <- <-.
        assert (DP : w3_dup w = false \/ (exists i, w3_qp w = Q1 i)) by (destruct (w3_qp w) as [|i|i], (w3_dup w); try discriminate Q0; try discriminate DQ; eauto).
        destruct (send3_ok O cap (SendPub3 (w3_topic w) (w3_retain w) (qp_qos (w3_qp w)) (w3_payload w) ln) (zwith_qos2 q s) g s3 g3 G B
          (HA LE (ack_taken3 w more) SD DP) n (proj1 W) SP) as (G3 & B3 & E3).
        rewrite E3. constructor; auto. apply ztr_other. unfold publish_ack3. destruct (w3_qp w); repeat constructor.
    - injection E as <- <- <-. apply of_step3; auto. apply y_with_out, ztr_queue. intros q H. now apply all_complete.
    - injection E as <- <- <-. apply of_step3; auto. apply y_with_out. change [JPubrel p] with ([] ++ [JPubrel p]).
      eapply ztr_trans; [apply ztr_queue|apply ztr_other; repeat constructor]. intros q Q. now apply all_pubrec.
    - unfold handle_pubrel3 in E. destruct (aget p (z_qos2 s)); [|discriminate]. injection E as <- <- <-. apply of_step3; auto. constructor; auto. apply ztr_other; repeat constructor.
    - injection E as <- <- <-. apply of_step3; auto. apply y_with_out, ztr_queue. intros q H. now apply all_complete.
    - unfold handle_subscribe3 in E. destruct (subscribe_all3 now fs s g) as [[s1 g1] r] eqn:SA.
      destruct (sub_all3_ok _ _ _ _ _ _ _ CQ G W HA HS B SA) as (X1 & X2 & X3 & X4). destruct r as [[codes out1]| |]; [|discriminate..]. injection E as <- <- <-.
      constructor; auto. eapply ztr_trans; [exact X4|]. apply ztr_other; repeat constructor.
    - unfold handle_unsubscribe3 in E. destruct (unsubscribe_all3 fs s g) as [(s1, g1)|] eqn:UA; [|discriminate]. injection E as <- <- <-.
      destruct (unsub_all3_ok _ _ _ _ _ G UA) as (K & G1). apply of_step3; auto. change [JUnsuback p] with ([] ++ [JUnsuback p]).
      eapply y_trans; [exact K|]. apply y_refl; repeat constructor.
    - injection E as <- <- <-. apply of_step3; auto. apply y_refl; repeat constructor.
    - injection E as <- <- <-. apply of_step3; auto. constructor; auto. apply ztr_other; constructor.
    - discriminate.
  Qed.
  Lemma packet3_ok now len x s g s' g' out : wf_in3 x -> cf_max_qos (g_cfg g) = cap -> glob_ok g -> bcast_ok (z_bcast s) -> subs_ok3 s -> asked3 len x g out ->
    packet_step3 hash3 now len x s g = Go3 s' g' out -> pkt3ok s out s' g'.
  Proof.
    intros W CQ G B HS HA E. unfold packet_step3 in E. destruct (handle_packet3 _ now len x s g) as [s1 g1 out1| |] eqn:HP; [|discriminate..].
    unfold after_packet3 in E. pose proof (y_pendings now (zwith_last now s1)) as K. destruct (pendings3 now _) as [s2 out2]. cbn [fst snd] in K. injection E as <- <- <-.
    destruct (handle3_ok now len x s g s1 g1 out1 out2 W CQ G B HS HA HP) as [K1 K2 K3 K4]. destruct K as [L1 L2 L3].
    constructor; [eapply ztr_trans; [exact K1|exact L1]|apply L2, K2|apply L3, K3|exact K4].
  Qed.
  Lemma stop3_ok now len x s g s' g' : wf_in3 x -> cf_max_qos (g_cfg g) = cap -> glob_ok g -> bcast_ok (z_bcast s) -> subs_ok3 s ->
    match x with YSub _ fs => forall f q, In (f, q) fs -> A f | _ => True end ->
    packet_step3 hash3 now len x s g = Stop3 s' g' -> pkt3ok s [] s' g'.
  Proof.
    intros W CQ G B HS HA E. unfold packet_step3 in E.
    assert (R : pkt3ok s [] s g) by (apply of_step3; auto; apply y_refl; constructor).
    destruct (handle_packet3 _ now len x s g) as [s1 g1 out1|s1 g1|] eqn:HP; [destruct (after_packet3 _ _); discriminate| |discriminate]. injection E as <- <-.
    unfold handle_packet3 in HP. destruct (_ <? _); [injection HP as <- <-; exact R|].
    destruct x as [w|p|p|p|p|p fs|p fs| | |].
    - destruct (handle_publish3 _ _ _ _) as [((s2, g2), out2)| |]; [discriminate| |discriminate]. injection HP as <- <-. exact R.
    - discriminate.
    - discriminate.
    - destruct (handle_pubrel3 p s) as [(s2, k)|]; [discriminate|]. injection HP as <- <-. exact R.
    - discriminate.
    - unfold handle_subscribe3 in HP. destruct (subscribe_all3 now fs s g) as [[s2 g2] r] eqn:SA.
      destruct (sub_all3_ok _ _ _ _ _ _ _ CQ G W HA HS B SA) as (X1 & X2 & X3 & X4). destruct r as [[codes out2]| |]; [discriminate| |discriminate]. injection HP as <- <-.
      constructor; auto.
    - destruct (handle_unsubscribe3 p fs s g) as [((s2, g2), out2)|]; discriminate.
    - discriminate.
    - discriminate.
    - injection HP as <- <-. exact R.
  Qed.
End Client.
