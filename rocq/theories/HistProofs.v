(** Runs of the broker: where connections get their sessions and their subscriptions from. *)
From Coq Require Import List Bool NArith String Lia.
From Verif Require Import Base BaseLemmas TopicModel MsgModel PendingModel OutModel RouteModel RetainModel GlobModel Sess5Model Sess3Model ConnModel
  InProofs InRun InRun3 SubFacts RegModel BrokerModel
  BrokerSpec FrameProofs CoreProofs BrokerInv TaskMove StepProofs RunProofs RegProofs TimeProofs WillProofs KeepProofs EvolProofs.
Import ListNotations.
Local Open Scope N_scope.

(** ** Filters held by a session after a packet *)
Lemma sub_one_keys now id f o s g s' g' code out : subscribe_one now id f o s g = Done (s', g', code, out) ->
  forall y, In y (keys (s_subs s')) -> y = f \/ In y (keys (s_subs s)).
Proof.
  unfold subscribe_one. destruct (max_allowed_qos _); [|discriminate]. destruct (_ <? 0x80).
  2:{ intros E. injection E as <- _ _ _. auto. }
  destruct (rt_subscribe _ _ _ _) as (t, p). destruct p; [discriminate|].
  assert (K : forall v y, In y (keys (aset f v (s_subs s))) -> y = f \/ In y (keys (s_subs s))) by (intros v y H; apply in_keys_aset in H; tauto).
  destruct (_ && _).
  2:{ intros E. injection E as <- _ _ _. cbn. eauto. }
  destruct (ret_get_matches _ _); [|discriminate].
  destruct (send_retained _ _ _ _ _) as ((s2, k), pe) eqn:S. apply retained_frame in S. destruct S as ((oo & ->) & _).
  destruct pe.
  - destruct (pendings5 now _) as (s3, k2) eqn:Q. apply pendings_frame in Q. destruct Q as (oo2 & ->).
    intros E. injection E as <- _ _ _. cbn. eauto.
  - intros E. injection E as <- _ _ _. cbn. eauto.
Qed.
Lemma sub_all_keys now id fs : forall s g s' g' codes out, subscribe_all now id fs s g = Done (s', g', codes, out) ->
  forall y, In y (keys (s_subs s')) -> In y (map fst fs) \/ In y (keys (s_subs s)).
Proof.
  induction fs as [|(f, o) fs IH]; intros s g s' g' codes out; cbn [subscribe_all]; [intros E; injection E as <- _ _ _; auto|].
  destruct (subscribe_one now id f o s g) as [(((s1, g1), c1), k1)|] eqn:S1; [|discriminate].
  destruct (subscribe_all now id fs s1 g1) as [(((s2, g2), c2), k2)|] eqn:S2; [|discriminate].
  intros E y Y. injection E as <- _ _ _. destruct (IH _ _ _ _ _ _ S2 _ Y) as [X|X]; [left; right; auto|].
  destruct (sub_one_keys _ _ _ _ _ _ _ _ _ _ S1 _ X) as [->|Z]; auto. left; left; auto.
Qed.
Lemma adel_keys {V} f y (l : list (string * V)) : In y (keys (adel f l)) -> In y (keys l).
Proof. apply in_keys_adel_sub. Qed.
Lemma unsub_all_keys fs : forall s g s' g' codes, unsubscribe_all fs s g = Done (s', g', codes) -> forall y, In y (keys (s_subs s')) -> In y (keys (s_subs s)).
Proof.
  induction fs as [|f fs IH]; intros s g s' g' codes; cbn [unsubscribe_all]; [intros E; injection E as <- _ _; auto|].
  destruct (rt_unsubscribe _ _ _) as (t, p). destruct p; [discriminate|].
  destruct (unsubscribe_all fs _ _) as [((s2, g2), c2)|] eqn:S2; [|discriminate].
  intros E y Y. injection E as <- _ _. apply (IH _ _ _ _ _ S2) in Y. cbn in Y. eapply adel_keys; eauto.
Qed.
Lemma packet5_keys hash pick now len x s g : match packet_step5 hash pick now len x s g with
  | Go s' _ _ | Stop s' _ => forall y, In y (keys (s_subs s')) -> In y (keys (s_subs s)) \/ exists p id fs, x = ISub p id fs /\ In y (map fst fs)
  | Crash => True
  end.
Proof.
  unfold packet_step5. assert (HP : match handle_packet5 hash pick now len x s g with
  | Go s' _ _ | Stop s' _ => forall y, In y (keys (s_subs s')) -> In y (keys (s_subs s)) \/ exists p id fs, x = ISub p id fs /\ In y (map fst fs)
  | Crash => True
  end).
  { unfold handle_packet5. destruct (_ <? len); [cbn; auto|]. destruct x.
    - destruct (handle_publish5 hash pick w s g) as [((s3, g3), o3)|] eqn:P; auto. apply publish5_frame in P. destruct P as ((_ & _ & ->) & _). auto.
    - auto.
    - unfold handle_pubrec5. destruct (out5_on_queue _ _). auto.
    - unfold handle_pubrel5. destruct (aget p _); auto.
    - auto.
    - unfold handle_subscribe5.
      assert (C : forall P0, match (match (if negb (cf_subid (g_cfg g)) && P0
           then Done (s, g, [KSuback p (map (fun _ => RC_subid_not_supported) fs)])
           else match subscribe_all now id fs s g with
                | Done (s', g', codes, out) => Done (s', g', (out ++ [KSuback p codes])%list)
                | Panic => Panic end) with Done (s', g', out) => Go s' g' out | Panic => Crash end) with
           | Go s' _ _ | Stop s' _ => forall y, In y (keys (s_subs s')) -> In y (keys (s_subs s)) \/ exists p0 id0 fs0, ISub p id fs = ISub p0 id0 fs0 /\ In y (map fst fs0)
           | Crash => True end).
      { intros P0. destruct (_ && _); auto. destruct (subscribe_all now id fs s g) as [(((s4, g4), c4), k4)|] eqn:SA; auto.
        intros y Y. destruct (sub_all_keys _ _ _ _ _ _ _ _ _ SA _ Y) as [X|X]; auto. right. exists p, id, fs. auto. }
      destruct id as [[|i]|]; [cbn; auto|apply C|apply C].
    - unfold handle_unsubscribe5. destruct (unsubscribe_all fs s g) as [((s3, g3), c3)|] eqn:U; auto. intros y Y. left. eapply unsub_all_keys; eauto.
    - auto.
    - destruct (handle_disconnect5 code expiry s) as (s3, o3) eqn:P. apply disconnect5_frame in P. destruct P as ((_ & _ & ->) & _). auto.
    - auto. }
  destruct (handle_packet5 hash pick now len x s g) as [s1 g1 o1|s1 g1|]; auto.
  destruct (after_packet5 now s1) as (s2, o2) eqn:A. apply after_frame in A. destruct A as ((oo & tt & ->) & _). exact HP.
Qed.
Lemma sub_one3_keys now f q s g s' g' code out : subscribe_one3 now f q s g = Ok3 (s', g', code, out) ->
  forall y, In y (keys (z_subs s')) -> y = f \/ In y (keys (z_subs s)).
Proof.
  unfold subscribe_one3. destruct (is_shared f); [discriminate|]. destruct (max_allowed_qos _); [|discriminate].
  destruct (rt_subscribe _ _ _ _) as (t, p). destruct p; [discriminate|].
  assert (K : forall v y, In y (keys (aset f v (z_subs s))) -> y = f \/ In y (keys (z_subs s))) by (intros v y H; apply in_keys_aset in H; tauto).
  destruct (ret_get_matches _ _); [|discriminate].
  destruct (send_retained3 _ _ _ _ _) as ((s2, k), pe) eqn:S. apply retained3_frame in S. destruct S as ((oo & ->) & _).
  destruct pe.
  - destruct (pendings3 now _) as (s3, k2) eqn:Q. apply pendings3_frame in Q. destruct Q as ((oo2 & ->) & _).
    intros E. injection E as <- _ _ _. cbn. eauto.
  - intros E. injection E as <- _ _ _. cbn. eauto.
Qed.
Lemma sub_all3_keys now fs : forall s g s' g' r, subscribe_all3 now fs s g = (s', g', r) ->
  forall y, In y (keys (z_subs s')) -> In y (map fst fs) \/ In y (keys (z_subs s)).
Proof.
  induction fs as [|(f, q) fs IH]; intros s g s' g' r; cbn [subscribe_all3]; [intros E; injection E as <- _ _; auto|].
  destruct (subscribe_one3 now f q s g) as [(((s1, g1), c1), k1)| |] eqn:S1; try (intros E; injection E as <- _ _; auto).
  destruct (subscribe_all3 now fs s1 g1) as ((s2, g2), r2) eqn:S2.
  intros E y Y. assert (s' = s2) as -> by (destruct r2 as [(?, ?)| |]; now injection E).
  destruct (IH _ _ _ _ _ S2 _ Y) as [X|X]; [left; right; auto|].
  destruct (sub_one3_keys _ _ _ _ _ _ _ _ _ S1 _ X) as [->|Z]; auto. left; left; auto.
Qed.
Lemma unsub_all3_keys fs : forall s g s' g', unsubscribe_all3 fs s g = Done (s', g') -> forall y, In y (keys (z_subs s')) -> In y (keys (z_subs s)).
Proof.
  induction fs as [|f fs IH]; intros s g s' g'; cbn [unsubscribe_all3]; [intros E; injection E as <- _; auto|].
  destruct (rt_unsubscribe _ _ _) as (t, p). destruct p; [discriminate|].
  intros E y Y. apply (IH _ _ _ _ E) in Y. cbn in Y. eapply adel_keys; eauto.
Qed.
Lemma packet3_keys hash now len x s g : match packet_step3 hash now len x s g with
  | Go3 s' _ _ | Stop3 s' _ => forall y, In y (keys (z_subs s')) -> In y (keys (z_subs s)) \/ exists p fs, x = YSub p fs /\ In y (map fst fs)
  | Crash3 => True
  end.
Proof.
  unfold packet_step3. assert (HP : match handle_packet3 hash now len x s g with
  | Go3 s' _ _ | Stop3 s' _ => forall y, In y (keys (z_subs s')) -> In y (keys (z_subs s)) \/ exists p fs, x = YSub p fs /\ In y (map fst fs)
  | Crash3 => True
  end).
  { unfold handle_packet3. destruct (_ <? len); [auto|]. destruct x.
    - destruct (handle_publish3 hash w s g) as [((s3, g3), o3)| |] eqn:P; auto. apply publish3_frame in P. destruct P as ((_ & _ & ->) & _). auto.
    - auto.
    - unfold handle_pubrec3. destruct (out3_on_queue _ _). auto.
    - unfold handle_pubrel3. destruct (aget p _); auto.
    - auto.
    - unfold handle_subscribe3. destruct (subscribe_all3 now fs s g) as ((s4, g4), r4) eqn:SA.
      assert (C : forall y, In y (keys (z_subs s4)) -> In y (keys (z_subs s)) \/ exists p0 fs0, YSub p fs = YSub p0 fs0 /\ In y (map fst fs0)).
      { intros y Y. destruct (sub_all3_keys _ _ _ _ _ _ _ SA _ Y) as [X|X]; auto. right. exists p, fs. auto. }
      destruct r4 as [[codes o]| |]; auto.
    - unfold handle_unsubscribe3. destruct (unsubscribe_all3 fs s g) as [(s3, g3)|] eqn:U; auto. intros y Y. left. eapply unsub_all3_keys; eauto.
    - auto.
    - auto.
    - auto. }
  destruct (handle_packet3 hash now len x s g) as [s1 g1 o1|s1 g1|]; auto.
  destruct (after_packet3 now s1) as (s2, o2) eqn:A. apply after3_frame in A. destruct A as ((oo & tt & ->) & _). exact HP.
Qed.
Lemma will_subs pick k a b a' b' out ok : send_will pick k a b = Some (a', b', out, ok) -> a_filters a' = a_filters a.
Proof.
  unfold send_will. destruct a as [s|s].
  - unfold send_will5. destruct (s_will s) as [w|]; [|intros H; inversion H; auto]. destruct (enc_len5 _); [|intros H; inversion H; auto].
    destruct (send_publish5 _ _ _ _) as [[[s2 g2] n2]|] eqn:P; [|discriminate]. apply send_publish5_frame in P. destruct P as ((bc & kk & ->) & _). intros H; inversion H; auto.
  - unfold send_will3. destruct (z_will s) as [w|]; [|intros H; inversion H; auto]. destruct (enc_len3 _); [|intros H; inversion H; auto].
    destruct (send_publish3 _ _ _) as [[s2 g2]|] eqn:P; [|discriminate]. apply send_publish3_frame in P. destruct P as ((bc & kk & ->) & _). intros H; inversion H; auto.
Qed.
Lemma normal_subs now c k on m a a' out : normal now c k on m a = (a', out) -> a_filters a' = a_filters a.
Proof.
  unfold normal. destruct a as [s|s].
  - destruct (handle_normal5 now c m s) as [s1 r] eqn:HN. apply normal_frame in HN. destruct HN as (o & ->).
    destruct r as [[q p]|]; [destruct on; [destruct (qos_eqb q L0)|]|]; try (intros H; inversion H; subst; auto; fail).
    destruct (pendings5 now _) as [s2 more] eqn:P. apply pendings_frame in P. destruct P as (o2 & ->). intros H; inversion H; auto.
  - destruct (handle_normal3 now m s) as [s1 r] eqn:HN. apply normal3_frame in HN. destruct HN as (o & ->).
    destruct r as [[q p]|]; [destruct on; [destruct (qos_eqb q L0)|]|]; try (intros H; inversion H; subst; auto; fail).
    destruct (pendings3 now _) as [s2 more] eqn:P. apply pendings3_frame in P. destruct P as ((o2 & ->) & _). intros H; inversion H; auto.
Qed.
Lemma normal_clean now c k on m a a' out : normal now c k on m a = (a', out) -> match a, a' with A5 s, A5 s' => s_clean s' = s_clean s | A3 s, A3 s' => z_clean s' = z_clean s | _, _ => False end.
Proof.
  unfold normal. destruct a as [s|s].
  - destruct (handle_normal5 now c m s) as [s1 r] eqn:HN. apply normal_frame in HN. destruct HN as (o & ->).
    destruct r as [[q p]|]; [destruct on; [destruct (qos_eqb q L0)|]|]; try (intros H; inversion H; subst; auto; fail).
    destruct (pendings5 now _) as [s2 more] eqn:P. apply pendings_frame in P. destruct P as (o2 & ->). intros H; inversion H; auto.
  - destruct (handle_normal3 now m s) as [s1 r] eqn:HN. apply normal3_frame in HN. destruct HN as (o & ->).
    destruct r as [[q p]|]; [destruct on; [destruct (qos_eqb q L0)|]|]; try (intros H; inversion H; subst; auto; fail).
    destruct (pendings3 now _) as [s2 more] eqn:P. apply pendings3_frame in P. destruct P as ((o2 & ->) & _). intros H; inversion H; auto.
Qed.
(** A message for filters the session does not hold is dropped. *)
Lemma filters_none subs fs : (forall f, In f fs -> aget f subs = None) -> forall acc, fold_left (fun acc f =>
      let '(has, rap, ids) := acc in
      match aget f subs with
      | None => acc
      | Some sub =>
          let rap' := rap || so_rap (sd_opts sub) in
          match sd_id sub with
          | Some i => (true, rap', if existsb (N.eqb i) ids then ids else (ids ++ [i])%list)
          | None => (true, rap', ids)
          end
      end) fs acc = acc.
Proof.
  induction fs as [|f fs IH]; intros H [[has rap] ids]; cbn; auto. rewrite (H f (or_introl eq_refl)). apply IH. intros y Y. apply H. right; auto.
Qed.
Lemma normal_ignored now c k on m a : (forall f, In f (msg_filters m) -> ~ In f (a_filters a)) -> normal now c k on m a = (a, []).
Proof.
  intros H. unfold normal. destruct a as [s|s]; cbn in H.
  - assert (E : handle_normal5 now c m s = (s, None)).
    { unfold handle_normal5. destruct m as [m|m]; cbn in H.
      - rewrite (proj2 (aget_None_notin _ _)); auto.
      - unfold filters_info. rewrite filters_none; auto. intros f F. apply aget_None_notin. auto. }
    rewrite E. reflexivity.
  - assert (E : handle_normal3 now m s = (s, None)).
    { assert (X : forall m, ~ In (rp3_filter m) (keys (z_subs s)) -> recv_publish3 now m s = (s, None)).
      { intros m0 X. unfold recv_publish3. rewrite (proj2 (aget_None_notin _ _)); auto. }
      unfold handle_normal3. destruct m as [m|m]; cbn in H.
      - apply X. cbn. auto.
      - destruct (n5_filters m) as [|f fs]; auto. apply X. cbn. apply H. left; auto. }
    rewrite E. reflexivity.
Qed.

Section Runs.
  Variables (hash5 : wpub5 -> N) (hash3 : wpub3 -> N) (pick : draw -> broker -> string -> string -> N).
  Notation bstep := (bstep hash5 hash3 pick).
  Notation brun := (brun hash5 hash3 pick).
  Notation bgo := (bgo hash5 hash3 pick).

  (** ** Sessions *)
  Definition conn_ok (h : list past) (b : broker) (k : N) (t : task) : Prop :=
    match t with
    | TSend x c | TReply x c => exists q, made_by h q k /\ connecting (w_b q) (w_e q) x /\ known (w_b q) (p_ident x) c
    | TJoin x (RNew c) => exists q, made_by h q k /\ connecting (w_b q) (w_e q) x /\ forall c, ~ known (w_b q) (p_ident x) c
    | TJoin x r => exists q, made_by h q k /\ connecting (w_b q) (w_e q) x /\ known (w_b q) (p_ident x) (rc_id r) /\
        exists q2 j on a, gave_session h b q2 j on a k /\ a_ident a = p_ident x /\ a_v5 a = p_v5 x /\ given (w_b q2) on a r
    | _ => True
    end.

  Lemma made_cons h p q k : made_by h q k -> made_by (p :: h) q k.
  Proof. intros (A & B). split; [right|]; auto. Qed.
  Lemma conn_from c h b k t : brun c h b -> aget k (b_tasks b) = Some t -> conn_ok h b k t.
  Proof.
    intros R. revert k t. induction R as [|h b e b' out R IH S]; [discriminate|]. intros k t' A'. pose proof (run_good _ _ _ _ _ _ R) as G. pose proof G as [I P].
    pose proof (good_step _ _ _ _ _ _ _ G S) as [I' P'].
    pose proof (step_move _ _ _ _ _ _ _ I S k) as M. rewrite A' in M.
    assert (GS : forall q j on a, gave_session h b q j on a k -> gave_session (Past b e out :: h) b' q j on a k).
    { intros q j on a (X1 & X2 & X3 & XR & X4). split; [right; auto|]. split; auto. split; auto. split; auto. eapply none_stays; eauto.
      destruct (run_past _ _ _ _ _ _ _ R X1) as (h1 & R1 & h2 & G2). pose proof (run_good _ _ _ _ _ _ R1) as G1.
      pose proof (task_num _ _ _ G1 X3). pose proof (go_conns _ _ _ _ _ _ G2). lia. }
    assert (OLD : forall t, aget k (b_tasks b) = Some t -> t' = t -> conn_ok (Past b e out :: h) b' k t').
    { intros t A ->. specialize (IH _ _ A). unfold conn_ok in *. destruct t as [x c0|x c0|x [c0|st|st]| | | | | |]; auto; destruct IH as (q & Q1 & Q); exists q; (split; [apply made_cons; auto|]); auto;
        destruct Q as (Q2 & Q3 & q2 & j & on & a & Q4 & Q5); split; auto; split; auto; exists q2, j, on, a; auto. }
    inversion M; subst; cbn [conn_ok]; auto.
    - eapply OLD; eauto.
    - exists (Past b e out). repeat split; auto. left; auto.
    - exists (Past b e out). repeat split; auto; [left; auto|]. unfold known. cbn [w_b]. congruence.
    - match goal with H : Some _ = aget k (b_tasks b) |- _ => specialize (IH _ _ (eq_sym H)); cbn [conn_ok] in IH end. destruct IH as (q & Q1 & Q). exists q. split; [apply made_cons; auto|]. auto.
    - match goal with H : Some _ = aget k (b_tasks b) |- _ => pose proof (eq_sym H) as AK; specialize (IH _ _ (eq_sym H)); cbn [conn_ok] in IH end. destruct IH as (q & Q1 & Q2 & Q3).
      match goal with H : aget ?j (b_tasks b) = Some (if ?on then TOnline ?a else TOffline ?a) |- _ => rename H into AJ; rename j into jj; rename a into aa; rename on into oo end.
      assert (ID : rc_id r = a_id aa).
      { match goal with H : given _ _ _ _ |- _ => rename H into GV end. unfold given in GV. destruct aa as [s|s]; [subst r; reflexivity|]. destruct oo; [subst r; reflexivity|].
        destruct GV as (ch & _ & ->). cbn. apply v3_take_facts. }
      assert (TS : t_sess (if oo then TOnline aa else TOffline aa) = Some aa) by (destruct oo; reflexivity).
      assert (KN : known b (a_ident aa) (a_id aa)) by (apply (sess_known _ _ _ _ I AJ TS); intros ?; destruct oo; discriminate).
      assert (IDT : a_ident aa = p_ident x).
      { apply known_iff in KN; auto. destruct KN as (o & KN). eapply (k_wait _ _ _ _ _ (i_core _ I) k); [rewrite (rl_of _ _ _ AK); reflexivity|]. exact KN. }
      assert (GONE : aget jj (b_tasks b') = None).
      { destruct (sess_step _ _ _ _ _ _ _ _ _ _ G S AJ TS) as [X|(t1 & a1 & A1 & T1 & SA)]; auto. exfalso. destruct SA as (_ & _ & S1 & _).
        assert (RJ : exists v i d, role_of t1 = Owns v i (a_id a1) d) by (destruct t1; cbn in T1; try discriminate; injection T1; intros; subst; do 3 eexists; reflexivity).
        destruct RJ as (v & i & d & RJ).
        assert (jj = k).
        { eapply (k_one _ _ _ _ _ (i_core _ I') jj k); [rewrite (rl_of _ _ _ A1), RJ, S1; reflexivity|]. rewrite (rl_of _ _ _ A'). cbn. rewrite ID. reflexivity. }
        subst jj. rewrite AK in AJ. destruct oo; discriminate. }
      assert (RES : exists q, made_by (Past b (EControl jj) out :: h) q k /\ connecting (w_b q) (w_e q) x /\ known (w_b q) (p_ident x) (rc_id r) /\
        exists q2 j on a, gave_session (Past b (EControl jj) out :: h) b' q2 j on a k /\ a_ident a = p_ident x /\ a_v5 a = p_v5 x /\ given (w_b q2) on a r).
      { exists q. split; [apply made_cons; auto|]. split; auto. split; [rewrite ID; auto|].
        exists (Past b (EControl jj) out), jj, oo, aa. split; [split; [left; auto|]; auto|]. auto. }
      destruct r as [c0|st|st]; auto. exfalso. match goal with H : given _ _ _ _ |- _ => unfold given in H; destruct aa as [s|s]; [discriminate|]; destruct oo; [discriminate|]; destruct H as (ch & _ & H); discriminate end.
  Qed.

  Lemma map_entry_reset {P} (l : list (pstatus P)) : map entry (map reset_status l) = map entry l.
  Proof. rewrite map_map. apply map_ext. intros []; reflexivity. Qed.

  (** CONNACK of a v5 connection. *)
  Lemma present5 c h b k b' out ack : brun c h b -> bstep (EJoin k) b = BOk b' out -> In (OConnack5 k ack) out -> ka_code ack = RC_success ->
    exists q t0 uuid p data s, made_by h q k /\ w_e q = EConnect5 t0 uuid p data /\ aget k (b_tasks b') = Some (TReady (A5 s)) /\
      (ka_present ack = true <-> co_clean p = false /\ exists i cid, asks (w_e q) = Some i /\ known (w_b q) i cid) /\
      (if ka_present ack
       then exists q2 j online s0, gave_session h b q2 j online (A5 s0) k /\ asks (w_e q) = Some (s_ident s0) /\ carried5 s0 s
       else empty5 s).
  Proof.
    intros R S O CD. pose proof (run_good _ _ _ _ _ _ R) as G. cbn [BrokerModel.bstep] in S. unfold do_join in S. destruct (_ <=? _); [discriminate|].
    destruct (aget k (b_tasks b)) as [[| |[cn data|s0] r| | | | | |]|] eqn:A; try discriminate.
    2:{ destruct (match r with RNew c => Some (RcNew3 c) | ROld3 st => Some (RcPresent3 st) | ROld5 _ => None end); [|discriminate]. destruct (session_connect3 _ _ _). inversion S; subst. destruct O as [O|[]]; discriminate. }
    pose proof (conn_from _ _ _ _ _ R A) as CO. pose proof (proj2 G _ _ A) as PO. cbn in PO. pose proof (i_ok _ (proj1 G) _ _ A) as OK. cbn in OK.
    destruct (match r with RNew c => Some (RcNew c) | ROld5 st => Some (RcPresent st) | ROld3 _ => None end) as [rc|] eqn:RC; [|discriminate].
    destruct (session_connect5 unit _ _ rc data cn) as [[s ack']|] eqn:SC; [|discriminate].
    assert (EA : ack' = ack). { destruct (s_connected s); inversion S; subst; destruct O as [O|O]; try (inversion O; auto; fail); cbn in O; destruct O as [O|[]]; discriminate. }
    subst ack'. destruct (session_connect5_facts _ _ _ _ _ _ _ SC) as (_ & _ & _ & F & _). rewrite CD in F. cbn in F. destruct F as (F & _). rewrite F in S.
    assert (AR : aget k (b_tasks b') = Some (TReady (A5 s))) by (inversion S; subst; cbn; apply aget_aset_eq). clear S.
    assert (CN : exists q t0 uuid p, made_by h q k /\ w_e q = EConnect5 t0 uuid p data /\ cn = connect_conn5 (b_cfg (w_b q)) uuid t0 p /\ asks (w_e q) = Some (s_ident (cn_s cn)) /\
       match r with
       | RNew _ => forall c, ~ known (w_b q) (s_ident (cn_s cn)) c
       | _ => known (w_b q) (s_ident (cn_s cn)) (rc_id r) /\ exists q2 j on a, gave_session h b q2 j on a k /\ a_ident a = s_ident (cn_s cn) /\ a_v5 a = true /\ given (w_b q2) on a r
       end).
    { unfold conn_ok in CO. assert (X : exists q, made_by h q k /\ connecting (w_b q) (w_e q) (B5 cn data) /\ match r with
       | RNew _ => forall c, ~ known (w_b q) (s_ident (cn_s cn)) c
       | _ => known (w_b q) (s_ident (cn_s cn)) (rc_id r) /\ exists q2 j on a, gave_session h b q2 j on a k /\ a_ident a = s_ident (cn_s cn) /\ a_v5 a = true /\ given (w_b q2) on a r
       end) by (destruct r; exact CO). destruct X as (q & Q1 & Q2 & Q3). pose proof (connecting_asks _ _ _ Q2) as AS. destruct Q2 as [(t0 & uuid & p & data' & E & _ & X)|(t0 & uuid & p & _ & _ & X)]; [|discriminate].
      injection X as X1 X2. subst data'. exists q, t0, uuid, p. auto 6. }
    destruct CN as (q & t0 & uuid & p & Q1 & Q2 & Q3 & Q4 & Q5). exists q, t0, uuid, p, data, s. split; auto. split; auto. split; auto.
    assert (EM : empty5 (cn_s cn) /\ s_clean (cn_s cn) = co_clean p) by (rewrite Q3; repeat split). destruct EM as ((E1 & E2 & E3 & E4) & EC).
    unfold session_connect5 in SC. destruct (max_allowed_qos (b_cfg b)) as [mq|].
    2:{ destruct (match rc with RcNew id => _ | RcPresent st => _ end) as [s1 pr]. discriminate. }
    destruct r as [c0|st|st]; inversion RC; subst rc.
    - assert (PR : ka_present ack = false /\ empty5 s).
      { destruct (_ <? _); inversion SC; subst s ack; (split; [reflexivity|]); match goal with |- context[if ?x =? RC_success then _ else _] => destruct (x =? RC_success) end; repeat split; auto. }
      destruct PR as (PR & EM). rewrite PR. split; auto. split; [discriminate|]. intros (_ & i & cid & X & Y). rewrite Q4 in X. injection X as <-. destruct (Q5 _ Y).
    - destruct Q5 as (KN & q2 & j & on & a & GV & AI & AV & GI). unfold given in GI. destruct a as [so|so]; [|discriminate].
      injection GI as ->. rewrite EC in SC. destruct (co_clean p) eqn:CP; cbn [negb] in SC.
      + assert (PR : ka_present ack = false /\ empty5 s).
        { destruct (_ <? _); inversion SC; subst s ack; (split; [reflexivity|]); match goal with |- context[if ?x =? RC_success then _ else _] => destruct (x =? RC_success) end; repeat split; auto. }
        destruct PR as (PR & EM). rewrite PR. split; auto. split; [discriminate|]. intros (X & _). discriminate.
      + assert (PR : ka_present ack = true /\ carried5 so s).
        { destruct (_ <? _); inversion SC; subst s ack; (split; [reflexivity|]); match goal with |- context[if ?x =? RC_success then _ else _] => destruct (x =? RC_success) end; repeat split; unfold queued5; cbn; apply map_entry_reset. }
        destruct PR as (PR & CA). rewrite PR. split.
        * split; auto. intros _. split; auto. exists (s_ident (cn_s cn)), (s_id so). split; auto.
        * exists q2, j, on, so. split; auto. cbn in AI. rewrite AI. auto.
  Qed.

  (** CONNACK of a v3 connection. *)
  Lemma present3 c h b k b' out pr code : brun c h b -> bstep (EJoin k) b = BOk b' out -> In (OConnack3 k (Connack3 pr code)) out ->
    exists q t0 uuid p s, made_by h q k /\ w_e q = EConnect3 t0 uuid p /\ aget k (b_tasks b') = Some (TReady (A3 s)) /\ code = 0 /\
      (pr = true -> c3_clean p = false) /\
      (pr = true -> exists q2 j online s0 s1, gave_session h b q2 j online (A3 s0) k /\ asks (w_e q) = Some (z_ident s0) /\ z_v310 s0 = c3_v310 p /\
         s1 = (if online then s0 else v3_take_all (seconds (w_b q2)) (waiting (w_b q2) (z_id s0)) s0) /\ carried3 s1 s) /\
      (pr = false -> empty3 s) /\
      (pr = false -> c3_clean p = true \/ (exists i, asks (w_e q) = Some i /\ forall cid, ~ known (w_b q) i cid) \/
         exists q2 j online s0, gave_session h b q2 j online (A3 s0) k /\ asks (w_e q) = Some (z_ident s0) /\ z_v310 s0 <> c3_v310 p).
  Proof.
    intros R S O. pose proof (run_good _ _ _ _ _ _ R) as G. cbn [BrokerModel.bstep] in S. unfold do_join in S. destruct (_ <=? _); [discriminate|].
    destruct (aget k (b_tasks b)) as [[| |[cn data|s0] r| | | | | |]|] eqn:A; try discriminate.
    { destruct (match r with RNew c => Some (RcNew c) | ROld5 st => Some (RcPresent st) | ROld3 _ => None end) as [rc|]; [|discriminate].
      destruct (session_connect5 unit _ _ rc data cn) as [[s ack']|]; [|discriminate]. destruct (s_connected s); inversion S; subst; destruct O as [O|O]; try discriminate; try destruct O as [O|[]]; try discriminate. contradiction. }
    pose proof (conn_from _ _ _ _ _ R A) as CO. pose proof (i_ok _ (proj1 G) _ _ A) as OK. cbn in OK.
    destruct (match r with RNew c => Some (RcNew3 c) | ROld3 st => Some (RcPresent3 st) | ROld5 _ => None end) as [rc|] eqn:RC; [|discriminate].
    destruct (session_connect3 _ rc s0) as [s ack'] eqn:SC.
    assert (EA : ack' = Connack3 pr code). { inversion S; subst. destruct O as [O|[]]. inversion O; auto. } subst ack'.
    assert (AR : aget k (b_tasks b') = Some (TReady (A3 s))) by (inversion S; subst; cbn; apply aget_aset_eq). clear S.
    assert (CN : exists q t0 uuid p, made_by h q k /\ w_e q = EConnect3 t0 uuid p /\ s0 = connect_sess3 (b_cfg (w_b q)) uuid t0 p /\ asks (w_e q) = Some (z_ident s0) /\
       match r with
       | RNew _ => forall c, ~ known (w_b q) (z_ident s0) c
       | _ => known (w_b q) (z_ident s0) (rc_id r) /\ exists q2 j on a, gave_session h b q2 j on a k /\ a_ident a = z_ident s0 /\ a_v5 a = false /\ given (w_b q2) on a r
       end).
    { unfold conn_ok in CO. assert (X : exists q, made_by h q k /\ connecting (w_b q) (w_e q) (B3 s0) /\ match r with
       | RNew _ => forall c, ~ known (w_b q) (z_ident s0) c
       | _ => known (w_b q) (z_ident s0) (rc_id r) /\ exists q2 j on a, gave_session h b q2 j on a k /\ a_ident a = z_ident s0 /\ a_v5 a = false /\ given (w_b q2) on a r
       end) by (destruct r; exact CO). destruct X as (q & Q1 & Q2 & Q3). pose proof (connecting_asks _ _ _ Q2) as AS. destruct Q2 as [(t0 & uuid & p & data' & _ & _ & X)|(t0 & uuid & p & E & _ & X)]; [discriminate|].
      injection X as X1. exists q, t0, uuid, p. auto 6. }
    destruct CN as (q & t0 & uuid & p & Q1 & Q2 & Q3 & Q4 & Q5). exists q, t0, uuid, p, s. split; auto. split; auto. split; auto.
    assert (EM : empty3 s0 /\ z_clean s0 = c3_clean p /\ z_v310 s0 = c3_v310 p) by (rewrite Q3; repeat split). destruct EM as ((E1 & E2 & E3 & E4) & EC & EV).
    unfold session_connect3 in SC. destruct r as [c0|st|st]; inversion RC; subst rc.
    - inversion SC; subst s pr code. split; auto. split; [discriminate|]. split; [discriminate|]. split; [intros _; repeat split; auto|]. intros _. right. left. eauto.
    - destruct Q5 as (KN & q2 & j & on & a & GV & AI & AV & GI). unfold given in GI. destruct a as [so|so]; [discriminate|].
      assert (X : st = snd (build_state3 (if on then so else v3_take_all (seconds (w_b q2)) (waiting (w_b q2) (z_id so)) so))).
      { destruct on; [injection GI as ->; auto|]. destruct GI as (ch & GC & GI). injection GI as ->. unfold waiting. rewrite GC. auto. }
      assert (ZV : st3_v310 st = z_v310 so). { rewrite X. destruct on; [reflexivity|]. cbn. apply v3_take_facts. }
      rewrite EC, EV, ZV in SC. destruct (c3_clean p) eqn:CP; cbn [negb andb] in SC.
      + inversion SC; subst s pr code. split; auto. split; [discriminate|]. split; [discriminate|]. split; [intros _; repeat split; auto|]. auto.
      + cbn in AI. rewrite <- AI in *. destruct (Bool.eqb_spec (c3_v310 p) (z_v310 so)) as [EQ|NE]; inversion SC; subst s pr code; split; auto.
        * split; auto. split; [intros _|split; [discriminate|discriminate]]. eexists q2, j, on, so, _. split; [exact GV|]. split; auto. split; auto. split; [reflexivity|].
          rewrite X. repeat split; unfold queued3; cbn; apply map_entry_reset.
        * split; [discriminate|]. split; [discriminate|]. split; [intros _; repeat split; auto|]. intros _. right. right. exists q2, j, on, so. auto.
  Qed.

  (** ** Subscriptions *)
  Lemma evol_filters b e out k a a' : evol hash5 hash3 pick b e out k a a' ->
    a_clean a' = a_clean a /\ forall f, In f (a_filters a') -> In f (a_filters a) \/ asked_filter k f (Past b e out).
  Proof.
    intros V. destruct V as [a ID|len x s s' g o E A D PS O|len x s s' g E A D PS O|reason s s' p E D ED O|len x s s' g o E A D PS O|len x s s' g E A D PS O
      |on a a' cs m r o E A D C NM|d a bc n E O|s s' o E A PE O|s s' o E A PE O|a a' b0 b1 ok GB E SW|a E O]; auto.
    - pose proof (packet_step5_keep hash5 (pick (DPacket k x) b) (seconds b) len x s (glob_of b)) as K. pose proof (packet5_keys hash5 (pick (DPacket k x) b) (seconds b) len x s (glob_of b)) as F. rewrite PS in K, F. split.
      + cbn. unfold step_kept5 in K. destruct (is_disconnect5 x); [apply K|]. apply K.
      + intros f H. destruct (F _ H) as [X|(p & id & fs & -> & X)]; auto. right. left. subst e. exists len, p, id, fs. auto.
    - pose proof (packet_step5_keep hash5 (pick (DPacket k x) b) (seconds b) len x s (glob_of b)) as K. pose proof (packet5_keys hash5 (pick (DPacket k x) b) (seconds b) len x s (glob_of b)) as F. rewrite PS in K, F. split.
      + cbn. unfold step_kept5 in K. destruct (is_disconnect5 x); [apply K|]. apply K.
      + intros f H. destruct (F _ H) as [X|(p & id & fs & -> & X)]; auto. right. left. subst e. exists len, p, id, fs. auto.
    - inversion ED; subst. cbn. auto.
    - pose proof (packet_step3_keep hash3 (seconds b) len x s (glob_of b)) as K. pose proof (packet3_keys hash3 (seconds b) len x s (glob_of b)) as F. rewrite PS in K, F. split.
      + cbn. unfold step_kept3 in K. destruct (is_disconnect3 x); [apply K|]. apply K.
      + intros f H. destruct (F _ H) as [X|(p & fs & -> & X)]; auto. right. right. subst e. exists len, p, fs. auto.
    - pose proof (packet_step3_keep hash3 (seconds b) len x s (glob_of b)) as K. pose proof (packet3_keys hash3 (seconds b) len x s (glob_of b)) as F. rewrite PS in K, F. split.
      + cbn. unfold step_kept3 in K. destruct (is_disconnect3 x); [apply K|]. apply K.
      + intros f H. destruct (F _ H) as [X|(p & fs & -> & X)]; auto. right. right. subst e. exists len, p, fs. auto.
    - rewrite (normal_subs _ _ _ _ _ _ _ _ NM). apply normal_clean in NM. split; auto. destruct a, a'; auto; contradiction.
    - destruct a; auto.
    - apply pendings_frame in PE. destruct PE as (oo & ->). cbn. auto.
    - apply after3_frame in PE. destruct PE as ((oo & t & ->) & _). cbn. auto.
    - rewrite (will_subs _ _ _ _ _ _ _ _ SW). split; auto. unfold send_will in SW. destruct a as [s|s].
      + destruct (send_will5 _ _ _) as [[[s1 g1] ok1]|] eqn:W; [|discriminate]. apply send_will5_keep in W. inversion SW; subst. cbn. apply W.
      + destruct (send_will3 _ _) as [[[s1 g1] ok1]|] eqn:W; [|discriminate]. apply send_will3_keep in W. inversion SW; subst. cbn. apply W.
    - destruct a; auto.
  Qed.

  Lemma joined_clean b x r a o k : joined b x r a o k -> pre_ok x -> a_clean a = match x with B5 cn _ => s_clean (cn_s cn) | B3 s => z_clean s end /\
    (a_clean a = true -> match x with B5 cn _ => s_subs (cn_s cn) = [] | B3 s => z_subs s = [] end -> a_filters a = []).
  Proof.
    unfold joined. destruct x as [cn data|s0].
    - intros (rc & s & ack & _ & SC & _ & -> & _) _. unfold session_connect5 in SC. destruct (max_allowed_qos (b_cfg b)) as [mq|].
      2:{ destruct (match rc with RcNew id => _ | RcPresent st => _ end) as [s1 pr]. discriminate. }
      cbn [a_clean a_filters]. destruct rc as [i|st].
      + destruct (_ <? _); inversion SC; subst; match goal with |- context[if ?x =? RC_success then _ else _] => destruct (x =? RC_success) end; cbn; (split; [auto|intros _ ->; auto]).
      + destruct (s_clean (cn_s cn)) eqn:CL; cbn [negb] in SC; destruct (_ <? _); inversion SC; subst; match goal with |- context[if ?x =? RC_success then _ else _] => destruct (x =? RC_success) end; cbn;
          rewrite ?CL; (split; [auto|]); try discriminate; intros _ ->; auto.
    - intros (rc & s & ack & _ & SC & -> & _) _. unfold session_connect3 in SC. cbn [a_clean a_filters]. destruct rc as [i|st].
      + inversion SC; subst. cbn. split; [auto|intros _ ->; auto].
      + destruct (z_clean s0) eqn:CL; cbn [negb andb] in SC; [|destruct (Bool.eqb _ _)]; inversion SC; subst; cbn; rewrite ?CL; (split; [auto|]); try discriminate; intros _ ->; auto.
  Qed.

  Lemma pre_empty c h b k x : brun c h b -> (exists r, aget k (b_tasks b) = Some (TJoin x r)) -> match x with B5 cn _ => s_subs (cn_s cn) = [] | B3 s => z_subs s = [] end.
  Proof.
    intros R (r & A). pose proof (conn_from _ _ _ _ _ R A) as CO. cbn in CO. assert (X : exists q, connecting (w_b q) (w_e q) x) by (destruct r; destruct CO as (q & _ & Q & _); eauto).
    destruct X as (q & [(t0 & uuid & p & data' & _ & _ & ->)|(t0 & uuid & p & _ & _ & ->)]); reflexivity.
  Qed.

  (** All filters of a connection that asked for a clean start were asked for by it. *)
  Lemma sub_own c h b k a f : brun c h b -> sess_at b k = Some a -> a_clean a = true -> In f (a_filters a) -> exists p, In p h /\ asked_filter k f p.
  Proof.
    intros R. revert a. induction R as [|h b e b' out R IH S]; [discriminate|]. intros a' A' C F. pose proof (run_good _ _ _ _ _ _ R) as G.
    destruct (step_evol _ _ _ _ _ _ _ G S k a' A') as [(a & A & V)|(x & r & o & A & E & O & J)].
    - destruct (evol_filters _ _ _ _ _ _ V) as (EC & EF). destruct (EF _ F) as [X|X].
      + destruct (IH _ A) as (p & P1 & P2); [congruence|auto|]. exists p. split; [right|]; auto.
      + exists (Past b e out). split; [left|]; auto.
    - pose proof (proj2 G _ _ A) as PO. destruct (joined_clean _ _ _ _ _ _ J PO) as (_ & X). rewrite X in F; [destruct F|auto|]. eapply pre_empty; eauto.
  Qed.

  (** The CONNECT of a connection. *)
  Lemma clean_from c h b k a : brun c h b -> sess_at b k = Some a -> exists q, made_by h q k /\ e_clean (w_e q) = Some (a_clean a).
  Proof.
    intros R. revert a. induction R as [|h b e b' out R IH S]; [discriminate|]. intros a' A'. pose proof (run_good _ _ _ _ _ _ R) as G.
    destruct (step_evol _ _ _ _ _ _ _ G S k a' A') as [(a & A & V)|(x & r & o & A & E & O & J)].
    - destruct (evol_filters _ _ _ _ _ _ V) as (EC & _). destruct (IH _ A) as (q & Q1 & Q2). exists q. split; [apply made_cons; auto|]. congruence.
    - pose proof (proj2 G _ _ A) as PO. destruct (joined_clean _ _ _ _ _ _ J PO) as (X & _). rewrite X. pose proof (conn_from _ _ _ _ _ R A) as CO. cbn in CO.
      assert (Y : exists q, made_by h q k /\ connecting (w_b q) (w_e q) x) by (destruct r; destruct CO as (q & Q1 & Q & _); eauto).
      destruct Y as (q & Q1 & Q2). exists q. split; [apply made_cons; auto|]. destruct Q2 as [(t0 & uuid & p & data' & -> & _ & ->)|(t0 & uuid & p & -> & _ & ->)]; reflexivity.
  Qed.
  Lemma made_once c h b q1 q2 k : brun c h b -> made_by h q1 k -> made_by h q2 k -> e_clean (w_e q1) <> None -> e_clean (w_e q2) <> None -> e_clean (w_e q1) = e_clean (w_e q2).
  Proof.
    intros R. induction R as [|h b e b' out R IH S]; [intros ([] & _)|]. intros ([<-|I1] & N1) ([<-|I2] & N2) E1 E2; auto.
    - exfalso. destruct (run_past _ _ _ _ _ _ _ R I2) as (h1 & R1 & h2 & G2). cbn in N1. clear IH R1 E1.
      assert (L : b_conns (w_b q2) < b_conns b); [|lia]. clear - R I2 E2. induction R as [|h b e b' out R IH S]; [destruct I2|].
      pose proof (step_conns _ _ _ _ _ _ _ S) as SC. destruct I2 as [<-|I2]; cbn in *.
      + destruct e; cbn in E2; try congruence; lia.
      + specialize (IH I2). destruct e; lia.
    - exfalso. destruct (run_past _ _ _ _ _ _ _ R I1) as (h1 & R1 & h2 & G2). cbn in N2. clear IH R1 E2.
      assert (L : b_conns (w_b q1) < b_conns b); [|lia]. clear - R I1 E1. induction R as [|h b e b' out R IH S]; [destruct I1|].
      pose proof (step_conns _ _ _ _ _ _ _ S) as SC. destruct I1 as [<-|I2]; cbn in *.
      + destruct e; cbn in E1; try congruence; lia.
      + specialize (IH I2). destruct e; lia.
    - apply IH; [split|split| |]; auto.
  Qed.

  (** A message is dropped if the connection, made with clean start, asked for none of its filters. *)
  Lemma old_ignored c h b k b' out q a m r cs o : brun c h b -> bstep (ENormal k) b = BOk b' out -> made_by h q k -> e_clean (w_e q) = Some true ->
    sess_at b k = Some a -> aget (a_id a) (b_chans b) = Some (Chan cs (m :: r) o) ->
    (forall f p, In f (msg_filters (snd m)) -> In p h -> ~ asked_filter k f p) ->
    out = [] /\ sess_at b' k = Some a.
  Proof.
    intros R S MB EC A CH NF. destruct (clean_from _ _ _ _ _ R A) as (q' & Q1 & Q2).
    assert (CL : a_clean a = true). { assert (X : e_clean (w_e q) = e_clean (w_e q')) by (eapply made_once; eauto; congruence). congruence. }
    assert (NI : forall now c k on, normal now c k on (snd m) a = (a, [])).
    { intros. apply normal_ignored. intros f F Y. destruct (sub_own _ _ _ _ _ _ R A CL Y) as (p & P1 & P2). exact (NF f p F P1 P2). }
    cbn [BrokerModel.bstep] in S. unfold do_normal, sess_at in *. destruct (aget k (b_tasks b)) as [[| | | |a0| | |a0|]|]; try discriminate; injection A as ->.
    - destruct (a_disc a); [discriminate|]. rewrite CH, NI in S. inversion S; subst. cbn. rewrite aget_aset_eq. auto.
    - rewrite CH, NI in S. inversion S; subst. cbn. rewrite aget_aset_eq. auto.
  Qed.
End Runs.
