(** What [send_publish] does, in terms of the subscription history. *)
From Coq Require Import List Bool String NArith Lia.
From Verif Require Import Base BaseLemmas TopicModel TopicSpec MsgModel RouteModel RouteSpec RouteInv
  RetainModel RetainProofs GlobModel Sess5Model Sess3Model DelivSpec DelivProofs.
Import ListNotations.
Local Open Scope N_scope.

Definition inner_of (f : string) : string := match shared_info f with Some (_, i) => i | None => f end.

Lemma offered_name h topic inner g sh : valid_topic_name topic -> offers_group (rt_run h) topic inner g sh ->
  shared_info (share_filter g inner) = Some (g, inner).
Proof.
  intros Hv (ct & Hin & Hf & Hg). apply in_aget in Hg; [|eapply group_nodup; eauto].
  destruct (route_shared_sound_lemma h topic ct inner g sh Hv Hin Hf Hg) as (f & Hs & _).
  now rewrite <- (shared_info_share_filter _ _ _ Hs).
Qed.

Section Facts.
  Variable pick : string -> string -> N.
  Notation ekey := (fun e : client_id * (string * qos) => (fst e, fst (snd e))).

  Lemma ctr_plain_nodup s f cl : NoDup (map fst cl) -> NoDup (map ekey (ctr_plain s f cl)).
  Proof.
    unfold ctr_plain. intros H. rewrite map_map. cbn [fst snd].
    induction cl as [|(c, q) cl IH]; cbn [filter fst]; [constructor|].
    inversion H as [|? ? Hn Hd]; subst. destruct (own_skip s f c); cbn [negb map fst]; [auto|].
    constructor; [|auto]. rewrite in_map_iff. intros ((c', q') & E & Hin). injection E as E. cbn in E. subst c'.
    apply filter_In in Hin. apply Hn. apply in_map_iff. exists (c, q'). tauto.
  Qed.

  Lemma ctr_groups_nodup h topic ct f gs k : valid_topic_name topic ->
    In ct (rt_get_matches (rt_run h) topic) -> c_filter ct = Some f ->
    (forall x, In x gs -> In x (c_groups ct)) -> NoDup (map fst gs) ->
    ctr_groups pick f gs = Some k -> NoDup (map ekey k).
  Proof.
    intros Hv Hin Hf. revert k. induction gs as [|(name, sh) gs IH]; intros k Hs Hn E; cbn [ctr_groups] in E.
    - injection E as <-. constructor.
    - destruct (sh_get_by_number sh (pick name f)) as [(c, q)|] eqn:G; [|discriminate].
      destruct (ctr_groups pick f gs) as [k0|] eqn:E0; [|discriminate]. injection E as <-.
      inversion Hn as [|? ? Hx Hd]; subst. cbn [map fst snd]. constructor.
      + rewrite in_map_iff. intros ((c', (f', q')) & E & Hin'). cbn in E. injection E as -> E.
        rewrite (ctr_groups_in pick f gs k0 c f' q' E0) in Hin'. destruct Hin' as (n & sh' & Hg & _ & ->).
        assert (n = name).
        { assert (O1 : offers_group (rt_run h) topic f name sh)
            by (exists ct; split; auto; split; auto; apply Hs; now left).
          assert (O2 : offers_group (rt_run h) topic f n sh')
            by (exists ct; split; auto; split; auto; apply Hs; now right).
          pose proof (offered_name _ _ _ _ _ Hv O1) as N1. pose proof (offered_name _ _ _ _ _ Hv O2) as N2.
          change (share_filter n f = share_filter name f) in E. rewrite E in N2. congruence. }
        subst n. apply Hx. apply in_map_iff. exists (name, sh'). auto.
      + apply IH; auto. intros x Hx'. apply Hs. now right.
  Qed.

  Lemma ctr_inner h s topic cts k e : valid_topic_name topic ->
    (forall ct, In ct cts -> In ct (rt_get_matches (rt_run h) topic)) ->
    ctr pick s cts = Some k -> In e k ->
    exists ct, In ct cts /\ c_filter ct = Some (inner_of (fst (snd e))).
  Proof.
    intros Hv Hs E Hin. destruct e as (c, (f, q)). rewrite (ctr_in pick s cts k c f q E) in Hin.
    destruct Hin as (ct & f0 & Hct & Hf & H). exists ct. split; auto. rewrite Hf. f_equal. cbn.
    destruct H as [(-> & Hc & _)|(name & sh & Hg & _ & ->)].
    - assert (P : plain f0).
      { apply (proj1 (route_plain_lemma h topic Hv) f0 c q). exists ct. auto. }
      unfold inner_of. unfold plain in P. now rewrite P.
    - unfold inner_of. rewrite (offered_name h topic f0 name sh Hv); auto. exists ct. auto.
  Qed.

  Lemma ctr_nodup h s topic cts k : valid_topic_name topic ->
    (forall ct, In ct cts -> In ct (rt_get_matches (rt_run h) topic)) ->
    NoDup (map c_filter cts) ->
    ctr pick s cts = Some k -> NoDup (map ekey k).
  Proof.
    intros Hv. revert k. induction cts as [|ct cts IH]; intros k Hs Hn E; cbn [ctr] in E.
    - injection E as <-. constructor.
    - destruct (c_filter ct) as [f|] eqn:F; [|discriminate].
      destruct (ctr_groups pick f (c_groups ct)) as [kg|] eqn:G; [|discriminate].
      destruct (ctr pick s cts) as [k0|] eqn:E0; [|discriminate]. injection E as <-.
      inversion Hn as [|? ? Hx Hd]; subst.
      assert (Hct : In ct (rt_get_matches (rt_run h) topic)) by (apply Hs; now left).
      assert (Hr : forall c, In c cts -> In c (rt_get_matches (rt_run h) topic)) by (intros; apply Hs; now right).
      pose proof (proj2 (proj2 (route_plain_lemma h topic Hv)) ct Hct) as Hcl.
      rewrite !map_app. apply RetainProofs.NoDup_app.
      + apply ctr_plain_nodup, Hcl.
      + apply RetainProofs.NoDup_app.
        * eapply ctr_groups_nodup; eauto. eapply group_nodup; eauto.
        * eapply IH; eauto.
        * intros x Hx1 Hx2. rewrite in_map_iff in Hx1, Hx2. destruct Hx1 as ((c1, (f1, q1)) & <- & H1).
          destruct Hx2 as ((c2, (f2, q2)) & E2 & H2). cbn in E2. injection E2 as -> ->.
          rewrite (ctr_groups_in pick f _ kg c1 f1 q1 G) in H1. destruct H1 as (name & sh & Hg & _ & ->).
          destruct (ctr_inner h s topic cts k0 _ Hv Hr E0 H2) as (ct' & Hc' & Hf'). cbn [fst snd] in Hf'.
          unfold inner_of in Hf'. rewrite (offered_name h topic f name sh Hv) in Hf' by (exists ct; auto).
          apply Hx. rewrite F, <- Hf'. now apply in_map.
      + intros x Hx1 Hx2. rewrite in_map_iff in Hx1. destruct Hx1 as ((c1, (f1, q1)) & <- & H1).
        rewrite ctr_plain_in in H1. destruct H1 as (-> & H1 & _).
        assert (P : plain f) by (apply (proj1 (route_plain_lemma h topic Hv) f c1 q1); exists ct; auto).
        apply in_app_iff in Hx2. destruct Hx2 as [Hx2|Hx2]; rewrite in_map_iff in Hx2;
          destruct Hx2 as ((c2, (f2, q2)) & E2 & H2); cbn in E2; injection E2 as -> ->.
        * rewrite (ctr_groups_in pick f _ kg c1 f q2 G) in H2. destruct H2 as (name & sh & Hg & _ & Ef).
          pose proof (offered_name h topic f name sh Hv) as O. unfold plain in P. rewrite <- Ef, P in O.
          assert (offers_group (rt_run h) topic f name sh) by (exists ct; auto). specialize (O H). discriminate.
        * destruct (ctr_inner h s topic cts k0 _ Hv Hr E0 H2) as (ct' & Hc' & Hf'). cbn [fst snd] in Hf'.
          unfold inner_of in Hf'. unfold plain in P. rewrite P in Hf'.
          apply Hx. rewrite F, <- Hf'. now apply in_map.
  Qed.

  Lemma ctr_through h s T k c f q : valid_topic_name T ->
    ctr pick s (rt_get_matches (rt_run h) T) = Some k ->
    (In (c, (f, q)) k <-> through pick h s T c f q).
  Proof.
    intros Hv E. rewrite (ctr_in pick s _ k c f q E). unfold through, plain_sub. split.
    - intros (ct & f0 & Hct & Hf & [(-> & Hc & Hw)|(name & sh & Hg & Hp & ->)]).
      + left. split; auto. apply (proj1 (route_plain_lemma h T Hv) f0 c q). exists ct. auto.
      + right. exists name, f0, sh. split; auto. split; auto. exists ct. auto.
    - intros [(H & Hw)|(name & inner & sh & -> & (ct & Hct & Hf & Hg) & Hp)].
      + apply (proj1 (route_plain_lemma h T Hv) f c q) in H. destruct H as (ct & Hct & Hf & Hc).
        exists ct, f. auto 6.
      + exists ct, inner. split; auto. split; auto. right. exists name, sh. auto.
  Qed.

  (** [send_publish] on a reachable routing table never panics, and every client
      is handed at most one message, built from all its matching filters. *)
  Lemma send_publish5_spec h m s g : g_route g = rt_run h -> valid_topic_name (sp_topic m) ->
    exists s' g', send_publish5 pick m s g = Done (s', g', List.length (rt_get_matches (rt_run h) (sp_topic m))) /\
      (forall c, exists fs,
         NoDup fs /\
         (forall f, In f fs <-> exists q, through pick h s (sp_topic m) c f q) /\
         (fs = [] \/ ~ reachable g (s_bcast s) c -> handed (s_bcast s) (s_bcast s') c []) /\
         (fs <> [] -> reachable g (s_bcast s) c ->
          exists sq, (exists f, through pick h s (sp_topic m) c f sq) /\
            (forall f q, through pick h s (sp_topic m) c f q -> qos_leb q sq = true) /\
            handed (s_bcast s) (s_bcast s') c
              [NM5 (NMsg5 (sp_retain m) (sp_qos m) (sp_topic m) (sp_payload m) fs sq (sp_props m) (sp_len m))])) /\
      g' = store_retained (sp_retain m)
             (RContent (s_ident s) (sp_qos m) (sp_topic m) (sp_payload m) (Some (sp_props m)) (sp_len m)) g /\
      (exists b n, s' = with_bcast b n s) /\
      (NoDup (keys (s_bcast s)) -> NoDup (keys (s_bcast s'))) /\
      (s_bcnt s = total (s_bcast s) -> s_bcnt s' = total (s_bcast s')).
  Proof.
    intros Hr Hv. unfold send_publish5.
    set (g1 := store_retained _ _ _).
    assert (R1 : g_route g1 = rt_run h).
    { unfold g1, store_retained. destruct (sp_retain m); auto. destruct (String.eqb _ _); auto. }
    assert (L1 : g_live g1 = g_live g).
    { unfold g1, store_retained. destruct (sp_retain m); auto. destruct (String.eqb _ _); auto. }
    rewrite R1, collect_ctr.
    destruct (ctr_ok pick h s (sp_topic m) Hv _ (fun ct H => H)) as (k & Ek). rewrite Ek. cbn [option_map].
    set (l := fold_left addc k []).
    assert (Hl : NoDup (keys l)) by (apply grp_nodup; constructor).
    set (mk := fun e : list string * qos => NM5 (NMsg5 (sp_retain m) (sp_qos m) (sp_topic m) (sp_payload m)
                      (fst e) (snd e) (sp_props m) (sp_len m))).
    destruct (fold_left _ l _) as (b, cnt') eqn:Q.
    change (fold_left (fun bc e => queue_msg g1 (fst e) (mk (snd e)) bc) l
              (s_bcast s, s_bcnt s + N.of_nat (List.length l)) = (b, cnt')) in Q.
    apply queue_fold in Q. destruct Q as (Q1 & Q2 & Q3 & Q4 & Q5).
    assert (RB : forall c, reach_b g1 (s_bcast s) c = reach_b g (s_bcast s) c).
    { intros c. unfold reach_b, has_sender. now rewrite L1. }
    do 2 eexists. refine (conj eq_refl _). cbn [s_bcast s_bcnt with_bcast].
    refine (conj _ (conj eq_refl (conj (ex_intro _ b (ex_intro _ cnt' eq_refl)) (conj Q4 _)))).
    2:{ intros T. pose proof (drops_le g1 (s_bcast s) l). lia. }
    intros c. set (es := entries c k). exists (map fst es).
    assert (HT : forall f q, In (f, q) es <-> through pick h s (sp_topic m) c f q).
    { intros f q. unfold es. rewrite entries_in. now apply ctr_through. }
    assert (Al : aget c l = match es with [] => None | e :: r => Some (map fst es, fmax (snd e) r) end).
    { unfold l. rewrite grp_aget. cbn [aget]. apply merge_fold0. }
    assert (Hq : queue_of b c = (queue_of (s_bcast s) c ++ if reach_b g (s_bcast s) c
       then match es with [] => [] | e :: r => [mk (map fst es, fmax (snd e) r)] end else [])%list).
    { rewrite Q1, RB, (entries_nodup c l Hl), Al. destruct es; reflexivity. }
    refine (conj _ (conj _ (conj _ _))).
    - pose proof (ctr_nodup h s (sp_topic m) _ k Hv (fun ct H => H) (proj1 (proj2 (route_plain_lemma h _ Hv))) Ek) as N.
      clear - N. unfold es, entries. rewrite map_map. induction k as [|(c', (f, q)) k IH]; cbn [filter fst]; [constructor|].
      cbn [map] in N. inversion N as [|? ? Hx Hd]; subst. destruct (N.eqb_spec c c') as [->|]; [|auto].
      cbn [map fst snd]. constructor; [|auto]. rewrite in_map_iff. intros ((c2, (f2, q2)) & E & Hin). cbn in E. subst f2.
      apply filter_In in Hin. destruct Hin as (Hin & Ec). apply N.eqb_eq in Ec. cbn in Ec. subst c2.
      apply Hx. apply in_map_iff. exists (c', (f, q2)). auto.
    - intros f. rewrite in_map_iff. split.
      + intros ((f', q) & E & H). cbn in E. subst. exists q. now apply HT.
      + intros (q & H). exists (f, q). split; auto. now apply HT.
    - unfold handed. rewrite Hq. intros [H|H].
      + apply map_eq_nil in H. rewrite H. destruct (reach_b g (s_bcast s) c); reflexivity.
      + destruct (reach_b g (s_bcast s) c) eqn:E; auto. apply reach_b_iff in E. contradiction.
    - intros Hne Hre. destruct es as [|e r] eqn:Ees; [exfalso; now apply Hne|].
      exists (fmax (snd e) r). destruct (fmax_spec r (snd e)) as (F1 & F2 & F3). refine (conj _ (conj _ _)).
      + destruct F1 as [->|(f & F1)].
        * exists (fst e). apply HT. left. now destruct e.
        * exists f. apply HT. now right.
      + intros f q H. apply HT in H. destruct H as [->|H]; [exact F2|]. now apply (F3 (f, q)).
      + unfold handed. rewrite Hq. apply reach_b_iff in Hre. rewrite Hre. reflexivity.
  Qed.


  Lemma store_tables who m len g :
    tables_after who m len g
      (store_retained (pm_retain m)
         (RContent who (pm_qos m) (pm_topic m) (pm_payload m) (pm_props m) len) g).
  Proof.
    unfold tables_after, store_retained, retained_op. destruct (pm_retain m); cbn [rc_payload rc_topic].
    - destruct (String.eqb (pm_payload m) ""); cbn [set_retain g_cfg g_live g_route g_retain];
        (refine (conj eq_refl (conj eq_refl (conj eq_refl _)))); intros hr ->; unfold ret_run;
        rewrite fold_left_app; reflexivity.
    - refine (conj eq_refl (conj eq_refl (conj eq_refl _))). intros hr ->. now rewrite app_nil_r.
  Qed.

  Lemma send_publish5_forwards h T r q pay props len s g : g_route g = rt_run h -> valid_topic_name T ->
    exists s' g', send_publish5 pick (SendPub T r q pay props len) s g =
                    Done (s', g', List.length (rt_get_matches (rt_run h) T)) /\
      forwarded5 pick h (PubMsg T pay q r (Some props)) len s s' g g' /\
      (exists b n, s' = with_bcast b n s) /\
      (NoDup (keys (s_bcast s)) -> NoDup (keys (s_bcast s'))) /\
      (s_bcnt s = total (s_bcast s) -> s_bcnt s' = total (s_bcast s')).
  Proof.
    intros Hr Hv. destruct (send_publish5_spec h (SendPub T r q pay props len) s g Hr Hv)
      as (s' & g' & E & A & -> & B). exists s'. eexists. refine (conj E (conj (conj A _) B)).
    apply (store_tables (s_ident s) (PubMsg T pay q r (Some props)) len g).
  Qed.

End Facts.

(** ** MQTT 3 publishers *)

Lemma collect3_in cts l c f q : collect3 cts = Some l ->
  (In (c, (f, q)) l <-> exists ct, In ct cts /\ c_filter ct = Some f /\ In (c, q) (c_clients ct)).
Proof.
  revert l. induction cts as [|ct cts IH]; intros l E; cbn [collect3] in E.
  - injection E as <-. split; [intros []|intros (ct & [] & _)].
  - destruct (c_filter ct) as [f0|] eqn:F; [|discriminate].
    destruct (collect3 cts) as [l0|] eqn:E0; [|discriminate]. injection E as <-.
    rewrite in_app_iff, in_map_iff, (IH l0 eq_refl). split.
    + intros [((c', q') & X & H)|(ct' & H & R)].
      * cbn in X. injection X as -> -> ->. exists ct. split; [now left|auto].
      * exists ct'. split; [now right|auto].
    + intros (ct' & [->|H] & Hf & Hc).
      * left. rewrite F in Hf. injection Hf as ->. exists (c, q). auto.
      * right. exists ct'. auto.
Qed.

Lemma collect3_ok h topic cts : valid_topic_name topic ->
  (forall ct, In ct cts -> In ct (rt_get_matches (rt_run h) topic)) -> exists l, collect3 cts = Some l.
Proof.
  intros Hv. induction cts as [|ct cts IH]; intros Hs; cbn [collect3]; [eauto|].
  destruct IH as (l & ->); [intros; apply Hs; now right|].
  destruct (lookup_has_filter h topic ct Hv (Hs _ (or_introl eq_refl))) as (f & -> & _). eauto.
Qed.

Lemma collect3_nodup h topic cts l : valid_topic_name topic ->
  (forall ct, In ct cts -> In ct (rt_get_matches (rt_run h) topic)) -> NoDup (map c_filter cts) ->
  collect3 cts = Some l -> NoDup (map (fun e => (fst e, fst (snd e))) l).
Proof.
  intros Hv. revert l. induction cts as [|ct cts IH]; intros l Hs Hn E; cbn [collect3] in E.
  - injection E as <-. constructor.
  - destruct (c_filter ct) as [f0|] eqn:F; [|discriminate].
    destruct (collect3 cts) as [l0|] eqn:E0; [|discriminate]. injection E as <-.
    inversion Hn as [|? ? Hx Hd]; subst. rewrite map_app. apply RetainProofs.NoDup_app.
    + rewrite map_map. cbn [fst snd].
      pose proof (proj2 (proj2 (route_plain_lemma h topic Hv)) ct (Hs _ (or_introl eq_refl))) as N. clear - N.
      induction (c_clients ct) as [|(c, q) r IHr]; [constructor|]. cbn [map fst keys] in *.
      inversion N as [|? ? Hx Hd]; subst. constructor; [|auto]. rewrite in_map_iff. intros ((c', q') & X & H).
      cbn in X. injection X as ->. apply Hx. apply in_map_iff. exists (c, q'). auto.
    + apply IH; auto. intros; apply Hs; now right.
    + intros x H1 H2. rewrite in_map_iff in H1, H2. destruct H1 as ((c1, (f1, q1)) & <- & H1).
      destruct H2 as ((c2, (f2, q2)) & X & H2). cbn in X. injection X as -> ->.
      apply in_map_iff in H1. destruct H1 as ((c', q') & X & _). cbn in X. injection X as -> -> ->.
      apply (collect3_in cts l0 _ _ _ E0) in H2. destruct H2 as (ct' & Hin & Hf & _).
      apply Hx. rewrite F, <- Hf. now apply in_map.
Qed.

Lemma send_publish3_forwards h T r q pay len s g : g_route g = rt_run h -> valid_topic_name T ->
  exists s' g', send_publish3 (SendPub3 T r q pay len) s g = Done (s', g') /\
    forwarded3 h (PubMsg T pay q r None) len s s' g g' /\
    (exists b n, s' = zwith_bcast b n s) /\
    (NoDup (keys (z_bcast s)) -> NoDup (keys (z_bcast s'))) /\
    (z_bcnt s = total (z_bcast s) -> z_bcnt s' = total (z_bcast s')).
Proof.
  intros Hr Hv. unfold send_publish3. cbn [sp3_retain sp3_topic sp3_qos sp3_payload sp3_len].
  set (g1 := store_retained _ _ _).
  pose proof (store_tables (z_ident s) (PubMsg T pay q r None) len g) as Ht.
  cbn [pm_retain pm_qos pm_topic pm_payload pm_props] in Ht. fold g1 in Ht.
  destruct Ht as (T1 & T2 & T3 & T4). rewrite T3, Hr.
  destruct (collect3_ok h T _ Hv (fun ct H => H)) as (l & El). rewrite El.
  set (mk := fun e : string * qos => NM3 (NMsg3 r q T pay (fst e) (snd e) len)).
  destruct (fold_left _ l _) as (b, cnt') eqn:Q.
  change (fold_left (fun bc e => queue_msg g1 (fst e) (mk (snd e)) bc) l
            (z_bcast s, z_bcnt s + N.of_nat (List.length l)) = (b, cnt')) in Q.
  apply queue_fold in Q. destruct Q as (Q1 & Q2 & Q3 & Q4 & Q5).
  assert (RB : forall c, reach_b g1 (z_bcast s) c = reach_b g (z_bcast s) c).
  { intros c. unfold reach_b, has_sender. now rewrite T2. }
  do 2 eexists. refine (conj eq_refl (conj (conj _ (conj T1 (conj T2 (conj T3 T4)))) _)).
  - intros c. exists (entries c l). refine (conj _ (conj _ (conj _ _))).
    + pose proof (collect3_nodup h T _ l Hv (fun ct H => H) (proj1 (proj2 (route_plain_lemma h _ Hv))) El) as N.
      clear - N. unfold entries. rewrite map_map.
      induction l as [|(c', (f, q)) k IH]; cbn [filter fst]; [constructor|].
      cbn [map] in N. inversion N as [|? ? Hx Hd]; subst. destruct (N.eqb_spec c c') as [->|]; [|auto].
      cbn [map fst snd]. constructor; [|auto]. rewrite in_map_iff. intros ((c2, (f2, q2)) & E & Hin). cbn in E. subst f2.
      apply filter_In in Hin. destruct Hin as (Hin & Ec). apply N.eqb_eq in Ec. cbn in Ec. subst c2.
      apply Hx. apply in_map_iff. exists (c', (f, q2)). auto.
    + intros f q0. rewrite entries_in, (collect3_in _ l c f q0 El). cbn [pm_topic].
      exact (proj1 (route_plain_lemma h T Hv) f c q0).
    + intros Hn. unfold handed. cbn [z_bcast zwith_bcast]. rewrite Q1, RB.
      destruct (reach_b g (z_bcast s) c) eqn:E; [|reflexivity]. apply reach_b_iff in E. contradiction.
    + intros Hre. unfold handed. cbn [z_bcast zwith_bcast]. apply reach_b_iff in Hre. now rewrite Q1, RB, Hre.
  - cbn [z_bcast zwith_bcast z_bcnt].
    refine (conj (ex_intro _ b (ex_intro _ cnt' eq_refl)) (conj Q4 _)).
    intros E. pose proof (drops_le g1 (z_bcast s) l). lia.
Qed.
