(** The subscriptions a session has on record are those its history grants (SubsSpec). *)
From Coq Require Import List Bool NArith String Lia.
From Verif Require Import Base BaseLemmas TopicModel MsgModel PendingModel OutModel RouteModel RouteSpec RouteInv RetainModel GlobModel Sess5Model Sess3Model ConnModel
  InSpec RecvSpec InProofs InRun InRun3 SubProofs SubFacts TabProofs SubsSpec.
Import ListNotations.
Local Open Scope N_scope.
Local Open Scope list_scope.

Definition rec5 (s : sess5) (f : string) : option qos := option_map sq5 (aget f (s_subs s)).
Definition rec3 (s : sess3) (f : string) : option qos := aget f (z_subs s).

Lemma g5_ext m m' f c : (forall x, m x = m' x) -> forall x, granted5 m f c x = granted5 m' f c x.
Proof. intros E x. unfold granted5. rewrite E. reflexivity. Qed.
Lemma g5s_ext l : forall m m', (forall x, m x = m' x) -> forall x,
  fold_left (fun m fc => granted5 m (fst fc) (snd fc)) l m x = fold_left (fun m fc => granted5 m (fst fc) (snd fc)) l m' x.
Proof. induction l as [|a l IH]; intros m m' E x; cbn; auto. apply IH. intros y. now apply g5_ext. Qed.
Lemma dropped_ext m m' fs : (forall x, m x = m' x) -> forall x, dropped m fs x = dropped m' fs x.
Proof. intros E x. unfold dropped. now rewrite E. Qed.
Lemma g3_ext max fs : forall m m', (forall x, m x = m' x) -> forall x, granted3 max m fs x = granted3 max m' fs x.
Proof.
  induction fs as [|(f, q) fs IH]; intros m m' E x; cbn; auto. destruct (is_shared f); auto.
  apply IH. intros y. destruct (String.eqb y f); auto.
Qed.

Lemma sub_one_rec now id f o s g s' g' code out : subscribe_one now id f o s g = Done (s', g', code, out) ->
  forall x, rec5 s' x = granted5 (rec5 s) f code x.
Proof.
  unfold subscribe_one. destruct (max_allowed_qos _) as [mq|]; [|discriminate].
  set (cd := sub_code _ _ _). destruct (N.ltb_spec cd 0x80) as [LT|GE].
  2:{ intros E. injection E as <- <- <- _. intros x. unfold granted5. destruct (String.eqb x f); auto.
      destruct cd as [|[[p|p|]|[p|p|]|]]; try reflexivity; exfalso; lia. }
  destruct (rt_subscribe _ _ _ _) as (t, p) eqn:R. destruct p; [discriminate|].
  set (o1 := SubOpts _ _ _ _) in *.
  assert (CD : cd = qos_num (sq5 (SubData o1 id))).
  { unfold cd, sub_code in *. destruct (_ && _); [cbn in LT; exfalso; revert LT; vm_compute; discriminate|].
    destruct (_ && _); [cbn in LT; exfalso; revert LT; vm_compute; discriminate|]. unfold o1, sq5. cbn. destruct (qos_min _ _); reflexivity. }
  assert (K : forall s', s_subs s' = aset f (SubData o1 id) (s_subs s) -> forall x, rec5 s' x = granted5 (rec5 s) f cd x).
  { intros s1 B x. unfold rec5, granted5. rewrite B, aget_aset. change (@eqb string _ x f) with (String.eqb x f).
    destruct (String.eqb x f); auto. rewrite CD. cbn [option_map]. destruct (sq5 _); reflexivity. }
  destruct (_ && _).
  2:{ intros E. injection E as <- _ <- _. apply K; auto. }
  destruct (ret_get_matches _ _); [|discriminate].
  destruct (send_retained _ _ _ _ _) as ((s2, k), pe) eqn:S. apply retained_frame in S. destruct S as ((oo & ->) & _).
  destruct pe.
  - destruct (pendings5 now _) as (s3, k2) eqn:Q. apply pendings_frame in Q. destruct Q as (oo2 & ->).
    intros E. injection E as <- _ <- _. apply K; auto.
  - intros E. injection E as <- _ <- _. apply K; auto.
Qed.
Lemma sub_all_rec now id fs : forall s g s' g' codes out, subscribe_all now id fs s g = Done (s', g', codes, out) ->
  forall x, rec5 s' x = fold_left (fun m fc => granted5 m (fst fc) (snd fc)) (combine (map fst fs) codes) (rec5 s) x.
Proof.
  induction fs as [|(f, o) fs IH]; intros s g s' g' codes out; cbn [subscribe_all].
  { intros E; injection E as <- _ <- _. reflexivity. }
  destruct (subscribe_one now id f o s g) as [(((s1, g1), c1), k1)|] eqn:S1; [|discriminate].
  destruct (subscribe_all now id fs s1 g1) as [(((s2, g2), c2), k2)|] eqn:S2; [|discriminate].
  intros E. injection E as <- _ <- _. intros x. cbn [map combine fold_left fst snd].
  rewrite (IH _ _ _ _ _ _ S2 x). apply g5s_ext. intros y. eapply sub_one_rec; eauto.
Qed.
Lemma unsub_all_rec fs : forall s g s' g' codes, unsubscribe_all fs s g = Done (s', g', codes) -> NoDup (keys (s_subs s)) ->
  forall x, rec5 s' x = dropped (rec5 s) fs x.
Proof.
  induction fs as [|f fs IH]; intros s g s' g' codes; cbn [unsubscribe_all].
  { intros E; injection E as <- _ _. reflexivity. }
  destruct (rt_unsubscribe _ _ _) as (t, p) eqn:R. destruct p; [discriminate|].
  destruct (unsubscribe_all fs _ _) as [((s2, g2), c2)|] eqn:S2; [|discriminate].
  intros E ND. injection E as <- _ _. intros x. rewrite (IH _ _ _ _ _ S2 (NoDup_adel _ _ ND) x).
  unfold dropped. cbn [existsb]. unfold rec5. cbn [s_subs with_subs]. rewrite aget_adel by auto. change (@eqb string _ x f) with (String.eqb x f).
  destruct (String.eqb x f); cbn; auto. now destruct (existsb _ _).
Qed.

Lemma refuse_all (fs : list (string * subopts)) : forall m x,
  fold_left (fun m fc => granted5 m (fst fc) (snd fc)) (combine (map fst fs) (map (fun _ => RC_subid_not_supported) fs)) m x = m x.
Proof.
  induction fs as [|(f, o) fs IH]; intros m x; cbn; auto. rewrite IH. unfold granted5. now destruct (String.eqb x f).
Qed.

Definition no_sub5 (x : in5) : bool := match x with ISub _ _ _ | IUnsub _ _ => false | _ => true end.
Lemma packet5_rec hash pick now len x s g s' g' out : packet_step5 hash pick now len x s g = Go s' g' out -> NoDup (keys (s_subs s)) ->
  forall f, rec5 s' f = subs_step5 (rec5 s) (VPkt now len x g, out) f.
Proof.
  intros E ND f. pose proof (packet5_moved hash pick now len x s g) as MV. rewrite E in MV. destruct MV as (_ & _ & _ & _ & ops & SY & FO).
  assert (NS : no_sub5 x = true -> s_subs s' = s_subs s).
  { intros N. assert (F : filters5 x = []) by (destruct x; try discriminate; reflexivity). rewrite F in FO. destruct ops; [now inversion SY|inversion FO as [|? ? [FX _]]; contradiction]. }
  unfold packet_step5 in E. destruct (handle_packet5 hash pick now len x s g) as [s1 g1 o1| |] eqn:H; try discriminate.
  destruct (after_packet5 now s1) as (s2, o2) eqn:A. injection E as <- <- <-. apply after_frame in A. destruct A as ((oo & tt & ->) & K).
  cbn [subs_step5]. unfold rec5 in *. cbn [s_subs with_out with_last] in *.
  destruct x; try (rewrite (NS eq_refl); reflexivity); rewrite answers_app, (answers_own o2 K), app_nil_r; unfold handle_packet5 in H;
    (destruct (_ <? len); [cbn in H; injection H as <- <- <-; reflexivity|]).
  - unfold handle_subscribe5 in H.
    assert (C : (if negb (cf_subid (g_cfg g)) && match id with Some _ => true | None => false end
      then Done (s, g, [KSuback p (map (fun _ => RC_subid_not_supported) fs)])
      else match subscribe_all now id fs s g with Panic => Panic | Done (s', g', codes, out) => Done (s', g', (out ++ [KSuback p codes])%list) end) = Done (s1, g1, o1) ->
      option_map sq5 (aget f (s_subs s1)) = match answers o1 with [KSuback _ codes] => fold_left (fun m fc => granted5 m (fst fc) (snd fc)) (combine (map fst fs) codes) (fun f => option_map sq5 (aget f (s_subs s))) | _ => (fun f => option_map sq5 (aget f (s_subs s))) end f).
    { destruct (_ && _).
      - intros E. injection E as <- _ <-. cbn [answers filter]. now rewrite refuse_all.
      - destruct (subscribe_all now id fs s g) as [(((s4, g4), c4), k4)|] eqn:SA; [|discriminate]. intros E. injection E as <- _ <-.
        pose proof (sub_all_rec _ _ _ _ _ _ _ _ _ SA f) as R. apply subscribe_all_frame in SA. destruct SA as (_ & KO).
        rewrite answers_app, (answers_own k4 KO). cbn [answers filter app]. exact R. }
    destruct id as [[|i]|]; cbn [error_disconnect] in H.
    + injection H as <- _ <-. reflexivity.
    + destruct (_ && _); [|destruct (subscribe_all _ _ _ _ _) as [(((s4, g4), c4), k4)|] eqn:SA; [|discriminate]]; injection H as <- <- <-; apply C; reflexivity.
    + destruct (_ && _); [|destruct (subscribe_all _ _ _ _ _) as [(((s4, g4), c4), k4)|] eqn:SA; [|discriminate]]; injection H as <- <- <-; apply C; reflexivity.
  - unfold handle_unsubscribe5 in H. destruct (unsubscribe_all fs s g) as [((s3, g3), c3)|] eqn:U; [|discriminate]. injection H as <- _ <-.
    cbn [answers filter]. exact (unsub_all_rec _ _ _ _ _ _ U ND f).
Qed.

Section Five.
  Variable hash : wpub5 -> N.
  Variable pick : string -> string -> N.
  Variable cfg : config.

  Lemma step_rec s e s' out : sstep5 hash cfg s e s' out -> NoDup (keys (s_subs s)) ->
    NoDup (keys (s_subs s')) /\ forall f, rec5 s' f = subs_step5 (rec5 s) (e, out) f.
  Proof.
    intros S ND. destruct S as [pk s now len x g s' g' out D WF GW E|s now m s' r E|s b n|s now s' out E|s now m s' r E|s reason s' k E|s conn last w|s t0 now uuid p data s' k E].
    - split; [|eapply packet5_rec; eauto].
      pose proof (packet5_moved hash pk now len x s g) as MV. rewrite E in MV. destruct MV as (_ & _ & _ & _ & ops & SY & _). eapply sync_nodup; eauto.
    - apply normal_frame in E. destruct E as (o & ->). auto.
    - auto.
    - apply pendings_frame in E. destruct E as (o & ->). auto.
    - apply normal_frame in E. destruct E as (o & ->). auto.
    - injection E as <- <-. auto.
    - auto.
    - apply take_fields in E. destruct E as (_ & _ & _ & _ & E). unfold rec5. rewrite E. cbn [subs_step5].
      destruct (co_clean p); split; auto. constructor.
  Qed.
  Lemma sub5_ext e : forall m m', (forall x, m x = m' x) -> forall x, subs_step5 m e x = subs_step5 m' e x.
  Proof.
    intros m m' E x. destruct e as [[now len y g| | | | | | |t u p d] out]; cbn; auto; [|destruct (co_clean p); auto].
    destruct y; auto; destruct (answers out) as [|[] [|]]; auto; [now apply g5s_ext|now apply dropped_ext].
  Qed.
  Lemma run_rec s l : srun5 hash cfg s l -> NoDup (keys (s_subs s)) /\ forall f, rec5 s f = subscribed5 l f.
  Proof.
    induction 1 as [s [t0 now uuid p data id s1 k E]|s l e s' out R (ND & IH) S].
    - assert (B : s_subs s1 = []).
      { unfold session_connect5 in E. cbn [cn_s new_conn] in E. destruct (max_allowed_qos cfg); [|discriminate]. injection E as E _. subst s1.
        destruct (_ <? _); match goal with |- context [if ?b then _ else _] => destruct b end; reflexivity. }
      unfold rec5. rewrite B. split; [constructor|reflexivity].
    - destruct (step_rec _ _ _ _ S ND) as (ND' & E). split; auto. intros f. rewrite E. unfold subscribed5. rewrite fold_left_app. cbn [fold_left].
      now apply sub5_ext.
  Qed.
End Five.

(** ** MQTT 3 *)
Lemma qmin_level q mq : qos_min q mq = match N.min (qos_num q) (qos_num mq) with 0 => L0 | 1 => L1 | _ => L2 end.
Proof. destruct q, mq; reflexivity. Qed.
Lemma sub_one3_rec cfg now f q s g s' g' code out : cf_max_qos cfg <= 2 -> g_cfg g = cfg -> subscribe_one3 now f q s g = Ok3 (s', g', code, out) ->
  is_shared f = false /\ g_cfg g' = cfg /\ forall x, rec3 s' x = (if String.eqb x f then Some (match N.min (qos_num q) (cf_max_qos cfg) with 0 => L0 | 1 => L1 | _ => L2 end) else rec3 s x).
Proof.
  intros Hm GC. unfold subscribe_one3. destruct (is_shared f); [discriminate|]. rewrite GC. destruct (max_qos_ok cfg Hm) as (mq & -> & <-).
  destruct (rt_subscribe _ _ _ _) as (t, p) eqn:R. destruct p; [discriminate|].
  assert (K : forall s', z_subs s' = aset f (qos_min q mq) (z_subs s) -> forall x, rec3 s' x = (if String.eqb x f then Some (match N.min (qos_num q) (qos_num mq) with 0 => L0 | 1 => L1 | _ => L2 end) else rec3 s x)).
  { intros s1 B x. unfold rec3. rewrite B, aget_aset, qmin_level. reflexivity. }
  destruct (ret_get_matches _ _); [|discriminate].
  destruct (send_retained3 _ _ _ _ _) as ((s2, k), pe) eqn:S. apply retained3_frame in S. destruct S as ((oo & ->) & _).
  destruct pe.
  - destruct (pendings3 now _) as (s3, k2) eqn:Q. apply pendings3_frame in Q. destruct Q as ((oo2 & ->) & _).
    intros E. injection E as <- <- _ _. repeat split; auto.
  - intros E. injection E as <- <- _ _. repeat split; auto.
Qed.
Lemma sub_all3_rec cfg now fs : cf_max_qos cfg <= 2 -> forall s g s' g' r, g_cfg g = cfg -> subscribe_all3 now fs s g = (s', g', r) -> r <> Panic3 ->
  forall x, rec3 s' x = granted3 (cf_max_qos cfg) (rec3 s) fs x.
Proof.
  intros Hm. induction fs as [|(f, q) fs IH]; intros s g s' g' r GC; cbn [subscribe_all3 granted3].
  { intros E; injection E as <- _ _. reflexivity. }
  destruct (subscribe_one3 now f q s g) as [(((s1, g1), c1), k1)| |] eqn:S1.
  - destruct (sub_one3_rec _ _ _ _ _ _ _ _ _ _ Hm GC S1) as (NS & GC' & R). rewrite NS.
    destruct (subscribe_all3 now fs s1 g1) as ((s2, g2), r2) eqn:S2. intros E NP x.
    assert (s' = s2 /\ r2 <> Panic3) as (-> & NP2) by (destruct r2 as [(?, ?)| |]; injection E as <- _ <-; split; auto; discriminate).
    rewrite (IH _ _ _ _ _ GC' S2 NP2 x). now apply g3_ext.
  - intros E _ x. injection E as <- _ _. unfold subscribe_one3 in S1. destruct (is_shared f); auto.
    destruct (max_allowed_qos _); [|discriminate]. destruct (rt_subscribe _ _ _ _) as (t, p). destruct p; [discriminate|].
    destruct (ret_get_matches _ _); [|discriminate]. destruct (send_retained3 _ _ _ _ _) as ((s2, k), pe). destruct pe; [destruct (pendings3 now _)|]; discriminate.
  - intros E NP. injection E as _ _ <-. congruence.
Qed.
Lemma unsub_all3_rec fs : forall s g s' g', unsubscribe_all3 fs s g = Done (s', g') -> NoDup (keys (z_subs s)) ->
  forall x, rec3 s' x = dropped (rec3 s) fs x.
Proof.
  induction fs as [|f fs IH]; intros s g s' g'; cbn [unsubscribe_all3].
  { intros E; injection E as <- _. reflexivity. }
  destruct (rt_unsubscribe _ _ _) as (t, p) eqn:R. destruct p; [discriminate|].
  intros E ND x. rewrite (IH _ _ _ _ E (NoDup_adel _ _ ND) x).
  unfold dropped. cbn [existsb]. unfold rec3. cbn [z_subs zwith_subs]. rewrite aget_adel by auto. change (@eqb string _ x f) with (String.eqb x f).
  destruct (String.eqb x f); cbn; auto. now destruct (existsb _ _).
Qed.
Definition no_sub3 (x : in3) : bool := match x with YSub _ _ | YUnsub _ _ => false | _ => true end.
Lemma packet3_rec cfg hash now len x s g s' out : cf_max_qos cfg <= 2 -> g_cfg g = cfg ->
  (exists g', packet_step3 hash now len x s g = Go3 s' g' out \/ packet_step3 hash now len x s g = Stop3 s' g') -> NoDup (keys (z_subs s)) ->
  NoDup (keys (z_subs s')) /\ forall f, rec3 s' f = subs_step3 cfg (rec3 s) (UPkt now len x g, out) f.
Proof.
  intros Hm GC (g' & E) ND. pose proof (packet3_moved hash now len x s g) as MV.
  assert (MV' : moved3 s g (filters3 x) s' g') by (destruct E as [E|E]; rewrite E in MV; exact MV). clear MV. destruct MV' as (_ & _ & _ & _ & ops & SY & FO).
  split; [eapply sync_nodup; eauto|]. intros f.
  assert (NS : no_sub3 x = true -> z_subs s' = z_subs s).
  { intros N. assert (F : filters3 x = []) by (destruct x; try discriminate; reflexivity). rewrite F in FO. destruct ops; [now inversion SY|inversion FO as [|? ? [FX _]]; contradiction]. }
  assert (H : exists s1 g1, (exists o1, handle_packet3 hash now len x s g = Go3 s1 g1 o1 \/ handle_packet3 hash now len x s g = Stop3 s1 g1) /\ z_subs s' = z_subs s1).
  { unfold packet_step3 in E. destruct (handle_packet3 hash now len x s g) as [s1 g1 o1|s1 g1|].
    - destruct (after_packet3 now s1) as (s2, o2) eqn:A. apply after3_frame in A. destruct A as ((oo & tt & ->) & _). exists s1, g1. split; [eauto|].
      destruct E as [E|E]; [|discriminate]. injection E as <- _ _. reflexivity.
    - destruct E as [E|E]; [discriminate|]. injection E as <- _. exists s1, g1. split; [exists []; auto|reflexivity].
    - destruct E; discriminate. }
  destruct H as (s1 & g1 & (o1 & H) & ES). cbn [subs_step3]. unfold rec3 in *. rewrite ES in *. unfold handle_packet3 in H. rewrite GC in H.
  destruct x; try (rewrite (NS eq_refl); reflexivity);
  destruct (N.ltb_spec (cf_packet_server cfg) len) as [HL|HL];
  (replace (len <=? cf_packet_server cfg) with false by (symmetry; now apply N.leb_gt)) || (replace (len <=? cf_packet_server cfg) with true by (symmetry; now apply N.leb_le)).
  - destruct H as [H|H]; [discriminate|]. now injection H as <- _.
  - unfold handle_subscribe3 in H. destruct (subscribe_all3 now fs s g) as ((s4, g4), r4) eqn:SA.
    assert (NP : r4 <> Panic3 /\ s4 = s1). { destruct r4 as [(?, ?)| |]; cbn in H; destruct H as [H|H]; try discriminate; injection H as -> _; split; auto; discriminate. }
    destruct NP as (NP & ->). exact (sub_all3_rec cfg now fs Hm _ _ _ _ _ GC SA NP f).
  - destruct H as [H|H]; [discriminate|]. now injection H as <- _.
  - unfold handle_unsubscribe3 in H. destruct (unsubscribe_all3 fs s g) as [(s3, g3)|] eqn:U; cbn in H; destruct H as [H|H]; try discriminate. injection H as <- _ _.
    exact (unsub_all3_rec _ _ _ _ _ U ND f).
Qed.

Section Three.
  Variable hash : wpub3 -> N.
  Variable cfg : config.
  Hypothesis Hm : cf_max_qos cfg <= 2.

  Lemma sc3_fields now rc s0 s' present code : session_connect3 now rc s0 = (s', Connack3 present code) ->
    z_subs s' = match rc with RcNew3 _ => z_subs s0 | RcPresent3 st => if present then st3_subs st else z_subs s0 end.
  Proof.
    unfold session_connect3. destruct rc as [id|st].
    - intros E. injection E as <- _ _. reflexivity.
    - destruct (_ && _); intros E; injection E as <- <- _; reflexivity.
  Qed.
  Lemma step3_rec s e s' out : sstep3 hash cfg s e s' out -> NoDup (keys (z_subs s)) ->
    NoDup (keys (z_subs s')) /\ forall f, rec3 s' f = subs_step3 cfg (rec3 s) (e, out) f.
  Proof.
    intros S ND. destruct S as [s now len x g s' g' out D WF (GC & h & GR) E|s now len x g s' g' D WF (GC & h & GR) E
                              |s now m s' r E|s b n|s now s' out E|s now m s' r E|s conn last w|s now s0 s' present code PR E].
    - eapply packet3_rec; eauto.
    - eapply packet3_rec; eauto.
    - apply normal3_frame in E. destruct E as (o & ->). auto.
    - auto.
    - apply pendings3_frame in E. destruct E as ((o & ->) & _). auto.
    - apply normal3_frame in E. destruct E as (o & ->). auto.
    - auto.
    - pose proof (sc3_fields _ _ _ _ _ _ E) as F. apply prepared_empty in PR. destruct PR as (_ & PR & _). unfold rec3. rewrite F. cbn [subs_step3].
      destruct present; cbn.
      + split; auto. 
      + rewrite PR. split; [constructor|reflexivity].
  Qed.
  Lemma sub3_ext e : forall m m', (forall x, m x = m' x) -> forall x, subs_step3 cfg m e x = subs_step3 cfg m' e x.
  Proof.
    intros m m' E x. destruct e as [[now len y g| | | | | |t u p] out]; cbn; auto; [|destruct p; auto].
    destruct y; auto; destruct (len <=? _); auto; [now apply g3_ext|now apply dropped_ext].
  Qed.
  Lemma run3_rec s l : srun3 hash cfg s l -> NoDup (keys (z_subs s)) /\ forall f, rec3 s f = subscribed3 cfg l f.
  Proof.
    induction 1 as [s [now s0 id s1 k PR E]|s l e s' out R (ND & IH) S].
    - destruct k as [present code]. pose proof (sc3_fields _ _ _ _ _ _ E) as F. apply prepared_empty in PR. destruct PR as (_ & PR & _). cbn in F.
      unfold rec3. rewrite F, PR. split; [constructor|reflexivity].
    - destruct (step3_rec _ _ _ _ S ND) as (ND' & E). split; auto. intros f. rewrite E. unfold subscribed3. rewrite fold_left_app. cbn [fold_left].
      now apply sub3_ext.
  Qed.
End Three.
