(** Proofs for C63. *)
From Coq Require Import List Bool NArith String Lia.
From Verif Require Import Base BaseLemmas TopicModel MsgModel PendingModel OutModel RouteModel RouteSpec RouteInv RetainModel GlobModel Sess5Model Sess3Model ConnModel RegModel BrokerModel
  InSpec DelivSpec RecvSpec InProofs InRun InRun3 SubProofs SubFacts TabProofs SubsSpec SubsProofs DelivLast BrokerSpec FrameProofs CoreProofs BrokerInv TaskMove StepProofs RunProofs LifeSpec LifeProofs OfferSpec.
Import ListNotations.
Local Open Scope N_scope.
Local Open Scope list_scope.

Definition ok5 (cfg : config) (s : sess5) : Prop := forall f d, aget f (s_subs s) = Some d -> allowed_sub cfg f (so_qos (sd_opts d)) (sd_id d).
Definition ok3 (cfg : config) (s : sess3) : Prop := forall f q, aget f (z_subs s) = Some q -> qos_num q <= cf_max_qos cfg /\ plain f.

Lemma max_num cfg mq : max_allowed_qos cfg = Some mq -> qos_num mq = cf_max_qos cfg.
Proof. unfold max_allowed_qos. destruct (cf_max_qos cfg) as [|[[p|p|]|[p|p|]|]] eqn:E; intros H; inversion H; reflexivity. Qed.
Lemma min_le a b : qos_num (qos_min a b) <= qos_num b.
Proof. destruct a, b; vm_compute; discriminate. Qed.

Lemma one_ok cfg now id f o s g s' g' code out : subscribe_one now id f o s g = Done (s', g', code, out) -> g_cfg g = cfg ->
  (id <> None -> cf_subid cfg = true) -> ok5 cfg s -> ok5 cfg s' /\ g_cfg g' = cfg.
Proof.
  unfold subscribe_one. intros E GC ID OK. rewrite GC in E. destruct (max_allowed_qos cfg) as [mq|] eqn:MQ; [|discriminate]. apply max_num in MQ.
  set (cd := sub_code _ _ _) in *. destruct (N.ltb_spec cd 0x80) as [LT|GE].
  2:{ injection E as <- <- _ _. auto. }
  destruct (rt_subscribe _ _ _ _) as (t, p) eqn:R. destruct p; [discriminate|].
  set (o1 := SubOpts _ _ _ _) in *.
  assert (A : allowed_sub cfg f (so_qos o1) id).
  { unfold cd, sub_code in LT. unfold allowed_sub. split; [unfold o1; cbn; rewrite <- MQ; apply min_le|].
    destruct (cf_shared cfg) eqn:SH; cbn [negb andb] in LT.
    - split; [|auto]. intros W. apply has_wildcard_iff in W. rewrite W in LT. destruct (cf_wildcard cfg); auto. exfalso. revert LT. vm_compute. discriminate.
    - destruct (is_shared f) eqn:IS; [exfalso; revert LT; vm_compute; discriminate|]. split.
      + intros W. apply has_wildcard_iff in W. rewrite W in LT. destruct (cf_wildcard cfg); auto. exfalso. revert LT. vm_compute. discriminate.
      + split; auto. intros NP. apply is_shared_iff in NP. congruence. }
  assert (K : forall s', s_subs s' = aset f (SubData o1 id) (s_subs s) -> ok5 cfg s').
  { intros s1 B x d. rewrite B, aget_aset. destruct (eqb_spec x f) as [->|]; [|apply OK]. intros H. injection H as <-. exact A. }
  destruct (_ && _).
  2:{ injection E as <- <- _ _. split; [apply K; auto|auto]. }
  destruct (ret_get_matches _ _); [|discriminate].
  destruct (send_retained _ _ _ _ _) as ((s2, k), pe) eqn:S. apply retained_frame in S. destruct S as ((oo & ->) & _).
  destruct pe.
  - destruct (pendings5 now _) as (s3, k2) eqn:Q. apply pendings_frame in Q. destruct Q as (oo2 & ->).
    injection E as <- <- _ _. split; [apply K; auto|auto].
  - injection E as <- <- _ _. split; [apply K; auto|auto].
Qed.
Lemma all_ok cfg now id fs : (id <> None -> cf_subid cfg = true) -> forall s g s' g' codes out, subscribe_all now id fs s g = Done (s', g', codes, out) ->
  g_cfg g = cfg -> ok5 cfg s -> ok5 cfg s'.
Proof.
  intros ID. induction fs as [|(f, o) fs IH]; intros s g s' g' codes out; cbn [subscribe_all].
  { intros E; injection E as <- _ _ _. auto. }
  destruct (subscribe_one now id f o s g) as [(((s1, g1), c1), k1)|] eqn:S1; [|discriminate].
  destruct (subscribe_all now id fs s1 g1) as [(((s2, g2), c2), k2)|] eqn:S2; [|discriminate].
  intros E GC OK. injection E as <- _ _ _. destruct (one_ok _ _ _ _ _ _ _ _ _ _ _ S1 GC ID OK). eapply IH; eauto.
Qed.
Lemma unsub_ok cfg fs : forall s g s' g' codes, unsubscribe_all fs s g = Done (s', g', codes) -> NoDup (keys (s_subs s)) -> ok5 cfg s -> ok5 cfg s'.
Proof.
  induction fs as [|f fs IH]; intros s g s' g' codes; cbn [unsubscribe_all].
  { intros E; injection E as <- _ _. auto. }
  destruct (rt_unsubscribe _ _ _) as (t, p) eqn:R. destruct p; [discriminate|].
  destruct (unsubscribe_all fs _ _) as [((s2, g2), c2)|] eqn:S2; [|discriminate].
  intros E ND OK. injection E as <- _ _. apply (IH _ _ _ _ _ S2 (NoDup_adel _ _ ND)).
  intros x d. cbn [s_subs with_subs]. rewrite aget_adel by auto. destruct (eqb x f); [discriminate|apply OK].
Qed.
Lemma packet_ok cfg hash pick now len x s g s' g' out : packet_step5 hash pick now len x s g = Go s' g' out -> g_cfg g = cfg -> NoDup (keys (s_subs s)) ->
  ok5 cfg s -> ok5 cfg s'.
Proof.
  intros E GC ND OK. pose proof (packet5_moved hash pick now len x s g) as MV. rewrite E in MV. destruct MV as (_ & _ & _ & _ & ops & SY & FO).
  assert (NS : no_sub5 x = true -> s_subs s' = s_subs s).
  { intros N. assert (F : filters5 x = []) by (destruct x; try discriminate; reflexivity). rewrite F in FO. destruct ops; [now inversion SY|inversion FO as [|? ? [FX _]]; contradiction]. }
  unfold packet_step5 in E. destruct (handle_packet5 hash pick now len x s g) as [s1 g1 o1| |] eqn:H; try discriminate.
  destruct (after_packet5 now s1) as (s2, o2) eqn:A. injection E as <- <- <-. apply after_frame in A. destruct A as ((oo & tt & ->) & _).
  unfold ok5 in *. cbn [s_subs with_out with_last] in *.
  destruct x; try (rewrite (NS eq_refl); exact OK); unfold handle_packet5 in H;
    (destruct (_ <? len); [cbn in H; injection H as <- <- <-; exact OK|]).
  - unfold handle_subscribe5 in H.
    assert (C : (if negb (cf_subid (g_cfg g)) && match id with Some _ => true | None => false end
      then Done (s, g, [KSuback p (map (fun _ => RC_subid_not_supported) fs)])
      else match subscribe_all now id fs s g with Panic => Panic | Done (s', g', codes, out) => Done (s', g', (out ++ [KSuback p codes])%list) end) = Done (s1, g1, o1) -> ok5 cfg s1).
    { destruct (_ && _) eqn:B.
      - intros E. injection E as <- _ <-. exact OK.
      - destruct (subscribe_all now id fs s g) as [(((s4, g4), c4), k4)|] eqn:SA; [|discriminate]. intros E. injection E as <- _ <-.
        refine (all_ok cfg now id fs _ _ _ _ _ _ _ SA GC OK). intros NI. rewrite GC in B. destruct id; [|congruence]. destruct (cf_subid cfg); auto. }
    destruct id as [[|i]|]; cbn [error_disconnect] in H.
    + injection H as <- _ <-. exact OK.
    + destruct (_ && _); [|destruct (subscribe_all _ _ _ _ _) as [(((s4, g4), c4), k4)|] eqn:SA; [|discriminate]]; injection H as <- <- <-; apply C; reflexivity.
    + destruct (_ && _); [|destruct (subscribe_all _ _ _ _ _) as [(((s4, g4), c4), k4)|] eqn:SA; [|discriminate]]; injection H as <- <- <-; apply C; reflexivity.
  - unfold handle_unsubscribe5 in H. destruct (unsubscribe_all fs s g) as [((s3, g3), c3)|] eqn:U; [|discriminate]. injection H as <- _ _.
    exact (unsub_ok cfg _ _ _ _ _ _ U ND OK).
Qed.

Lemma srun5_ok hash cfg s l : srun5 hash cfg s l -> ok5 cfg s.
Proof.
  induction 1 as [s [t0 now uuid p data id s1 k E]|s l e s' out R IH S].
  - assert (B : s_subs s1 = []).
    { unfold session_connect5 in E. cbn [cn_s new_conn] in E. destruct (max_allowed_qos cfg); [|discriminate]. injection E as E _. subst s1.
      destruct (_ <? _); match goal with |- context [if ?b then _ else _] => destruct b end; reflexivity. }
    intros f d. rewrite B. discriminate.
  - pose proof (run_rec _ _ _ _ R) as (ND & _).
    destruct S as [pk s now len x g s' g' out D WF (GC & GW) E|s now m s' r E|s b n|s now s' out E|s now m s' r E|s reason s' k E|s conn last w|s t0 now uuid p data s' k E].
    + eapply packet_ok; eauto.
    + apply normal_frame in E. destruct E as (o & ->). exact IH.
    + exact IH.
    + apply pendings_frame in E. destruct E as (o & ->). exact IH.
    + apply normal_frame in E. destruct E as (o & ->). exact IH.
    + injection E as <- <-. exact IH.
    + exact IH.
    + apply take_fields in E. destruct E as (_ & _ & _ & _ & E). intros f d. rewrite E. destruct (co_clean p); [discriminate|apply IH].
Qed.

Lemma no_ids hash pick cfg h l w s s' g out c xs y hash' l' r :
  published5 hash pick cfg h l w s s' g out -> handed (s_bcast s) (s_bcast s') c xs -> In y xs ->
  cf_subid cfg = false -> srun5 hash' cfg r l' ->
  forall now, exists r' o, passes5 now cfg y r r' o /\ forall p, o = Some p -> pp_subids (p5_props p) = [].
Proof.
  intros P H Y NI R now.
  destruct (c22 _ _ _ _ _ _ _ _ _ _ _ _ P H) as (_ & X). destruct (X y Y) as (T & _ & Z). destruct (Z now r) as (r' & o & PA & K).
  exists r', o. split; auto. intros p E. destruct (K p E) as (_ & IFF). destruct (pp_subids (p5_props p)) as [|i is]; auto. exfalso.
  destruct (proj1 (IFF i) (or_introl eq_refl)) as (f & q & sub & _ & G & ID).
  destruct (srun5_ok _ _ _ _ R f sub G) as (_ & _ & _ & B). rewrite B in NI; [discriminate|congruence].
Qed.

(** ** MQTT 3 *)
Lemma srun3_ok hash cfg s l : cf_max_qos cfg <= 2 -> srun3 hash cfg s l -> ok3 cfg s.
Proof.
  intros Hm R. pose proof (run3_rec hash cfg Hm _ _ R) as (_ & E). intros f q H. unfold rec3 in E. rewrite E in H. clear E R.
  revert f q H. unfold subscribed3.
  assert (G : forall fs m, (forall f q, m f = Some q -> qos_num q <= cf_max_qos cfg /\ plain f) -> forall f q, granted3 (cf_max_qos cfg) m fs f = Some q -> qos_num q <= cf_max_qos cfg /\ plain f).
  { induction fs as [|(f0, q0) fs IH]; intros m M f q; cbn; auto. destruct (is_shared f0) eqn:S0; auto. apply IH. intros f1 q1. destruct (String.eqb_spec f1 f0) as [->|]; auto.
    intros H. injection H as <-. split.
    - destruct (N.min_spec (qos_num q0) (cf_max_qos cfg)) as [[A ->]|[A ->]].
      + destruct q0; cbn in *; lia.
      + destruct (cf_max_qos cfg) as [|[[]|[]|]]; cbn in *; lia.
    - unfold is_shared in S0. unfold plain. destruct (shared_info f0); congruence. }
  assert (Dr : forall m fs, (forall f q, m f = Some q -> qos_num q <= cf_max_qos cfg /\ plain f) -> forall f q, dropped m fs f = Some q -> qos_num q <= cf_max_qos cfg /\ plain f).
  { intros m fs M f q. unfold dropped. destruct (existsb _ _); [discriminate|apply M]. }
  assert (ST : forall m e, (forall f q, m f = Some q -> qos_num q <= cf_max_qos cfg /\ plain f) -> forall f q, subs_step3 cfg m e f = Some q -> qos_num q <= cf_max_qos cfg /\ plain f).
  { intros m [[now len y g| | | | | |t u p] out] M f q; cbn [subs_step3]; auto.
    - destruct y; auto; destruct (len <=? _); auto; [apply G; auto|apply Dr; auto].
    - destruct p; auto. discriminate. }
  assert (FL : forall l m, (forall f q, m f = Some q -> qos_num q <= cf_max_qos cfg /\ plain f) -> forall f q, fold_left (subs_step3 cfg) l m f = Some q -> qos_num q <= cf_max_qos cfg /\ plain f).
  { induction l0 as [|e l0 IH]; intros m M; cbn [fold_left]; auto. apply IH. apply ST. auto. }
  apply FL. discriminate.
Qed.

Section Broker.
  Variables (hash5 : wpub5 -> N) (hash3 : wpub3 -> N) (pick : draw -> broker -> string -> string -> N).
  Local Notation brun := (brun hash5 hash3 pick).
  Local Notation bstep := (bstep hash5 hash3 pick).

  Lemma offer_subs c h b k s f d : brun c h b -> (forall p, In p h -> proper p) -> sess_at b k = Some (A5 s) -> aget f (s_subs s) = Some d ->
    allowed_sub c f (so_qos (sd_opts d)) (sd_id d).
  Proof. intros R P A D. destruct (life5_lemma _ _ _ _ _ _ _ _ R P A) as (l & _ & L). exact (srun5_ok _ _ _ _ L _ _ D). Qed.
  Lemma offer_subs3 c h b k s f q : cf_max_qos c <= 2 -> brun c h b -> (forall p, In p h -> proper p) -> sess_at b k = Some (A3 s) -> aget f (z_subs s) = Some q ->
    qos_num q <= cf_max_qos c /\ plain f.
  Proof. intros Hm R P A D. destruct (life3_lemma _ _ _ _ _ _ _ _ R P A) as (l & _ & L). exact (srun3_ok _ _ _ _ Hm L _ _ D). Qed.

  (** ** Wills *)
  Definition w_ok (c : config) (o : option awill) : Prop := forall w, o = Some (W5 w) -> allowed_will c (wl_qos w) (wl_retain w).
  Definition wills_ok (c : config) (b : broker) : Prop := forall k t a, aget k (b_tasks b) = Some t -> t_sess t = Some a -> w_ok c (a_will a).

  Lemma joined_ok b x r a o j : pre_ok x -> joined b x r a o j -> w_ok (b_cfg b) (a_will a).
  Proof.
    destruct x as [cn data|s0]; cbn.
    - intros (P & _) (rc & s & ack & _ & S & SC & -> & _) w. pose proof (session_connect5_facts _ _ _ _ _ _ _ S) as (_ & _ & W & F & _).
      cbn [a_will]. rewrite W. destruct (s_will (cn_s cn)) as [w0|] eqn:SW; [|discriminate]. intros H. injection H as <-.
      assert (AC : ka_code ack = RC_success) by (destruct (N.eqb_spec (ka_code ack) RC_success) as [Q|Q]; [auto|congruence]).
      clear F SC. unfold session_connect5 in S. revert S.
      match goal with |- context [let '(s1, present) := ?e in _] => destruct e as (s1, present) eqn:E0 end.
      destruct (max_allowed_qos (b_cfg b)) as [mq|] eqn:MQ; [|discriminate]. intros S. injection S as S1 S2. subst ack. cbn [ka_code] in AC.
      match type of AC with will_code _ _ ?e = _ => assert (E1 : e = Some w0) end.
      { assert (WW : s_will s1 = Some w0).
        { rewrite <- SW. destruct rc as [id|st]; [|destruct (negb (s_clean (cn_s cn)))]; injection E0 as <- _; reflexivity. }
        destruct (_ <? _); cbn; exact WW. }
      rewrite E1 in AC. unfold will_code in AC. apply max_num in MQ. unfold allowed_will. rewrite <- MQ.
      destruct (wl_retain w0); destruct (cf_retain (b_cfg b)); cbn [andb negb] in AC; try (vm_compute in AC; discriminate AC);
        (destruct (qos_leb (wl_qos w0) mq) eqn:QL; [|vm_compute in AC; discriminate AC]); (split; [|auto]);
        destruct (wl_qos w0), mq; try discriminate QL; vm_compute; discriminate.
    - intros _ (rc & s' & ack & _ & _ & -> & _) w. cbn. destruct (z_will s'); discriminate.
  Qed.

  Lemma wills_step c e b b' out : good b -> b_cfg b = c -> wills_ok c b -> bstep e b = BOk b' out ->
    wills_ok c b' /\ forall k w, In (W5 w) (wills_of k out) -> allowed_will c (wl_qos w) (wl_retain w).
  Proof.
    intros [I P] CF OK S.
    assert (SO : forall a w, w_ok c (a_will a) -> In (W5 w) (send_ok a) -> allowed_will c (wl_qos w) (wl_retain w)).
    { intros a w A H. destruct (send_ok_cases a) as [E|(w0 & W & E)]; rewrite E in H; [destruct H|]. destruct H as [->|[]]. auto. }
    split.
    - intros k t' a' T' SS. pose proof (step_move _ _ _ _ _ _ _ I S k) as M. rewrite T' in M.
      destruct (aget k (b_tasks b)) as [t|] eqn:T.
      + pose proof (fun a => OK k t a T) as OKt.
        inversion M; subst; cbn [t_sess] in *; try discriminate; try (injection SS as <-);
          try (match goal with H : akept _ _ |- _ => rewrite (akept_will _ _ H) end; apply OKt; reflexivity);
          try (match goal with H : aspent _ _ |- _ => rewrite (aspent_will _ _ H) end; intros ?; discriminate);
          try (apply OKt; auto; fail).
        * eapply joined_ok; [|eassumption]. exact (P _ _ T).
        * cbn [a_will]. match goal with H : if s_cdisc ?s' then _ else _ |- _ => destruct (s_cdisc s'); destruct H as (W & _); rewrite W end; [destruct (code =? 0)|].
          -- intros ?; discriminate.
          -- apply (OKt _ eq_refl).
          -- apply (OKt _ eq_refl).
        * cbn [a_will]. destruct (z_will s'); intros ?; discriminate.
        * intros w. pose proof (OKt _ eq_refl w) as X. destruct a; exact X.
      + inversion M; subst; cbn in SS; discriminate.
    - intros k w. pose proof (step_move _ _ _ _ _ _ _ I S k) as M.
      destruct (aget k (b_tasks b)) as [t|] eqn:T.
      + pose proof (fun a => OK k t a T) as OKt. inversion M; subst; try (intros []; fail); apply SO; apply OKt; reflexivity.
      + inversion M; subst; intros [].
  Qed.

  Lemma offer_will c h b k w : brun c h b -> In (W5 w) (wills_in k h) -> allowed_will c (wl_qos w) (wl_retain w).
  Proof.
    intros R. enough (X : wills_ok c b /\ forall k w, In (W5 w) (wills_in k h) -> allowed_will c (wl_qos w) (wl_retain w)) by (apply X).
    clear k w. induction R as [|h b e b' out R [IH1 IH2] S].
    - split; [intros k t a T; discriminate|intros k w []].
    - destruct (run_glob _ _ _ _ _ _ R) as (CF & _). destruct (wills_step c _ _ _ _ (run_good _ _ _ _ _ _ R) CF IH1 S) as (A & B).
      split; auto. intros k w. unfold wills_in. cbn [flat_map w_out]. rewrite in_app_iff. intros [H|H]; eauto.
  Qed.
End Broker.
