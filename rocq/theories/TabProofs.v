(** How the packets of a session change its subscriptions, the routing table and the retained
    messages together. *)
From Coq Require Import List Bool NArith String Lia.
From Verif Require Import Base BaseLemmas TopicModel MsgModel PendingModel OutModel RouteModel RouteSpec RouteInv RetainModel GlobModel Sess5Model Sess3Model ConnModel
  InSpec RecvSpec InProofs InRun InRun3 SubFacts FrameProofs.
Import ListNotations.
Local Open Scope N_scope.
Local Open Scope list_scope.

Section Sync.
  Context {V : Type} (qf : V -> qos) (c : client_id).

  (** The calls [ops] were made for client [c], and its subscriptions [m] became [m']. *)
  Inductive sync : list (string * V) -> route_table -> list rop -> list (string * V) -> route_table -> Prop :=
  | sy_nil m t : sync m t [] m t
  | sy_sub m t f v t1 ops m2 t2 : rt_subscribe t f c (qf v) = (t1, false) -> sync (aset f v m) t1 ops m2 t2 ->
      sync m t (Sub f c (qf v) :: ops) m2 t2
  | sy_unsub m t f t1 ops m2 t2 : rt_unsubscribe t f c = (t1, false) -> sync (adel f m) t1 ops m2 t2 ->
      sync m t (Unsub f c :: ops) m2 t2.

  Lemma sync_app m t o1 m1 t1 o2 m2 t2 : sync m t o1 m1 t1 -> sync m1 t1 o2 m2 t2 -> sync m t (o1 ++ o2) m2 t2.
  Proof. induction 1; auto; intros; cbn; econstructor; eauto. Qed.

  Lemma snoc_app {A} (h : list A) o ops : h ++ o :: ops = (h ++ [o]) ++ ops.
  Proof. now rewrite <- app_assoc. Qed.
  Lemma run_cons_app h o ops : rt_run (h ++ o :: ops) = rt_run ((h ++ [o]) ++ ops).
  Proof. now rewrite <- app_assoc. Qed.
  Lemma sync_route m t ops m' t' : sync m t ops m' t' -> forall h, t = rt_run h -> t' = rt_run (h ++ ops).
  Proof.
    induction 1 as [m t|m t f v t1 ops m2 t2 R S IH|m t f t1 ops m2 t2 R S IH]; intros h E; [now rewrite app_nil_r| |];
      rewrite run_cons_app; apply IH; rewrite rt_run_snoc; cbn [rt_step]; rewrite <- E, R; reflexivity.
  Qed.
  Lemma sync_nodup m t ops m' t' : sync m t ops m' t' -> NoDup (keys m) -> NoDup (keys m').
  Proof. induction 1; auto; intros; apply IHsync; [now apply NoDup_aset|now apply NoDup_adel]. Qed.
  Lemma sync_client m t ops m' t' : sync m t ops m' t' -> Forall (fun o => match o with Sub _ d _ | Unsub _ d => d = c end) ops.
  Proof. induction 1; constructor; auto. Qed.

  Lemma current_other ops : Forall (fun o => match o with Sub _ d _ | Unsub _ d => d = c end) ops ->
    forall h f d, d <> c -> current (h ++ ops) f d = current h f d.
  Proof.
    induction 1 as [|o ops O _ IH]; intros h f d NE; [now rewrite app_nil_r|].
    replace (h ++ o :: ops) with ((h ++ [o]) ++ ops) by now rewrite <- app_assoc. rewrite IH by auto. rewrite current_snoc.
    destruct o as [f' c' q|f' c']; subst c'; (destruct (N.eqb_spec c d); [congruence|]); now rewrite andb_false_r.
  Qed.
  (** Everything the client holds is in the table. *)
  Definition has h m := forall f v, aget f m = Some v -> current h f c = Some (qf v).
  (** And nothing else of the client is. *)
  Definition only h (m : list (string * V)) := forall f, aget f m = None -> current h f c = None.
  Lemma sync_has m t ops m' t' : sync m t ops m' t' -> NoDup (keys m) -> forall h, has h m -> has (h ++ ops) m'.
  Proof.
    induction 1 as [m t|m t f v t1 ops m2 t2 R S IH|m t f t1 ops m2 t2 R S IH]; intros ND h H; [now rewrite app_nil_r| |];
      rewrite snoc_app.
    - apply IH; [now apply NoDup_aset|]. intros f' v' A. rewrite current_snoc. rewrite aget_aset in A. change (@eqb string _ f' f) with (String.eqb f' f) in A.
      rewrite String.eqb_sym. destruct (String.eqb f' f); [|apply H; auto]. rewrite N.eqb_refl. cbn. congruence.
    - apply IH; [now apply NoDup_adel|]. intros f' v' A. rewrite current_snoc. rewrite aget_adel in A by auto. change (@eqb string _ f' f) with (String.eqb f' f) in A.
      rewrite String.eqb_sym. destruct (String.eqb f' f); [discriminate|]. cbn. auto.
  Qed.
  Lemma sync_only m t ops m' t' : sync m t ops m' t' -> NoDup (keys m) -> forall h, only h m -> only (h ++ ops) m'.
  Proof.
    induction 1 as [m t|m t f v t1 ops m2 t2 R S IH|m t f t1 ops m2 t2 R S IH]; intros ND h H; [now rewrite app_nil_r| |];
      rewrite snoc_app.
    - apply IH; [now apply NoDup_aset|]. intros f' A. rewrite current_snoc. rewrite aget_aset in A. change (@eqb string _ f' f) with (String.eqb f' f) in A.
      rewrite String.eqb_sym. destruct (String.eqb f' f); [discriminate|]. cbn. auto.
    - apply IH; [now apply NoDup_adel|]. intros f' A. rewrite current_snoc. rewrite aget_adel in A by auto. change (@eqb string _ f' f) with (String.eqb f' f) in A.
      rewrite String.eqb_sym. destruct (String.eqb f' f); [|cbn; auto]. now rewrite N.eqb_refl.
  Qed.
End Sync.

(** The retained messages after some stores and removals. *)
Definition rsteps (t : tnode) (ro : list retop) : tnode := fold_left (fun t o => fst (ret_step t o)) ro t.
Definition rmoved (t t' : tnode) : Prop := exists ro, t' = rsteps t ro.
Lemma rmoved_refl t : rmoved t t. Proof. now exists []. Qed.
Lemma rmoved_trans a b c : rmoved a b -> rmoved b c -> rmoved a c.
Proof. intros (x & ->) (y & ->). exists (x ++ y). unfold rsteps. now rewrite fold_left_app. Qed.
Lemma rmoved_run t t' hr : rmoved t t' -> t = ret_run hr -> exists hr', t' = ret_run hr'.
Proof. intros (ro & ->) ->. exists (hr ++ ro). unfold rsteps, ret_run. now rewrite fold_left_app. Qed.
Lemma store_rmoved r x g : rmoved (g_retain g) (g_retain (store_retained r x g)).
Proof.
  unfold store_retained. destruct r; [|apply rmoved_refl]. destruct (String.eqb _ _); cbn.
  - exists [RDel (rc_topic x)]. reflexivity.
  - exists [RIns x]. reflexivity.
Qed.

Definition sq5 (v : subdata) : qos := so_qos (sd_opts v).
Definition sq3 (q : qos) : qos := q.
(** The call is for one of the filters [fs]; if [strict], shared filters are not subscribed to, else none is
    unsubscribed from. *)
(** The call is for one of the filters [fs]; shared filters are not subscribed to if [strict]. *)
Definition op_in (fs : list string) (strict : bool) (o : rop) : Prop :=
  In (op_filter o) fs /\ match o with Sub f _ _ => strict = true -> plain f | Unsub _ _ => strict = true end.
Lemma op_in_more fs fs' st o : (forall f, In f fs -> In f fs') -> op_in fs st o -> op_in fs' st o.
Proof. intros I (A & B). split; auto. Qed.
Lemma not_shared f : is_shared f = false -> plain f.
Proof. unfold is_shared, plain. destruct (shared_info f); [discriminate|auto]. Qed.

(** ** MQTT 5 *)
Definition moved5 (st : bool) (s : sess5) (g : glob) (fs : list string) (s' : sess5) (g' : glob) : Prop :=
  s_id s' = s_id s /\ g_cfg g' = g_cfg g /\ g_live g' = g_live g /\ rmoved (g_retain g) (g_retain g') /\
  exists ops, sync sq5 (s_id s) (s_subs s) (g_route g) ops (s_subs s') (g_route g') /\ Forall (op_in fs st) ops.
Lemma moved5_none st s g fs s' g' : s_id s' = s_id s -> s_subs s' = s_subs s -> g_cfg g' = g_cfg g -> g_live g' = g_live g -> g_route g' = g_route g ->
  rmoved (g_retain g) (g_retain g') -> moved5 st s g fs s' g'.
Proof. intros A B C D E F. repeat (split; auto). exists []. rewrite B, E. split; [constructor|auto]. Qed.
Lemma moved5_trans st s g fs s1 g1 s2 g2 : moved5 st s g fs s1 g1 -> moved5 st s1 g1 fs s2 g2 -> moved5 st s g fs s2 g2.
Proof.
  intros (A & B & C & D & o1 & E & F) (A' & B' & C' & D' & o2 & E' & F'). split; [congruence|]. split; [congruence|]. split; [congruence|]. split; [eapply rmoved_trans; eauto|].
  rewrite A in E'. exists (o1 ++ o2). split; [eapply sync_app; eauto|]. apply Forall_app; auto.
Qed.
Lemma moved5_more st s g fs fs' s' g' : (forall f, In f fs -> In f fs') -> moved5 st s g fs s' g' -> moved5 st s g fs' s' g'.
Proof. intros I (A & B & C & D & ops & E & F). repeat (split; auto). exists ops. split; auto. eapply Forall_impl; [|exact F]. intros o. now apply op_in_more. Qed.

Lemma sub_one_moved st now id f o s g s' g' code out : (st = true -> cf_shared (g_cfg g) = false) -> subscribe_one now id f o s g = Done (s', g', code, out) -> moved5 st s g [f] s' g'.
Proof.
  intros HS. unfold subscribe_one. destruct (max_allowed_qos _) as [mq|]; [|discriminate]. destruct (_ <? 0x80) eqn:LT.
  2:{ intros E. injection E as <- <- _ _. apply moved5_none; auto. apply rmoved_refl. }
  destruct (rt_subscribe _ _ _ _) as (t, p) eqn:R. destruct p; [discriminate|].
  set (o1 := SubOpts _ _ _ _) in *.
  assert (K : forall s', s_id s' = s_id s -> s_subs s' = aset f (SubData o1 id) (s_subs s) -> moved5 st s g [f] s' (set_route t g)).
  { intros s1 I B. split; auto. split; auto. split; auto. split; [apply rmoved_refl|]. exists [Sub f (s_id s) (sq5 (SubData o1 id))]. split.
    - eapply sy_sub; [exact R|]. rewrite B. constructor.
    - constructor; [|auto]. split; [left; reflexivity|]. intros ST. apply not_shared. destruct (is_shared f) eqn:SH; auto. unfold sub_code in LT. rewrite (HS ST), SH in LT. discriminate. }
  destruct (_ && _).
  2:{ intros E. injection E as <- <- _ _. apply K; auto. }
  destruct (ret_get_matches _ _); [|discriminate].
  destruct (send_retained _ _ _ _ _) as ((s2, k), pe) eqn:S. apply retained_frame in S. destruct S as ((oo & ->) & _).
  destruct pe.
  - destruct (pendings5 now _) as (s3, k2) eqn:Q. apply pendings_frame in Q. destruct Q as (oo2 & ->).
    intros E. injection E as <- <- _ _. apply K; auto.
  - intros E. injection E as <- <- _ _. apply K; auto.
Qed.
Lemma sub_all_moved st now id fs : forall s g s' g' codes out, (st = true -> cf_shared (g_cfg g) = false) -> subscribe_all now id fs s g = Done (s', g', codes, out) -> moved5 st s g (map fst fs) s' g'.
Proof.
  induction fs as [|(f, o) fs IH]; intros s g s' g' codes out HS; cbn [subscribe_all].
  { intros E; injection E as <- <- _ _. apply moved5_none; auto. apply rmoved_refl. }
  destruct (subscribe_one now id f o s g) as [(((s1, g1), c1), k1)|] eqn:S1; [|discriminate].
  destruct (subscribe_all now id fs s1 g1) as [(((s2, g2), c2), k2)|] eqn:S2; [|discriminate].
  intros E. injection E as <- <- _ _. pose proof (sub_one_moved st _ _ _ _ _ _ _ _ _ _ HS S1) as M1. eapply moved5_trans.
  - eapply moved5_more; [|exact M1]. cbn. intros ? [->|[]]. auto.
  - eapply moved5_more; [|eapply IH; eauto; destruct M1 as (_ & -> & _); exact HS]. cbn. auto.
Qed.
Lemma unsub_all_moved fs : forall s g s' g' codes, unsubscribe_all fs s g = Done (s', g', codes) -> moved5 true s g fs s' g'.
Proof.
  induction fs as [|f fs IH]; intros s g s' g' codes; cbn [unsubscribe_all].
  { intros E; injection E as <- <- _. apply moved5_none; auto. apply rmoved_refl. }
  destruct (rt_unsubscribe _ _ _) as (t, p) eqn:R. destruct p; [discriminate|].
  destruct (unsubscribe_all fs _ _) as [((s2, g2), c2)|] eqn:S2; [|discriminate].
  intros E. injection E as <- <- _. eapply moved5_trans with (s1 := with_subs (adel f (s_subs s)) s) (g1 := set_route t g).
  - split; auto. split; auto. split; auto. split; [apply rmoved_refl|]. exists [Unsub f (s_id s)]. split; [eapply sy_unsub; [exact R|]; constructor|]. constructor; [split; cbn; auto|auto].
  - eapply moved5_more; [|eapply IH; eauto]. cbn. auto.
Qed.
Lemma send5_rmoved pick m s g s' g' n : send_publish5 pick m s g = Done (s', g', n) -> rmoved (g_retain g) (g_retain g').
Proof.
  unfold send_publish5. destruct (collect_senders _ _ _); [|discriminate].
  destruct (fold_left _ _ _) as (b, k). intros E. injection E as <- <- _. apply store_rmoved.
Qed.
Lemma publish5_rmoved hash pick w s g s' g' out : handle_publish5 hash pick w s g = Done (s', g', out) -> rmoved (g_retain g) (g_retain g').
Proof.
  unfold handle_publish5.
  assert (REF : forall code reason s0, (let '(s1, k) := error_disconnect code reason s0 in Done (s1, g, [k])) = Done (s', g', out) -> rmoved (g_retain g) (g_retain g')).
  { intros code reason s0. destruct (error_disconnect code reason s0) as [s1 k]. intros H. inversion H; subst. apply rmoved_refl. }
  destruct (starts_with_dollar _); [apply REF|]. destruct (_ && _); [apply REF|].
  destruct (resolve_topic _ w s) as [s1 [T|[code reason]]]; [|apply REF].
  destruct (negb _); [apply REF|].
  destruct (check_qos2 _ _ _ s1) as [s2 v]. destruct v as [| |code reason].
  - destruct (_ && _); [intros H; inversion H; subst; apply rmoved_refl|]. destruct (enc_len5 w); [|discriminate].
    destruct (send_publish5 _ _ s2 g) as [[[s3 g3] n3]|] eqn:SP; [|discriminate]. intros H; inversion H; subst. eapply send5_rmoved; eauto.
  - intros H; inversion H; subst; apply rmoved_refl.
  - apply REF.
Qed.
Definition strict5 (c : config) (x : in5) : bool := match x with ISub _ _ _ => negb (cf_shared c) | _ => true end.
Lemma packet5_moved hash pick now len x s g : match packet_step5 hash pick now len x s g with
  | Go s' g' _ | Stop s' g' => moved5 (strict5 (g_cfg g) x) s g (filters5 x) s' g'
  | Crash => True
  end.
Proof.
  pose proof rmoved_refl as RR.
  unfold packet_step5. assert (HP : match handle_packet5 hash pick now len x s g with
  | Go s' g' _ | Stop s' g' => moved5 (strict5 (g_cfg g) x) s g (filters5 x) s' g'
  | Crash => True
  end).
  { unfold handle_packet5. destruct (_ <? len); [cbn; apply moved5_none; auto|]. destruct x.
    - destruct (handle_publish5 hash pick w s g) as [((s3, g3), o3)|] eqn:P; auto. pose proof (publish5_rmoved _ _ _ _ _ _ _ _ P). apply publish5_frame in P. destruct P as ((? & _ & ?) & (? & ? & ?) & _). apply moved5_none; auto.
    - apply moved5_none; auto.
    - unfold handle_pubrec5. destruct (out5_on_queue _ _). apply moved5_none; auto.
    - unfold handle_pubrel5. destruct (aget p _); apply moved5_none; auto.
    - apply moved5_none; auto.
    - unfold handle_subscribe5.
      assert (C : forall P0, match (match (if negb (cf_subid (g_cfg g)) && P0
           then Done (s, g, [KSuback p (map (fun _ => RC_subid_not_supported) fs)])
           else match subscribe_all now id fs s g with
                | Done (s', g', codes, out) => Done (s', g', (out ++ [KSuback p codes])%list)
                | Panic => Panic end) with Done (s', g', out) => Go s' g' out | Panic => Crash end) with
           | Go s' g' _ | Stop s' g' => moved5 (negb (cf_shared (g_cfg g))) s g (map fst fs) s' g'
           | Crash => True end).
      { intros P0. destruct (_ && _); [apply moved5_none; auto|]. destruct (subscribe_all now id fs s g) as [(((s4, g4), c4), k4)|] eqn:SA; auto.
        eapply sub_all_moved; eauto. apply negb_true_iff. }
      destruct id as [[|i]|]; [cbn; apply moved5_none; auto|apply C|apply C].
    - unfold handle_unsubscribe5. destruct (unsubscribe_all fs s g) as [((s3, g3), c3)|] eqn:U; auto. eapply unsub_all_moved; eauto.
    - apply moved5_none; auto.
    - destruct (handle_disconnect5 code expiry s) as (s3, o3) eqn:P. apply disconnect5_frame in P. destruct P as ((? & _ & ?) & _). apply moved5_none; auto.
    - apply moved5_none; auto. }
  destruct (handle_packet5 hash pick now len x s g) as [s1 g1 o1|s1 g1|]; auto.
  destruct (after_packet5 now s1) as (s2, o2) eqn:A. apply after_frame in A. destruct A as ((oo & tt & ->) & _). exact HP.
Qed.
Lemma will5_moved st pick s g s' g' ok : send_will5 pick s g = Done (s', g', ok) -> moved5 st s g [] s' g'.
Proof.
  pose proof rmoved_refl as RR.
  unfold send_will5. destruct (s_will s) as [w|]; [|intros H; inversion H; subst; apply moved5_none; auto]. destruct (enc_len5 _); [|intros H; inversion H; subst; apply moved5_none; auto].
  destruct (send_publish5 _ _ _ _) as [[[s2 g2] n2]|] eqn:P; [|discriminate]. pose proof (send5_rmoved _ _ _ _ _ _ _ P). apply send_publish5_frame in P. destruct P as ((bc & kk & ->) & (? & ? & ?)). intros EQ; inversion EQ; subst. apply moved5_none; auto.
Qed.

(** ** MQTT 3 *)
Definition moved3 (s : sess3) (g : glob) (fs : list string) (s' : sess3) (g' : glob) : Prop :=
  z_id s' = z_id s /\ g_cfg g' = g_cfg g /\ g_live g' = g_live g /\ rmoved (g_retain g) (g_retain g') /\
  exists ops, sync sq3 (z_id s) (z_subs s) (g_route g) ops (z_subs s') (g_route g') /\ Forall (op_in fs true) ops.
Lemma moved3_none s g fs s' g' : z_id s' = z_id s -> z_subs s' = z_subs s -> g_cfg g' = g_cfg g -> g_live g' = g_live g -> g_route g' = g_route g ->
  rmoved (g_retain g) (g_retain g') -> moved3 s g fs s' g'.
Proof. intros A B C D E F. repeat (split; auto). exists []. rewrite B, E. split; [constructor|auto]. Qed.
Lemma moved3_trans s g fs s1 g1 s2 g2 : moved3 s g fs s1 g1 -> moved3 s1 g1 fs s2 g2 -> moved3 s g fs s2 g2.
Proof.
  intros (A & B & C & D & o1 & E & F) (A' & B' & C' & D' & o2 & E' & F'). split; [congruence|]. split; [congruence|]. split; [congruence|]. split; [eapply rmoved_trans; eauto|].
  rewrite A in E'. exists (o1 ++ o2). split; [eapply sync_app; eauto|]. apply Forall_app; auto.
Qed.
Lemma moved3_more s g fs fs' s' g' : (forall f, In f fs -> In f fs') -> moved3 s g fs s' g' -> moved3 s g fs' s' g'.
Proof. intros I (A & B & C & D & ops & E & F). repeat (split; auto). exists ops. split; auto. eapply Forall_impl; [|exact F]. intros o. now apply op_in_more. Qed.

Lemma sub_one3_moved now f q s g s' g' code out : subscribe_one3 now f q s g = Ok3 (s', g', code, out) -> moved3 s g [f] s' g'.
Proof.
  unfold subscribe_one3. destruct (is_shared f) eqn:SH; [discriminate|]. destruct (max_allowed_qos _) as [mq|]; [|discriminate].
  destruct (rt_subscribe _ _ _ _) as (t, p) eqn:R. destruct p; [discriminate|].
  assert (K : forall s', z_id s' = z_id s -> z_subs s' = aset f (qos_min q mq) (z_subs s) -> moved3 s g [f] s' (set_route t g)).
  { intros s1 I B. split; auto. split; auto. split; auto. split; [apply rmoved_refl|]. exists [Sub f (z_id s) (sq3 (qos_min q mq))]. split.
    - eapply sy_sub; [exact R|]. rewrite B. constructor.
    - constructor; [|auto]. split; [left; reflexivity|]. intros _. now apply not_shared. }
  destruct (ret_get_matches _ _); [|discriminate].
  destruct (send_retained3 _ _ _ _ _) as ((s2, k), pe) eqn:S. apply retained3_frame in S. destruct S as ((oo & ->) & _).
  destruct pe.
  - destruct (pendings3 now _) as (s3, k2) eqn:Q. apply pendings3_frame in Q. destruct Q as ((oo2 & ->) & _).
    intros E. injection E as <- <- _ _. apply K; auto.
  - intros E. injection E as <- <- _ _. apply K; auto.
Qed.
Lemma sub_all3_moved now fs : forall s g s' g' r, subscribe_all3 now fs s g = (s', g', r) -> moved3 s g (map fst fs) s' g'.
Proof.
  pose proof rmoved_refl as RR.
  induction fs as [|(f, q) fs IH]; intros s g s' g' r; cbn [subscribe_all3].
  { intros E; injection E as <- <- _. apply moved3_none; auto. }
  destruct (subscribe_one3 now f q s g) as [(((s1, g1), c1), k1)| |] eqn:S1; try (intros E; injection E as <- <- _; apply moved3_none; auto; fail).
  destruct (subscribe_all3 now fs s1 g1) as ((s2, g2), r2) eqn:S2.
  intros E. assert (s' = s2 /\ g' = g2) as (-> & ->) by (destruct r2 as [(?, ?)| |]; now injection E).
  eapply moved3_trans.
  - eapply moved3_more; [|eapply sub_one3_moved; eauto]. cbn. intros ? [->|[]]. auto.
  - eapply moved3_more; [|eapply IH; eauto]. cbn. auto.
Qed.
Lemma unsub_all3_moved fs : forall s g s' g', unsubscribe_all3 fs s g = Done (s', g') -> moved3 s g fs s' g'.
Proof.
  induction fs as [|f fs IH]; intros s g s' g'; cbn [unsubscribe_all3].
  { intros E; injection E as <- <-. apply moved3_none; auto. apply rmoved_refl. }
  destruct (rt_unsubscribe _ _ _) as (t, p) eqn:R. destruct p; [discriminate|].
  intros E. eapply moved3_trans with (s1 := zwith_subs (adel f (z_subs s)) s) (g1 := set_route t g).
  - split; auto. split; auto. split; auto. split; [apply rmoved_refl|]. exists [Unsub f (z_id s)]. split; [eapply sy_unsub; [exact R|]; constructor|]. constructor; [split; cbn; auto|auto].
  - eapply moved3_more; [|eapply IH; eauto]. cbn. auto.
Qed.
Lemma send3_rmoved m s g s' g' : send_publish3 m s g = Done (s', g') -> rmoved (g_retain g) (g_retain g').
Proof.
  unfold send_publish3. destruct (collect3 _); [|discriminate].
  destruct (fold_left _ _ _) as (b, k). intros E. injection E as <- <-. apply store_rmoved.
Qed.
Lemma publish3_rmoved hash w s g s' g' out : handle_publish3 hash w s g = Ok3 (s', g', out) -> rmoved (g_retain g) (g_retain g').
Proof.
  unfold handle_publish3. destruct (String.eqb _ _); [discriminate|]. destruct (starts_with_dollar _); [discriminate|].
  destruct (is_q0 _ && _); [discriminate|].
  match goal with |- match ?c with None => _ | Some _ => _ end = _ -> _ => destruct c as [s1|] eqn:CK; [|discriminate] end.
  destruct (_ && _); [intros H; inversion H; subst; apply rmoved_refl|]. destruct (enc_len3 w); [|discriminate].
  destruct (send_publish3 _ s1 g) as [[s2 g2]|] eqn:S; [|discriminate]. intros H; inversion H; subst. eapply send3_rmoved; eauto.
Qed.
Lemma packet3_moved hash now len x s g : match packet_step3 hash now len x s g with
  | Go3 s' g' _ | Stop3 s' g' => moved3 s g (filters3 x) s' g'
  | Crash3 => True
  end.
Proof.
  pose proof rmoved_refl as RR.
  unfold packet_step3. assert (HP : match handle_packet3 hash now len x s g with
  | Go3 s' g' _ | Stop3 s' g' => moved3 s g (filters3 x) s' g'
  | Crash3 => True
  end).
  { unfold handle_packet3. destruct (_ <? len); [apply moved3_none; auto|]. destruct x.
    - destruct (handle_publish3 hash w s g) as [((s3, g3), o3)| |] eqn:P; auto; [|apply moved3_none; auto]. pose proof (publish3_rmoved _ _ _ _ _ _ _ P). apply publish3_frame in P. destruct P as ((? & _ & ?) & (? & ? & ?) & _). apply moved3_none; auto.
    - apply moved3_none; auto.
    - unfold handle_pubrec3. destruct (out3_on_queue _ _). apply moved3_none; auto.
    - unfold handle_pubrel3. destruct (aget p _); apply moved3_none; auto.
    - apply moved3_none; auto.
    - unfold handle_subscribe3. destruct (subscribe_all3 now fs s g) as ((s4, g4), r4) eqn:SA. apply sub_all3_moved in SA.
      destruct r4 as [[codes o]| |]; auto.
    - unfold handle_unsubscribe3. destruct (unsubscribe_all3 fs s g) as [(s3, g3)|] eqn:U; auto. eapply unsub_all3_moved; eauto.
    - apply moved3_none; auto.
    - apply moved3_none; auto.
    - apply moved3_none; auto. }
  destruct (handle_packet3 hash now len x s g) as [s1 g1 o1|s1 g1|]; auto.
  destruct (after_packet3 now s1) as (s2, o2) eqn:A. apply after3_frame in A. destruct A as ((oo & tt & ->) & _). exact HP.
Qed.
Lemma will3_moved s g s' g' ok : send_will3 s g = Done (s', g', ok) -> moved3 s g [] s' g'.
Proof.
  pose proof rmoved_refl as RR.
  unfold send_will3. destruct (z_will s) as [w|]; [|intros H; inversion H; subst; apply moved3_none; auto]. destruct (enc_len3 _); [|intros H; inversion H; subst; apply moved3_none; auto].
  destruct (send_publish3 _ _ _) as [[s2 g2]|] eqn:P; [|discriminate]. pose proof (send3_rmoved _ _ _ _ _ P). apply send_publish3_frame in P. destruct P as ((bc & kk & ->) & (? & ? & ?)). intros EQ; inversion EQ; subst. apply moved3_none; auto.
Qed.
