(** Consequences for publishers that meet unsubscribers, and for retained
    messages. *)
From Coq Require Import List Bool String Ascii NArith Arith Lia Permutation.
From Verif Require Import Base BaseLemmas TopicModel TopicSpec TopicProofs MsgModel RouteModel RouteSpec
  RouteProofs RouteHistory RouteInv RetainModel RetainSpec RetainProofs RaceModel RaceSpec RaceProofs RaceRun.
Import ListNotations.
Local Open Scope N_scope.

Lemma bare_target f : bare f = fst (target f).
Proof. unfold bare, target. destruct (shared_info f) as [[g i]|]; reflexivity. Qed.

Lemma emptied ops : forall h p, content_is_empty (cont (root (rt_run h)) p) = false ->
  cont (root (rt_run (h ++ ops))) p = content_new -> exists f c, In (Unsub f c) ops /\ levels (bare f) = p.
Proof.
  induction ops as [|o ops IH]; intros h p N E.
  - rewrite app_nil_r in E. rewrite E in N. discriminate.
  - assert (E' : cont (root (rt_run ((h ++ [o]) ++ ops))) p = content_new) by (rewrite <- app_assoc; exact E).
    destruct (content_is_empty (cont (root (rt_run (h ++ [o]))) p)) eqn:Q.
    + pose proof (rinv_run h) as I. rewrite rt_run_snoc, (rt_step_cont _ _ _ (ri_wf _ _ I) (ri_clean _ _ I)) in Q.
      destruct (path_eq_dec p _) as [->|NE]; [|congruence]. destruct o as [f c q|f c]; cbn in Q.
      * rewrite ci_nonempty in Q. discriminate.
      * exists f, c. split; [now left|]. now rewrite bare_target.
    + destruct (IH _ _ Q E') as (f & c & I & L). exists f, c. split; auto. now right.
Qed.

Section Last.
  Variable ts : list task.
  Hypothesis FR : Forall fresh ts.

  Lemma in_route_calls o tr : In o (route_calls tr) -> exists i, In (i, VRoute o) tr.
  Proof.
    unfold route_calls. rewrite in_flat_map. intros ([i e] & I & J). cbn in J. destruct e; try easy. destruct J as [->|[]]. eauto.
  Qed.

  Lemma table_path_nonempty h topic p : valid_topic_name topic -> In p (table_paths (rt_run h) topic) ->
    content_is_empty (cont (root (rt_run h)) p) = false.
  Proof.
    intros V I. destruct (table_path_filter _ _ _ V I) as (f & <- & M). apply (in_table_paths _ _ _ V) in I. tauto.
  Qed.

  Lemma race_panic tr w t1 i t2 b x a z : races ts tr w -> tr = t1 ++ (i, VPanic) :: t2 ->
    nth_error ts i = Some (TPub b x) -> valid_topic_name (rc_topic x) -> t1 = a ++ z -> idle a i ->
    exists j f c, In (j, VRoute (Unsub f c)) z /\ topic_matches (bare f) (rc_topic x).
  Proof.
    intros R E B V EZ ID. pose proof (rc_evs _ _ _ (race_all ts FR _ _ R) _ _ _ _ E) as H. cbn in H. rewrite B in H.
    destruct H as (p & u & v1 & v2 & (L & _) & I & EM).
    destruct (prefix_idle _ _ _ _ _ _ _ EZ ID L) as (m & -> & Z).
    destruct (table_path_filter _ _ _ V I) as (f0 & LF & M).
    pose proof (table_path_nonempty _ _ _ V I) as NE. unfold at_path in EM. rewrite route_calls_app in EM.
    destruct (emptied _ _ _ NE EM) as (f & c & IN & LV). destruct (in_route_calls _ _ IN) as (j & J).
    exists j, f, c. split.
    - rewrite Z. apply in_app_iff. right. right. apply in_app_iff. auto.
    - rewrite <- LF in LV. apply levels_inj in LV. congruence.
  Qed.

  Lemma race_once tr w i b x : races ts tr w -> published w i -> nth_error ts i = Some (TPub b x) ->
    valid_topic_name (rc_topic x) -> NoDup (map c_filter (reads_by i tr)).
  Proof.
    intros R P B V. destruct (race_published ts FR _ _ _ _ _ R P B) as (t1 & t2 & L & F).
    pose proof (table_paths_nodup (rt_run (route_calls t1)) _ V) as ND.
    assert (K : forall p ct, read_of i x tr t1 p ct -> exists f, c_filter ct = Some f /\ levels f = p).
    { intros p ct (N & u & v & _ & E). destruct (c_filter ct) as [f|] eqn:Q; [|congruence]. exists f. split; auto.
      rewrite E in Q. exact (ri_flt _ _ (rinv_run _) _ _ Q). }
    induction F as [|p ct ps cts A F IH]; [constructor|]. inversion ND as [|? ? N1 N2]; subst. cbn. constructor; auto.
    intros I. apply in_map_iff in I as (ct' & E' & I). destruct (K _ _ A) as (f & Q & <-). rewrite Q in E'.
    clear IH N2 ND. induction F as [|p' c' ps cts A' F IH]; [destruct I|]. destruct I as [->|I].
    - destruct (K _ _ A') as (f' & Q' & <-). rewrite Q' in E'. injection E' as ->. apply N1. now left.
    - apply IH; auto. intros H. apply N1. now right.
  Qed.

  Lemma race_alone tr w i b x a z : races ts tr w -> published w i -> nth_error ts i = Some (TPub b x) ->
    tr = a ++ z -> idle a i -> route_calls z = [] ->
    reads_by i tr = rt_get_matches (rt_run (route_calls a)) (rc_topic x).
  Proof.
    intros R P B E ID Z. destruct (race_published ts FR _ _ _ _ _ R P B) as (t1 & t2 & (L & _) & F).
    destruct (prefix_idle _ _ _ _ _ _ _ E ID L) as (m & -> & EZ).
    rewrite EZ, route_calls_app in Z. apply app_eq_nil in Z as [Zm Z2]. cbn in Z2.
    rewrite route_calls_app, Zm, app_nil_r in F. rewrite rt_get_matches_paths.
    revert F. generalize (table_paths (rt_run (route_calls a)) (rc_topic x)). generalize (reads_by i tr).
    intros cts ps F. induction F as [|p ct ps cts A F IH]; [reflexivity|]. cbn. rewrite IH. f_equal.
    destruct A as (_ & u & v & ET & ->). assert (U : route_calls u = []).
    2: { unfold at_path. rewrite !route_calls_app, Zm. change (route_calls ((i, VLook (rc_topic x)) :: u)) with (route_calls u).
         now rewrite U, !app_nil_r. }
    rewrite L in ET. rewrite <- (app_assoc (a ++ m)) in ET. apply app_inv_head in ET. injection ET as ->.
    rewrite route_calls_app in Z2. now apply app_eq_nil in Z2 as [Z2 _].
  Qed.

  (** ** Retained messages *)

  Lemma two_splits {A} (x y : A) : forall t1 t2 u v, t1 ++ x :: t2 = u ++ y :: v -> x <> y ->
    (exists m, t1 = u ++ y :: m) \/ (exists m, u = t1 ++ x :: m).
  Proof.
    induction t1 as [|z t1 IH]; intros t2 u v E N; destruct u as [|y' u]; cbn in E; injection E as E1 E2; subst.
    - congruence.
    - right. exists u. reflexivity.
    - left. exists t1. reflexivity.
    - destruct (IH _ _ _ E2 N) as [(m & ->)|(m & ->)]; [left|right]; exists m; reflexivity.
  Qed.

  Lemma race_retained tr w i s x f c q :
    races ts tr w -> nth_error ts i = Some (TPub true x) -> nth_error ts s = Some (TSub f c q true) ->
    rc_payload x <> ""%string -> valid_topic_name (rc_topic x) -> valid_filter f -> plain f -> topic_matches f (rc_topic x) ->
    published w i -> nth_error (w_tasks w) s = Some TEnd ->
    (forall u v, tr = u ++ v -> In (s, VRoute (Sub f c q)) u -> current (route_calls u) f c <> None) ->
    (forall u v, tr = u ++ v -> In (i, VKeep (Some (RIns x))) u -> retained (retain_calls u) (rc_topic x) = Some x) ->
    (exists q', gave tr i f c q') \/ (exists l, In (s, VRet l) tr /\ In x l).
  Proof.
    intros R B S PN V VF PL M P END CU RE. pose proof (race_all ts FR _ _ R) as RI.
    pose proof (rc_tasks _ _ _ RI _ _ END _ _ _ S) as (u & l & v & ET).
    pose proof (rc_evs _ _ _ RI _ _ _ _ ET) as (f' & c' & q' & u1 & v1 & S' & EU & G). rewrite S in S'. injection S' as <- <- <-.
    destruct (race_published ts FR _ _ _ _ _ R P B) as (t1 & t2 & LK & F).
    pose proof LK as (L & b' & k1 & k2 & B' & EK).
    rewrite B in B'. injection B' as <-. unfold keep_call in EK. rewrite (proj2 (String.eqb_neq _ _) PN) in EK.
    assert (ET2 : tr = u1 ++ (s, VRoute (Sub f c q)) :: (v1 ++ (s, VRet l) :: v)) by (rewrite ET, EU, <- app_assoc; reflexivity).
    assert (NE : (i, VLook (rc_topic x)) <> (s, VRoute (Sub f c q))) by congruence.
    destruct (two_splits _ _ _ _ _ _ (eq_trans (eq_sym L) ET2) NE) as [(m & E1)|(m & E1)].
    - (* subscribed before the lookup *)
      left. apply (race_core ts _ _ _ _ _ c _ _ R V PL M LK F).
      intros u2 v2 EQ. replace (route_calls (t1 ++ u2)) with (route_calls (t1 ++ (i, VLook (rc_topic x)) :: u2)) by (rewrite !route_calls_app; reflexivity).
      apply (CU (t1 ++ (i, VLook (rc_topic x)) :: u2) v2).
      + rewrite L, EQ, <- app_assoc. reflexivity.
      + apply in_app_iff. left. rewrite E1. apply in_app_iff. right. now left.
    - right. exists l. split; [rewrite ET; apply in_app_iff; right; now left|].
      assert (RT : retained (retain_calls u) (rc_topic x) = Some x).
      { apply (RE u ((s, VRet l) :: v) ET). rewrite EU, E1, EK. do 2 (apply in_app_iff; left). apply in_app_iff. right. now left. }
      destruct (retained_lookup_lemma (retain_calls u) f VF) as (l' & G' & _ & H). rewrite G in G'. injection G' as <-.
      apply H. eauto.
  Qed.
End Last.

Lemma play_races ts sched : forall tr w tr' w', races ts tr w -> play sched tr w = Some (tr', w') -> races ts tr' w'.
Proof.
  induction sched as [|i r IH]; cbn; intros tr w tr' w' R P; [injection P as <- <-; exact R|].
  destruct (race_step i w) as [[e w1]|] eqn:E; [|discriminate]. apply (IH (tr ++ [(i, e)]) w1); auto. econstructor; eauto.
Qed.
Lemma play_new ts sched tr w : play sched [] (world_new ts) = Some (tr, w) -> races ts tr w.
Proof. apply play_races. constructor. Qed.
