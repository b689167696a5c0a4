(** Proofs for RetWayProps. *)
From Coq Require Import List Bool NArith Lia String.
From Verif Require Import Base BaseLemmas TopicModel TopicSpec MsgModel PendingModel AliasModel OutModel OutSpec OutFacts OutInv RouteModel RouteSpec RetainModel RetainSpec GlobModel Sess5Model Sess3Model ConnModel
  DelivSpec InSpec InFacts RecvSpec SubProofs SubFacts DelivLast LinkSpec LinkProofs LinkProofs3 LinkFacts CliSpec CliProofs StallSpec StallProofs SubsSpec SubsProofs RegModel BrokerModel
  BrokerSpec RunProofs LifeSpec LifeProofs LifeFacts RouteRun CliFacts GetSpec GetProofs RetRunSpec RetRunProofs RetWaySpec.
Import ListNotations.
Local Open Scope N_scope.
Local Open Scope list_scope.

(** ** Protocol 5 *)
Section V5.
  Variables (hash : wpub5 -> N) (cfg : config).
  Local Notation moved t := (fun o ops o' evs out => trans5 o ops o' evs /\ LinkSpec.entry t None (fun _ => True) (flat_map wire5 out) (fun _ => True) evs).

  (** Where a message that is taken shows. *)
  Definition shows5 (t : N) (x : pub5) (out : list pkt5) (evs : list (oev pub5 wpub5)) : Prop :=
    (p5_qos x = L0 -> exists w, In (KPub w) out /\ carries5 t t x w) /\
    (p5_qos x <> L0 -> exists p, In (EFull t p x) evs \/ In (EQueued t p x) evs).
  Lemma shows5_app t x o1 o o2 e1 e e2 : shows5 t x o e -> shows5 t x (o1 ++ o ++ o2) (e1 ++ e ++ e2).
  Proof.
    intros (A & B). split.
    - intros Q. destruct (A Q) as (w & I & C). exists w. split; [|exact C]. apply in_app_iff. right. apply in_app_iff. now left.
    - intros Q. destruct (B Q) as (p & [I|I]); exists p; [left|right]; apply in_app_iff; right; apply in_app_iff; now left.
  Qed.

  Lemma takes_moved t x o o1 k : 0 < t -> takes5 t x o o1 k -> exists ops evs, moved t o ops o1 evs (opt_list k) /\ shows5 t x (opt_list k) evs.
  Proof.
    intros T. unfold takes5. destruct (p5_qos x) eqn:Q.
    - intros (w & E & ->). exists [O5Zero t (p5_topic x) (p5_retain x) (p5_payload x) (p5_props x)], [ESent t (SPub w)]. split.
      + split; [apply trans5_one; [exact Logic.I|exact E]|]. exists [], [ESent t (SPub w)]. repeat split. repeat constructor.
      + split; [|contradiction]. intros _. exists w. split; [left; reflexivity|]. cbn in E. unfold out5_qos0 in E. destruct (apply_alias _ _ _ _) as ((al, tp), pr) eqn:AA. injection E as _ <-.
        unfold carries5. cbn [w5_payload w5_retain w5_qp w5_topic w5_props qp_qos]. rewrite Q.
        assert (X : pp_subids pr = pp_subids (p5_props x) /\ pp_other pr = pp_other (p5_props x) /\ pp_expiry pr = pp_expiry (p5_props x) /\ (tp = p5_topic x \/ tp = EmptyString /\ pp_alias pr <> None)).
        { unfold apply_alias in AA. destruct (0 <? _); [|injection AA as _ <- <-; auto]. destruct (AliasModel.get_or_assign_alias _ _ _) as (al', (a, nw)). destruct (0 <? a); [|injection AA as _ <- <-; auto].
          injection AA as _ <- <-. cbn. repeat split; auto. destruct nw; [now left|right; split; [reflexivity|discriminate]]. }
        destruct X as (X1 & X2 & X3 & X4). repeat split; auto. rewrite X3, N.sub_diag. destruct (pp_expiry (p5_props x)); [|reflexivity]. f_equal. change (0 mod 2 ^ 32) with 0. lia.
    - intros (-> & ->). destruct (step5 o (O5Msg t x)) as (o2, evs) eqn:ST. exists [O5Msg t x], evs. cbn [fst opt_list flat_map].
      cbn in ST. destruct (out5_push t x o) as (o3, full) eqn:P. injection ST as <- <-. split.
      + split; [apply trans5_one; [split; [exact T|congruence]|cbn; now rewrite P]|]. eexists [], _. split; [reflexivity|]. split; [reflexivity|]. destruct full; (split; [reflexivity|]); repeat constructor.
      + split; [congruence|]. intros _. eexists. destruct full; [left|right]; left; reflexivity.
    - intros (-> & ->). destruct (step5 o (O5Msg t x)) as (o2, evs) eqn:ST. exists [O5Msg t x], evs. cbn [fst opt_list flat_map].
      cbn in ST. destruct (out5_push t x o) as (o3, full) eqn:P. injection ST as <- <-. split.
      + split; [apply trans5_one; [split; [exact T|congruence]|cbn; now rewrite P]|]. eexists [], _. split; [reflexivity|]. split; [reflexivity|]. destruct full; (split; [reflexivity|]); repeat constructor.
      + split; [congruence|]. intros _. eexists. destruct full; [left|right]; left; reflexivity.
  Qed.
  Lemma moved_app t o p1 o1 e1 a p2 o2 e2 b : moved t o p1 o1 e1 a -> moved t o1 p2 o2 e2 b -> moved t o (p1 ++ p2) o2 (e1 ++ e2) (a ++ b).
  Proof. intros (T1 & E1) (T2 & E2). split; [eapply trans5_app; eauto|]. rewrite flat_map_app. now apply entry_app. Qed.

  Lemma flushed_moved t o o' k : 0 < t -> flushed5 t o o' k -> exists ops evs, moved t o ops o' evs k.
  Proof.
    intros T F. destruct F; [exists [], []; split; [apply trans5_nil|apply entry_nil]|].
    destruct (handle_pendings5 t o) as (o1, l) eqn:H. cbn [fst snd].
    exists [O5Flush t], (map (ESent t) l ++ map (EExpired t) (given_up (o5_q o) (o5_q o1))). split; [apply trans5_one; [exact T|cbn; now rewrite H]|].
    exists [], (map (ESent t) l ++ map (EExpired t) (given_up (o5_q o) (o5_q o1))). split; [reflexivity|]. split; [reflexivity|]. split.
    - rewrite sents_app, sents_map, sents_expired, app_nil_r. now rewrite wire_of_sent.
    - apply Forall_app. split; apply Forall_forall; intros e I; apply in_map_iff in I; destruct I as (? & <- & _); reflexivity.
  Qed.
  Lemma gives_moved t mk size max ms o o' k : 0 < t -> gives5 t mk size max ms o o' k -> exists ops evs, moved t o ops o' evs k /\ forall m, In m ms -> max < size m \/ shows5 t (mk m) k evs.
  Proof.
    intros T. induction 1 as [o|m r o o1 o2 k ks HS HT HG (ops & evs & M & A)|m r o o2 ks HS HG (ops & evs & M & A)].
    - exists [], []. split; [split; [apply trans5_nil|apply entry_nil]|]. intros m [].
    - destruct (takes_moved _ _ _ _ _ T HT) as (p1 & e1 & M1 & S1). exists (p1 ++ ops), (e1 ++ evs). split; [eapply moved_app; eauto|].
      intros m' [<-|I]; [right; exact (shows5_app _ _ [] _ ks [] _ evs S1)|]. destruct (A m' I) as [X|X]; [now left|right]. pose proof (shows5_app _ _ (opt_list k) _ [] e1 _ [] X) as Y. now rewrite !app_nil_r in Y.
    - exists ops, evs. split; [exact M|]. intros m' [<-|I]; [now left|auto].
  Qed.
  Definition dueone5 (id : option N) (hr : list retop) (who : string) (before : list string) (f : string) (o : subopts) (m : rcontent) : Prop :=
    (forall c, ~ unsupported cfg id f c) /\ plain f /\ cf_retain cfg = true /\
    (so_rh o = RH_send \/ so_rh o = RH_send_if_new /\ ~ In f before) /\
    retained hr (rc_topic m) = Some m /\ topic_matches f (rc_topic m) /\
    ~ (so_no_local o = true /\ rc_client m = who).
  Lemma serves_moved t id hr who max mq fs : 0 < t -> forall b o o' k, serves5 cfg id hr who max t mq b fs o o' k ->
    exists ops evs, moved t o ops o' evs k /\ forall fs1 f op fs2 m, fs = fs1 ++ (f, op) :: fs2 -> dueone5 id hr who (rev (map fst fs1) ++ b) f op m ->
      max < retained_size5 (qos_min (so_qos op) mq) m \/ shows5 t (retained_pub5 id (qos_min (so_qos op) mq) (so_rap op) m) k evs.
  Proof.
    intros T b o o' k H. induction H as [b o|b f op r ms o1 o2 o3 o4 k1 k2 k3 D G F H (p3 & e3 & M3 & A3)].
    - exists [], []. split; [split; [apply trans5_nil|apply entry_nil]|]. intros [|? ?]; discriminate.
    - destruct (gives_moved _ _ _ _ _ _ _ _ T G) as (p1 & e1 & M1 & A1). destruct (flushed_moved _ _ _ _ T F) as (p2 & e2 & M2). exists (p1 ++ p2 ++ p3), (e1 ++ e2 ++ e3).
      split; [eapply moved_app; [exact M1|eapply moved_app; eauto]|]. intros fs1 g op' fs2 m E D'. destruct fs1 as [|x fs1]; cbn in E.
      + injection E as <- <- <-. cbn [map rev app] in D'. assert (I' : In m ms) by (apply (proj2 D); exact D'). destruct (A1 m I') as [X|X]; [now left|right]. exact (shows5_app _ _ [] _ (k2 ++ k3) [] _ (e2 ++ e3) X).
      + injection E as <- E2. destruct (A3 fs1 g op' fs2 m E2) as [X|X]; [|now left|].
        * cbn [map fst rev] in D'. rewrite <- app_assoc in D'. exact D'.
        * right. pose proof (shows5_app _ _ (k1 ++ k2) _ [] (e1 ++ e2) _ [] X) as Y. now rewrite !app_nil_r, <- !app_assoc in Y.
  Qed.

  Lemma keys_subs5 r l f : srun5 hash cfg r l -> In f (keys (s_subs r)) <-> subscribed5 l f <> None.
  Proof.
    intros R. rewrite <- (proj2 (run_rec _ _ _ _ R) f), in_keys_aget. unfold rec5. destruct (aget f (s_subs r)) as [v|]; cbn; split; intros H; try discriminate; eauto.
    - destruct H; discriminate.
    - contradiction H; reflexivity.
  Qed.

  Lemma serve_log5 hr r1 l1 now len p id fs g s o codes : cf_max_qos cfg <= 2 -> srun5 hash cfg r1 l1 -> sstep5 hash cfg r1 (VPkt now len (ISub p id fs) g) s o -> 0 < now ->
    In (KSuback p codes) o -> g_retain g = ret_run hr ->
    exists mq ops evs, qos_num mq = cf_max_qos cfg /\ trans5 (s_out r1) ops (s_out s) evs /\ logged5 cfg (VPkt now len (ISub p id fs) g) o evs /\
      forall fs1 f op fs2 m, fs = fs1 ++ (f, op) :: fs2 -> (forall c', ~ unsupported cfg id f c') -> plain f -> cf_retain cfg = true ->
        so_rh op = RH_send \/ so_rh op = RH_send_if_new /\ ~ In f (map fst fs1) /\ subscribed5 l1 f = None ->
        retained hr (rc_topic m) = Some m -> topic_matches f (rc_topic m) -> ~ (so_no_local op = true /\ rc_client m = s_ident r1) ->
        s_maxpkt r1 < retained_size5 (qos_min (so_qos op) mq) m \/ shows5 now (retained_pub5 id (qos_min (so_qos op) mq) (so_rap op) m) o evs.
  Proof.
    intros MQ R S T IK GR. inversion S as [pick ? ? ? ? ? ? g' ? D WF WG E| | | | | | |]; subst. destruct WG as (GC & h & RT).
    assert (LE : len <= cf_packet_server cfg).
    { destruct (N.le_gt_cases len (cf_packet_server cfg)) as [L|L]; [exact L|exfalso]. destruct (c48_large hash pick cfg r1 l1 now len (ISub p id fs) g R GC L) as (s3 & g3 & o3 & E3 & (rs & RF) & _).
      rewrite E in E3. injection E3 as <- <- <-. assert (I : In (KSuback p codes) (answers o)) by (apply filter_In; auto). rewrite RF in I. destruct I as [I|[]]; discriminate. }
    destruct (c25_subscribe hash pick cfg r1 l1 now len p id fs g h hr s g' o MQ R D GC RT GR LE WF E) as [(_ & ((rs & RF) & _) & _)|(NZ & cs & _ & _ & _ & _ & _ & mq & oo & k1 & k2 & EM & -> & SV & FL)].
    { exfalso. assert (I : In (KSuback p codes) (answers o)) by (apply filter_In; auto). rewrite RF in I. destruct I as [I|[]]; discriminate. }
    assert (NQ : qos_num mq = cf_max_qos cfg). { destruct (max_qos_ok cfg MQ) as (mq' & E' & N'). rewrite EM in E'. injection E' as <-. exact N'. }
    destruct (serves_moved _ _ _ _ _ _ _ T _ _ _ _ SV) as (p1 & e1 & M1 & A1). destruct (flushed_moved _ _ _ _ T FL) as (p2 & e2 & M2).
    exists mq, (p1 ++ p2), (e1 ++ e2). split; [exact NQ|]. destruct (moved_app _ _ _ _ _ _ _ _ _ _ M1 M2) as (TR & EN). split; [exact TR|]. split.
    - cbn [logged5 after_answer5]. unfold ack5. destruct (_ <? len); (refine (entry_imp _ _ _ _ _ _ _ _ _ _ _);
        [| |rewrite flat_map_app in EN |- *; exact EN]); [intros ? _; unfold by_subscribe5; eauto|intros ? _; exact Logic.I|intros ? _; unfold by_subscribe5; eauto|intros ? _; exact Logic.I].
    - intros fs1 f op fs2 m Ef U PL CR RH RM TM NL.
      assert (DU : dueone5 id hr (s_ident r1) (rev (map fst fs1) ++ keys (s_subs r1)) f op m).
      { repeat (split; [assumption|]). split; [|auto]. destruct RH as [RH|(RH & N1 & N2)]; [now left|right]. split; [exact RH|]. rewrite in_app_iff, <- in_rev. intros [X|X]; [contradiction|].
        apply (keys_subs5 r1 l1 f R) in X. contradiction. }
      destruct (A1 fs1 f op fs2 m Ef DU) as [X|X]; [now left|right]. exact (shows5_app _ _ [] _ (KSuback p cs :: k2) [] _ e2 X).
  Qed.

  Lemma extend5 e o l1 l2 : forall s, srun5 hash cfg s (l1 ++ (e, o) :: l2) -> Forall clocked5 (l1 ++ (e, o) :: l2) ->
    exists r1 s1, srun5 hash cfg r1 l1 /\ sstep5 hash cfg r1 e s1 o /\ forall ops evs, trans5 (s_out r1) ops (s_out s1) evs -> logged5 cfg e o evs -> goes_on5 l2 ->
      exists rm amax ops' pre post, Forall op5_ok ops' /\ run5 rm (cf_max_pending cfg) (cf_inflight_timeout cfg) amax ops' = (s_out s, pre ++ evs ++ post) /\
        logs5 cfg (l1 ++ (e, o) :: l2) (pre ++ evs ++ post) /\ logs5 cfg l1 pre.
  Proof.
    induction l2 as [|[e' oo] l2 IH] using rev_ind; intros s R C.
    - apply snoc_inv5 in R as (r1 & R1 & S). apply Forall_app in C as (C1 & C2). exists r1, s. split; [exact R1|]. split; [exact S|]. intros ops evs TR LG _.
      destruct (run_linked hash cfg r1 l1 R1 C1) as (rm & amax & ops0 & pre & F & RU & L & _). destruct TR as (F1 & E1).
      exists rm, amax, (ops0 ++ ops), pre, []. rewrite app_nil_r.
      split; [now apply Forall_app|]. split; [unfold run5 in *; rewrite fold_left_app, RU; now apply run5_from|]. split; [now constructor|]. exact L.
    - rewrite app_comm_cons, app_assoc in R, C. apply snoc_inv5 in R as (s0 & R0 & S). apply Forall_app in C as (C1 & C2). inversion C2 as [|? ? CK _]; subst.
      destruct (IH s0 R0 C1) as (r1 & s1 & R1 & S1 & H). exists r1, s1. split; [exact R1|]. split; [exact S1|]. intros ops evs TR LG GO.
      destruct (H ops evs TR LG) as (rm & amax & ops1 & pre & post & F & RU & L & L1); [intros a1 a2 a3 a4 a5 I; eapply GO; apply in_app_iff; left; exact I|].
      destruct (step_trans5 _ _ _ _ _ _ S CK) as (ops' & evs' & (F1 & E1) & LG'); [intros a1 a2 a3 a4 a5 I; eapply GO; apply in_app_iff; right; exact I|].
      exists rm, amax, (ops1 ++ ops'), pre, (post ++ evs').
      split; [now apply Forall_app|]. rewrite !app_assoc, <- (app_assoc pre evs post). split; [unfold run5 in *; rewrite fold_left_app, RU; now apply run5_from|].
      split; [|exact L1]. rewrite app_comm_cons, app_assoc. now constructor.
  Qed.

  Lemma comes5_lemma hr s l1 now len p id fs g o l2 codes : cf_max_qos cfg <= 2 -> let lr := l1 ++ (VPkt now len (ISub p id fs) g, o) :: l2 in
    srun5 hash cfg s lr -> Forall clocked5 lr -> In (KSuback p codes) o -> g_retain g = ret_run hr ->
    exists r1 mq, srun5 hash cfg r1 l1 /\ qos_num mq = cf_max_qos cfg /\
      forall fs1 f op fs2 m, fs = fs1 ++ (f, op) :: fs2 -> (forall c', ~ unsupported cfg id f c') -> plain f -> cf_retain cfg = true ->
        so_rh op = RH_send \/ so_rh op = RH_send_if_new /\ ~ In f (map fst fs1) /\ subscribed5 l1 f = None ->
        retained hr (rc_topic m) = Some m -> topic_matches f (rc_topic m) -> ~ (so_no_local op = true /\ rc_client m = s_ident r1) ->
        s_maxpkt r1 < retained_size5 (qos_min (so_qos op) mq) m \/ comes5 cfg lr l1 l2 now o (retained_pub5 id (qos_min (so_qos op) mq) (so_rap op) m).
  Proof.
    intros MQ lr R C IK GR. assert (T : 0 < now) by (apply Forall_app in C as (_ & C); inversion C as [|? ? CK _]; exact CK).
    destruct (extend5 _ _ _ _ _ R C) as (r1 & s1 & R1 & S1 & X). destruct (serve_log5 hr _ _ _ _ _ _ _ _ _ _ _ MQ R1 S1 T IK GR) as (mq & ops & evs & NQ & TR & LG & A).
    exists r1, mq. split; [exact R1|]. split; [exact NQ|]. intros fs1 f op fs2 m A1 A2 A3 A4 A5 A6 A7 A8. destruct (A fs1 f op fs2 m A1 A2 A3 A4 A5 A6 A7 A8) as [Y|(Y0 & Y1)]; [now left|right].
    set (x := retained_pub5 _ _ _ m) in *. split; [exact Y0|]. intros Q GO. destruct (X ops evs TR LG GO) as (rm & amax & ops' & pre & post & F & RU & L & L1).
    exists (pre ++ evs ++ post), pre. split; [exact L|]. split; [exact L1|]. destruct (Y1 Q) as (pp & [I|I]); apply in_split in I as (e1 & e2 & EE); subst evs.
    - exists e1, pp, (e2 ++ post). left. rewrite <- !app_assoc. reflexivity.
    - exists e1, pp, (e2 ++ post). right. split; [rewrite <- !app_assoc; reflexivity|]. intros FE. set (log := pre ++ (e1 ++ EQueued now pp x :: e2) ++ post) in *.
      assert (El : log = snd (run5 rm (cf_max_pending cfg) (cf_inflight_timeout cfg) amax ops')) by now rewrite RU.
      assert (NR : no_reuse log) by (rewrite El; apply few_no_reuse5; [exact F|now rewrite <- El]).
      apply (gets_log w5_qp w5_dup carries5 lifetime5 p5_qos) with (timeout := cf_inflight_timeout cfg); [intros ? ? ? ? H; apply H| | |unfold log; rewrite <- !app_assoc; reflexivity|intros []].
      + intros p0. eapply mrun_taken; [|exact NR]. rewrite El. exact (run5_m rm (cf_max_pending cfg) (cf_inflight_timeout cfg) amax ops' F).
      + intros p0. rewrite El in *. exact (c11_v5 rm (cf_max_pending cfg) (cf_inflight_timeout cfg) amax ops' F NR p0).
  Qed.
End V5.

(** ** Protocol 3 *)
Section V3.
  Variables (hash : wpub3 -> N) (cfg : config).
  Local Notation moved t := (fun o ops o' evs out => trans3 o ops o' evs /\ LinkSpec.entry t None (fun _ => True) (flat_map wire3 out) (fun _ => True) evs).

  Definition shows3 (t : N) (x : pub3) (out : list pkt3) (evs : list (oev pub3 wpub3)) : Prop :=
    (p3_qos x = L0 -> In (JPub (WPub3 false Q0 (p3_retain x) (p3_topic x) (p3_payload x))) out) /\
    (p3_qos x <> L0 -> exists p, In (EFull t p x) evs \/ In (EQueued t p x) evs).
  Lemma shows3_app t x o1 o o2 e1 e e2 : shows3 t x o e -> shows3 t x (o1 ++ o ++ o2) (e1 ++ e ++ e2).
  Proof.
    intros (A & B). split.
    - intros Q. apply in_app_iff. right. apply in_app_iff. left. exact (A Q).
    - intros Q. destruct (B Q) as (p & [I|I]); exists p; [left|right]; apply in_app_iff; right; apply in_app_iff; now left.
  Qed.

  Lemma takes3_moved t x o o1 k : 0 < t -> takes3 t x o o1 k -> exists ops evs, moved t o ops o1 evs (opt_list k) /\ shows3 t x (opt_list k) evs.
  Proof.
    intros T. unfold takes3. destruct (p3_qos x) eqn:Q.
    - intros (-> & ->). set (w := WPub3 false Q0 (p3_retain x) (p3_topic x) (p3_payload x)). exists [O3Zero t w], [ESent t (SPub w)]. split.
      + split; [apply trans3_one; [reflexivity|reflexivity]|]. exists [], [ESent t (SPub w)]. repeat split. repeat constructor.
      + split; [|contradiction]. intros _. left. reflexivity.
    - intros (-> & ->). destruct (step3 o (O3Msg t x)) as (o2, evs) eqn:ST. exists [O3Msg t x], evs. cbn [fst opt_list flat_map].
      cbn in ST. destruct (out3_push t x o) as (o3, full) eqn:P. injection ST as <- <-. split.
      + split; [apply trans3_one; [split; [exact T|congruence]|cbn; now rewrite P]|]. eexists [], _. split; [reflexivity|]. split; [reflexivity|]. destruct full; (split; [reflexivity|]); repeat constructor.
      + split; [congruence|]. intros _. eexists. destruct full; [left|right]; left; reflexivity.
    - intros (-> & ->). destruct (step3 o (O3Msg t x)) as (o2, evs) eqn:ST. exists [O3Msg t x], evs. cbn [fst opt_list flat_map].
      cbn in ST. destruct (out3_push t x o) as (o3, full) eqn:P. injection ST as <- <-. split.
      + split; [apply trans3_one; [split; [exact T|congruence]|cbn; now rewrite P]|]. eexists [], _. split; [reflexivity|]. split; [reflexivity|]. destruct full; (split; [reflexivity|]); repeat constructor.
      + split; [congruence|]. intros _. eexists. destruct full; [left|right]; left; reflexivity.
  Qed.
  Lemma moved3_app t o p1 o1 e1 a p2 o2 e2 b : moved t o p1 o1 e1 a -> moved t o1 p2 o2 e2 b -> moved t o (p1 ++ p2) o2 (e1 ++ e2) (a ++ b).
  Proof. intros (T1 & E1) (T2 & E2). split; [eapply trans3_app; eauto|]. rewrite flat_map_app. now apply entry_app. Qed.

  Lemma flushed3_moved t o o' k : 0 < t -> flushed3 t o o' k -> exists ops evs, moved t o ops o' evs k.
  Proof.
    intros T F. destruct F; [exists [], []; split; [apply trans3_nil|apply entry_nil]|].
    destruct (handle_pendings3 t o) as (o1, l) eqn:H. cbn [fst snd].
    exists [O3Flush t], (map (ESent t) l ++ map (EExpired t) (given_up (o3_q o) (o3_q o1))). split; [apply trans3_one; [exact T|cbn; now rewrite H]|].
    exists [], (map (ESent t) l ++ map (EExpired t) (given_up (o3_q o) (o3_q o1))). split; [reflexivity|]. split; [reflexivity|]. split.
    - rewrite sents_app, sents_map, sents_expired, app_nil_r. now rewrite wire_of_sent3.
    - apply Forall_app. split; apply Forall_forall; intros e I; apply in_map_iff in I; destruct I as (? & <- & _); reflexivity.
  Qed.
  Lemma gives3_moved t mk ms o o' k : 0 < t -> gives3 t mk ms o o' k -> exists ops evs, moved t o ops o' evs k /\ forall m, In m ms -> shows3 t (mk m) k evs.
  Proof.
    intros T. induction 1 as [o|m r o o1 o2 k ks HT HG (ops & evs & M & A)].
    - exists [], []. split; [split; [apply trans3_nil|apply entry_nil]|]. intros m [].
    - destruct (takes3_moved _ _ _ _ _ T HT) as (p1 & e1 & M1 & S1). exists (p1 ++ ops), (e1 ++ evs). split; [eapply moved3_app; eauto|].
      intros m' [<-|I]; [exact (shows3_app _ _ [] _ ks [] _ evs S1)|]. pose proof (shows3_app _ _ (opt_list k) _ [] e1 _ [] (A m' I)) as Y. now rewrite !app_nil_r in Y.
  Qed.
  Lemma serves3_moved t hr mq fs : 0 < t -> forall o o' k, serves3 hr t mq fs o o' k ->
    exists ops evs, moved t o ops o' evs k /\ forall f q m, In (f, q) fs -> retained hr (rc_topic m) = Some m -> topic_matches f (rc_topic m) -> qos_leb (rc_qos m) (qos_min q mq) = true ->
      shows3 t (retained_pub3 m) k evs.
  Proof.
    intros T o o' k H. induction H as [o|f op r ms o1 o2 o3 o4 k1 k2 k3 D G F H (p3 & e3 & M3 & A3)].
    - exists [], []. split; [split; [apply trans3_nil|apply entry_nil]|]. intros ? ? ? [].
    - destruct (gives3_moved _ _ _ _ _ _ T G) as (p1 & e1 & M1 & A1). destruct (flushed3_moved _ _ _ _ T F) as (p2 & e2 & M2). exists (p1 ++ p2 ++ p3), (e1 ++ e2 ++ e3).
      split; [eapply moved3_app; [exact M1|eapply moved3_app; eauto]|]. intros g q m [E|I] D1 D2 D3.
      + injection E as <- <-. assert (I' : In m ms) by (apply (proj2 D); auto). exact (shows3_app _ _ [] _ (k2 ++ k3) [] _ (e2 ++ e3) (A1 m I')).
      + pose proof (shows3_app _ _ (k1 ++ k2) _ [] (e1 ++ e2) _ [] (A3 g q m I D1 D2 D3)) as Y. now rewrite !app_nil_r, <- !app_assoc in Y.
  Qed.

  Lemma serve_log3 hr r1 l1 now len p fs g s o codes : cf_max_qos cfg <= 2 -> srun3 hash cfg r1 l1 -> sstep3 hash cfg r1 (UPkt now len (YSub p fs) g) s o -> 0 < now ->
    In (JSuback p codes) o -> g_retain g = ret_run hr ->
    exists mq ops evs, qos_num mq = cf_max_qos cfg /\ trans3 (z_out r1) ops (z_out s) evs /\ logged3 cfg (UPkt now len (YSub p fs) g) o evs /\
      forall f q m, In (f, q) fs -> retained hr (rc_topic m) = Some m -> topic_matches f (rc_topic m) -> qos_leb (rc_qos m) (qos_min q mq) = true ->
        shows3 now (retained_pub3 m) o evs.
  Proof.
    intros MQ R S T IK GR. inversion S as [? ? ? ? ? ? g' ? D WF WG E|? ? ? ? ? ? g' D WF WG E| | | | | |]; subst; [|destruct IK]. destruct WG as (GC & h & RT).
    destruct (c24_v3 hash cfg r1 l1 now len p fs g h hr s g' o MQ R D GC RT GR WF E) as (mq & cs & oo & k1 & k2 & EM & -> & SV & FL).
    assert (NQ : qos_num mq = cf_max_qos cfg). { destruct (max_qos_ok cfg MQ) as (mq' & E' & N'). rewrite EM in E'. injection E' as <-. exact N'. }
    destruct (serves3_moved _ _ _ _ T _ _ _ SV) as (p1 & e1 & M1 & A1). destruct (flushed3_moved _ _ _ _ T FL) as (p2 & e2 & M2).
    exists mq, (p1 ++ p2), (e1 ++ e2). split; [exact NQ|]. destruct (moved3_app _ _ _ _ _ _ _ _ _ _ M1 M2) as (TR & EN). split; [exact TR|]. split.
    - cbn [logged3 after_answer3]. eexists. split; [|left; reflexivity]. unfold ack3. try destruct (_ <? len); (refine (entry_imp _ _ _ _ _ _ _ _ _ _ _);
        [| |rewrite flat_map_app in EN |- *; exact EN]); solve [intros ? _; unfold by_subscribe3; eauto|intros ? _; exact Logic.I].
    - intros f q m A0 A2 A3 A4. exact (shows3_app _ _ [] _ (JSuback p cs :: k2) [] _ e2 (A1 f q m A0 A2 A3 A4)).
  Qed.

  Lemma extend3 e o l1 l2 : forall s, srun3 hash cfg s (l1 ++ (e, o) :: l2) -> Forall clocked3 (l1 ++ (e, o) :: l2) ->
    exists r1 s1, srun3 hash cfg r1 l1 /\ sstep3 hash cfg r1 e s1 o /\ forall ops evs, trans3 (z_out r1) ops (z_out s1) evs -> logged3 cfg e o evs -> goes_on3 l2 ->
      exists ops' pre post, Forall op3_ok ops' /\ run3 (cf_inflight_client cfg) (cf_max_pending cfg) (cf_inflight_timeout cfg) ops' = (z_out s, pre ++ evs ++ post) /\
        logs3 cfg (l1 ++ (e, o) :: l2) (pre ++ evs ++ post) /\ logs3 cfg l1 pre.
  Proof.
    induction l2 as [|[e' oo] l2 IH] using rev_ind; intros s R C.
    - apply snoc_inv3 in R as (r1 & R1 & S). apply Forall_app in C as (C1 & C2). exists r1, s. split; [exact R1|]. split; [exact S|]. intros ops evs TR LG _.
      destruct (run_linked3 hash cfg r1 l1 R1 C1) as (ops0 & pre & F & RU & L). destruct TR as (F1 & E1).
      exists (ops0 ++ ops), pre, []. rewrite app_nil_r.
      split; [now apply Forall_app|]. split; [unfold run3 in *; rewrite fold_left_app, RU; now apply run3_from|]. split; [now constructor|]. exact L.
    - rewrite app_comm_cons, app_assoc in R, C. apply snoc_inv3 in R as (s0 & R0 & S). apply Forall_app in C as (C1 & C2). inversion C2 as [|? ? CK _]; subst.
      destruct (IH s0 R0 C1) as (r1 & s1 & R1 & S1 & H). exists r1, s1. split; [exact R1|]. split; [exact S1|]. intros ops evs TR LG GO.
      destruct (H ops evs TR LG) as (ops1 & pre & post & F & RU & L & L1); [intros a1 a2 a3 a4 I; eapply GO; apply in_app_iff; left; exact I|].
      destruct (step_trans3 hash cfg _ _ _ _ S CK) as (ops' & evs' & (F1 & E1) & LG'); [intros a1 a2 a3 a4 I; eapply GO; apply in_app_iff; right; exact I|exact (same_rm3 _ _ _ _ R0 C1)|].
      exists (ops1 ++ ops'), pre, (post ++ evs').
      split; [now apply Forall_app|]. rewrite !app_assoc, <- (app_assoc pre evs post). split; [unfold run3 in *; rewrite fold_left_app, RU; now apply run3_from|].
      split; [|exact L1]. rewrite app_comm_cons, app_assoc. now constructor.
  Qed.

  Lemma comes3_lemma (up : Prop) hr s l1 now len p fs g o l2 codes : cf_max_qos cfg <= 2 -> let lr := l1 ++ (UPkt now len (YSub p fs) g, o) :: l2 in
    srun3 hash cfg s lr -> Forall clocked3 lr -> (up -> moving (pq (o3_q (z_out s)))) -> In (JSuback p codes) o -> g_retain g = ret_run hr ->
    exists mq, qos_num mq = cf_max_qos cfg /\
      forall f q m, In (f, q) fs -> retained hr (rc_topic m) = Some m -> topic_matches f (rc_topic m) -> qos_leb (rc_qos m) (qos_min q mq) = true ->
        comes3 cfg up lr l1 l2 now o (retained_pub3 m).
  Proof.
    intros MQ lr R C UP IK GR. assert (T : 0 < now) by (apply Forall_app in C as (_ & C); inversion C as [|? ? CK _]; exact CK).
    destruct (extend3 _ _ _ _ _ R C) as (r1 & s1 & R1 & S1 & X). destruct (serve_log3 hr _ _ _ _ _ _ _ _ _ _ MQ R1 S1 T IK GR) as (mq & ops & evs & NQ & TR & LG & A).
    exists mq. split; [exact NQ|]. intros f q m A1 A2 A3 A4. destruct (A f q m A1 A2 A3 A4) as (Y0 & Y1).
    set (x := retained_pub3 m) in *. split; [exact Y0|]. intros Q GO. destruct (X ops evs TR LG GO) as (ops' & pre & post & F & RU & L & L1).
    exists (pre ++ evs ++ post), pre. split; [exact L|]. split; [exact L1|]. destruct (Y1 Q) as (pp & [I|I]); apply in_split in I as (e1 & e2 & EE); subst evs.
    - exists e1, pp, (e2 ++ post). left. rewrite <- !app_assoc. reflexivity.
    - exists e1, pp, (e2 ++ post). right. split; [rewrite <- !app_assoc; reflexivity|]. intros FE. set (log := pre ++ (e1 ++ EQueued now pp x :: e2) ++ post) in *.
      assert (El : log = snd (run3 (cf_inflight_client cfg) (cf_max_pending cfg) (cf_inflight_timeout cfg) ops')) by now rewrite RU.
      assert (NR : no_reuse log) by (rewrite El; apply few_no_reuse3; [exact F|now rewrite <- El]).
      assert (HL : forall p, exists st, OutSpec.life wpid3 w3_dup carries3 lifetime3 (cf_inflight_timeout cfg) p log st).
      { intros p0. rewrite El in *. exact (c11_v3 (cf_inflight_client cfg) (cf_max_pending cfg) (cf_inflight_timeout cfg) ops' F NR p0). }
      apply (gets_given _ _ _ (expired_unsent log wpid3)); [intros _; exact (no_lifetime w3_qp w3_dup carries3 (cf_inflight_timeout cfg) log HL)|].
      apply (gets_log w3_qp w3_dup carries3 lifetime3 p3_qos) with (timeout := cf_inflight_timeout cfg); [intros ? ? ? ? H; apply H| |exact HL|unfold log; rewrite <- !app_assoc; reflexivity|].
      + intros p0. eapply mrun_taken; [|exact NR]. rewrite El. exact (run3_m (cf_inflight_client cfg) (cf_max_pending cfg) (cf_inflight_timeout cfg) ops' F).
      + intros U. unfold log in *. rewrite <- !app_assoc in *. eapply rest_ended3; eauto.
  Qed.
End V3.

(** ** In the history of the broker *)
Section Broker.
  Variables (hash5 : wpub5 -> N) (hash3 : wpub3 -> N) (pick : draw -> broker -> string -> string -> N).
  Local Notation brun := (brun hash5 hash3 pick).

  Lemma snoc_split {A} (l d l1 : list A) e l2 : l ++ d = l1 ++ e :: l2 -> (exists l2', l = l1 ++ e :: l2' /\ l2 = l2' ++ d) \/ exists d1, d = d1 ++ e :: l2 /\ l1 = l ++ d1.
  Proof.
    revert l1. induction l as [|a l IH]; intros l1 E; [right; exists l1; auto|]. destruct l1 as [|b l1]; cbn in E; injection E as -> E.
    - left. exists l. auto.
    - destruct (IH l1 E) as [(l2' & -> & ->)|(d1 & -> & ->)]; [left; exists l2'; auto|right; exists d1; auto].
  Qed.

  (** Where a packet in the events of a session comes from. *)
  Lemma origin5 k h l : LifeSpec.life5 k h l -> forall l1 now len x g o l2, l = l1 ++ (VPkt now len x g, o) :: l2 ->
    exists h2 q h1 j, h = h2 ++ q :: h1 /\ w_e q = EPacket5 j len x /\ g = glob_of (w_b q) /\ now = seconds (w_b q) /\ o = pkts5 j (w_out q) /\ LifeSpec.life5 j h1 l1.
  Proof.
    induction 1 as [k p h q t0 uuid pc data E Q1 Q2|k p h2 q j on so h1 l q0 t0 uuid pc data E E1 L IH AJ RQ M E2|k p h l d L IH D]; intros l1 now len x g o l2 EL.
    - destruct l1; discriminate.
    - apply snoc_split in EL as [(l2' & -> & _)|(d1 & X & _)].
      + destruct (IH _ _ _ _ _ _ _ eq_refl) as (a & q' & b & j' & -> & Y). exists (p :: h2 ++ q :: a), q', b, j'. split; [cbn; rewrite <- app_assoc; reflexivity|exact Y].
      + destruct d1 as [|? [|? ?]]; discriminate.
    - apply snoc_split in EL as [(l2' & -> & _)|(d1 & X & ->)].
      + destruct (IH _ _ _ _ _ _ _ eq_refl) as (a & q' & b & j' & -> & Y). exists (p :: a), q', b, j'. split; [reflexivity|exact Y].
      + exists [], p, h, k. split; [reflexivity|]. destruct D as [len' x' E|reason E|a c m r E A W|a c m r E A W|a c m r E A W O|E|l' E O ST].
        * destruct d1 as [|? [|? ?]]; try discriminate. injection X as <- <- <- <- <- <-. rewrite app_nil_r. auto.
        * destruct d1 as [|? [|? ?]]; discriminate.
        * destruct d1 as [|? [|? ?]]; discriminate.
        * destruct d1 as [|? [|? [|? ?]]]; discriminate.
        * destruct d1 as [|? [|? ?]]; discriminate.
        * destruct d1 as [|? [|? [|? ?]]]; discriminate.
        * exfalso. subst l'. apply Forall_app in ST as (_ & ST). inversion ST as [|? ? S0 _]; subst. exact S0.
  Qed.
  Lemma origin3 k h l : LifeSpec.life3 k h l -> forall l1 now len x g o l2, l = l1 ++ (UPkt now len x g, o) :: l2 ->
    exists h2 q h1 j, h = h2 ++ q :: h1 /\ w_e q = EPacket3 j len x /\ g = glob_of (w_b q) /\ now = seconds (w_b q) /\ o = pkts3 j (w_out q) /\ LifeSpec.life3 j h1 l1.
  Proof.
    induction 1 as [k p h q t0 uuid pc E Q1 Q2 Q3|k p h2 q j on a0 h1 l q0 t0 uuid pc s0 present E E1 L IH M E2 S0 AJ RQ K|k p h l d L IH D]; intros l1 now len x g o l2 EL.
    - destruct l1; discriminate.
    - apply snoc_split in EL as [(l2' & -> & _)|(d1 & X & _)].
      + destruct (IH _ _ _ _ _ _ _ eq_refl) as (a & q' & b & j' & -> & Y). exists (p :: h2 ++ q :: a), q', b, j'. split; [cbn; rewrite <- app_assoc; reflexivity|exact Y].
      + exfalso. assert (I : In (UPkt now len x g, o) ((if on then [] else map (fun m => (ULost (seconds (w_b q)) (snd m), [])) (waiting (w_b q) (z_id a0))) ++ [(UTake (b_now (w_b p)) s0 present, [])]))
          by (rewrite X; apply in_app_iff; right; left; reflexivity).
        apply in_app_iff in I as [I|[I|[]]]; [|discriminate]. destruct on; [destruct I|]. apply in_map_iff in I as (? & I & _). discriminate.
    - apply snoc_split in EL as [(l2' & -> & _)|(d1 & X & ->)].
      + destruct (IH _ _ _ _ _ _ _ eq_refl) as (a & q' & b & j' & -> & Y). exists (p :: a), q', b, j'. split; [reflexivity|exact Y].
      + exists [], p, h, k. split; [reflexivity|]. destruct D as [len' x' E|a c m r E A W|a c m r E A W|a c m r E A W O|E|l' E O ST].
        * destruct d1 as [|? [|? ?]]; try discriminate. injection X as <- <- <- <- <- <-. rewrite app_nil_r. auto.
        * destruct d1 as [|? [|? ?]]; discriminate.
        * destruct d1 as [|? [|? [|? ?]]]; discriminate.
        * destruct d1 as [|? [|? ?]]; discriminate.
        * destruct d1 as [|? [|? [|? ?]]]; discriminate.
        * exfalso. subst l'. apply Forall_app in ST as (_ & ST). inversion ST as [|? ? S0 _]; subst. exact S0.
  Qed.

  Lemma kept_then c h2 q h1 b : brun c (h2 ++ q :: h1) b -> (forall p, In p (h2 ++ q :: h1) -> proper p) -> exists hr, keeps c h1 (w_b q) hr /\ g_retain (glob_of (w_b q)) = ret_run hr.
  Proof.
    intros R PR. destruct (run_split _ _ _ _ _ _ _ R) as (b0 & R0 & _). inversion R0 as [|h b1 e b' out R1 S]; subst. apply (keeps_run _ _ _ _ _ _ R1). intros p I. apply PR. apply in_app_iff. right. now right.
  Qed.

  Lemma retained5_lemma : forall c h b k r, cf_max_qos c <= 2 -> brun c h b -> (forall p, In p h -> proper p) -> (forall p, In p h -> after_1970 p) -> sess_at b k = Some (A5 r) ->
    exists lr, LifeSpec.life5 k h lr /\ srun5 hash5 c r lr /\ forall l1 now len p id fs g o l2 codes, lr = l1 ++ (VPkt now len (ISub p id fs) g, o) :: l2 -> In (KSuback p codes) o ->
      exists h2 q h1 j hr r1 mq, h = h2 ++ q :: h1 /\ w_e q = EPacket5 j len (ISub p id fs) /\ o = pkts5 j (w_out q) /\ LifeSpec.life5 j h1 l1 /\ srun5 hash5 c r1 l1 /\
        keeps c h1 (w_b q) hr /\ qos_num mq = cf_max_qos c /\
        forall fs1 f op fs2 m, fs = fs1 ++ (f, op) :: fs2 -> (forall c', ~ unsupported c id f c') -> plain f -> cf_retain c = true ->
          so_rh op = RH_send \/ so_rh op = RH_send_if_new /\ ~ In f (map fst fs1) /\ subscribed5 l1 f = None ->
          retained hr (rc_topic m) = Some m -> topic_matches f (rc_topic m) -> ~ (so_no_local op = true /\ rc_client m = s_ident r1) ->
          s_maxpkt r1 < retained_size5 (qos_min (so_qos op) mq) m \/ comes5 c lr l1 l2 now o (retained_pub5 id (qos_min (so_qos op) mq) (so_rap op) m).
  Proof.
    intros c h b k r MQ RB PR AF A. destruct (life5_lemma _ _ _ _ _ _ _ _ RB PR A) as (lr & L & R). exists lr. split; [exact L|]. split; [exact R|]. intros l1 now len p id fs g o l2 codes E IK.
    pose proof (life5_clocked _ _ _ L AF) as C. destruct (origin5 _ _ _ L _ _ _ _ _ _ _ E) as (h2 & q & h1 & j & Eh & EQ & EG & EN & EO & L1).
    destruct (kept_then c h2 q h1 b) as (hr & KP & GR); [now rewrite <- Eh|now rewrite <- Eh|]. rewrite <- EG in GR. rewrite E in R, C.
    destruct (comes5_lemma hash5 c hr r l1 now len p id fs g o l2 codes MQ R C IK GR) as (r1 & mq & R1 & NQ & H). exists h2, q, h1, j, hr, r1, mq. repeat (split; [assumption|]).
    rewrite E. exact H.
  Qed.
  Lemma retained3_lemma : forall c h b k r, cf_max_qos c <= 2 -> brun c h b -> (forall p, In p h -> proper p) -> (forall p, In p h -> after_1970 p) -> sess_at b k = Some (A3 r) ->
    exists lr, LifeSpec.life3 k h lr /\ srun3 hash3 c r lr /\ forall l1 now len p fs g o l2 codes, lr = l1 ++ (UPkt now len (YSub p fs) g, o) :: l2 -> In (JSuback p codes) o ->
      exists h2 q h1 j hr mq, h = h2 ++ q :: h1 /\ w_e q = EPacket3 j len (YSub p fs) /\ o = pkts3 j (w_out q) /\ LifeSpec.life3 j h1 l1 /\ keeps c h1 (w_b q) hr /\ qos_num mq = cf_max_qos c /\
        forall f qs m, In (f, qs) fs -> retained hr (rc_topic m) = Some m -> topic_matches f (rc_topic m) -> qos_leb (rc_qos m) (qos_min qs mq) = true ->
          comes3 c (ready3 c h b k r) lr l1 l2 now o (retained_pub3 m).
  Proof.
    intros c h b k r MQ RB PR AF A. destruct (life3_lemma _ _ _ _ _ _ _ _ RB PR A) as (lr & L & R). exists lr. split; [exact L|]. split; [exact R|]. intros l1 now len p fs g o l2 codes E IK.
    pose proof (life3_clocked _ _ _ L AF) as C. destruct (origin3 _ _ _ L _ _ _ _ _ _ _ E) as (h2 & q & h1 & j & Eh & EQ & EG & EN & EO & L1).
    destruct (kept_then c h2 q h1 b) as (hr & KP & GR); [now rewrite <- Eh|now rewrite <- Eh|]. rewrite <- EG in GR. rewrite E in R, C.
    destruct (comes3_lemma hash3 c (ready3 c h b k r) hr r l1 now len p fs g o l2 codes MQ R C) with (3 := GR) as (mq & NQ & H); [|exact IK|].
    { intros (A' & LT & CP). eapply flow3_run; eauto. }
    exists h2, q, h1, j, hr, mq. repeat (split; [assumption|]). rewrite E. exact H.
  Qed.
End Broker.
