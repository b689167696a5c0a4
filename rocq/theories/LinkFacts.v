(** C08 - C15 for runs of a session, from LinkProofs, LinkProofs3 and OutFacts. *)
From Coq Require Import List Bool String NArith Lia.
From Verif Require Import Base BaseLemmas TopicModel MsgModel PendingModel AliasModel OutModel RouteModel RetainModel GlobModel
  Sess5Model Sess3Model ConnModel OutSpec OutFacts InSpec LinkSpec LinkProofs LinkProofs3.
Import ListNotations.
Local Open Scope N_scope.

(** ** Identifiers in flight *)
Section Fly.
  Context {M W : Type} (wpid : W -> option pid).
  Lemma fly_rest t (q : M -> Prop) (outs : list (sent W)) : forall rest l, sents rest = map (pair t) outs ->
    Forall (fun e => match e with
                     | EConn _ | EAcked _ _ _ _ => False
                     | EQueued t' _ m | EFull t' _ m => t' = t /\ q m
                     | ESent t' _ | EExpired t' _ => t' = t
                     end) rest ->
    fold_left (outstanding_step wpid) rest l = fold_left (fly wpid) outs l.
  Proof.
    intros rest. revert outs. induction rest as [|e rest IH]; intros outs l S F.
    - destruct outs; [reflexivity|discriminate].
    - inversion F as [|? ? F1 F2]; subst. destruct e as [rm|t' p m|t' p m|t' s|k t' p ok|t' p]; try contradiction; cbn [fold_left outstanding_step];
        try (now apply IH).
      change (sents (ESent t' s :: rest)) with ((t', s) :: sents rest) in S. destruct outs as [|o outs]; [discriminate|].
      cbn [map] in S. injection S as _ -> S. cbn [fold_left]. unfold fly at 2.
      destruct o as [w|p]; cbn [sent_pid]; now apply IH.
  Qed.
  Lemma fly_entry t ack A outs (q : M -> Prop) (evs : list (oev M W)) l : entry t ack A outs q evs ->
    fold_left (outstanding_step wpid) evs l = fold_left (fly wpid) outs (landed ack l).
  Proof.
    intros (first & rest & -> & H & S & F). rewrite fold_left_app. rewrite (fly_rest t q outs rest _ S F). f_equal.
    destruct ack as [(k, p)|]; [|now subst first]. destruct H as (ok & -> & _). destruct k; reflexivity.
  Qed.
  Lemma fly_none (outs : list (sent W)) : Forall (fun s => sent_pid wpid s = None) outs -> forall l, fold_left (fly wpid) outs l = l.
  Proof. induction 1 as [|s outs H F IH]; intros l; [reflexivity|]. cbn [fold_left]. unfold fly at 2. rewrite H. apply IH. Qed.

  Lemma in_add_pid p q l : In q (add_pid p l) <-> q = p \/ In q l.
  Proof.
    unfold add_pid. destruct (existsb (N.eqb p) l) eqn:E.
    - split; [auto|]. intros [->|H]; auto. apply existsb_exists in E. destruct E as (x & H & X). apply N.eqb_eq in X. now subst.
    - cbn. split; intros [H|H]; auto.
  Qed.
  Lemma nodup_add_pid p l : NoDup l -> NoDup (add_pid p l).
  Proof.
    intros H. unfold add_pid. destruct (existsb (N.eqb p) l) eqn:E; auto. constructor; auto. intros I.
    assert (X : existsb (N.eqb p) l = true) by (apply existsb_exists; exists p; split; [auto|apply N.eqb_refl]). congruence.
  Qed.
  Lemma incl_fly (outs : list (sent W)) : forall a b, incl a b -> incl (fold_left (fly wpid) outs a) (fold_left (fly wpid) outs b).
  Proof.
    induction outs as [|s outs IH]; intros a b H; [exact H|]. cbn [fold_left]. apply IH. unfold fly.
    destruct (sent_pid wpid s); [|exact H]. intros x. rewrite !in_add_pid. intros [?|?]; auto.
  Qed.
  Lemma incl_fly_more (outs : list (sent W)) : forall a, incl a (fold_left (fly wpid) outs a).
  Proof.
    induction outs as [|s outs IH]; intros a; [apply incl_refl|]. cbn [fold_left]. eapply incl_tran; [|apply IH]. unfold fly.
    destruct (sent_pid wpid s); [|apply incl_refl]. intros x. rewrite in_add_pid. auto.
  Qed.
  Lemma nodup_fly (outs : list (sent W)) : forall a, NoDup a -> NoDup (fold_left (fly wpid) outs a).
  Proof.
    induction outs as [|s outs IH]; intros a H; [exact H|]. cbn [fold_left]. apply IH. unfold fly.
    destruct (sent_pid wpid s); [now apply nodup_add_pid|exact H].
  Qed.
  Lemma incl_landed ack a b : incl a b -> incl (landed ack a) (landed ack b).
  Proof.
    intros H. destruct ack as [([], p)|]; cbn; auto; intros x; rewrite !filter_In; intros (X & Y); auto.
  Qed.
  Lemma nodup_landed ack a : NoDup a -> NoDup (landed ack a).
  Proof. intros H. destruct ack as [([], p)|]; cbn; auto; now apply NoDup_filter. Qed.
End Fly.

Lemma inflight5_log cfg l log : logs5 cfg l log -> outstanding wpid5 log = inflight5 cfg l.
Proof.
  unfold outstanding, inflight5. induction 1 as [rm|l log e out evs L IH G|l log now uuid p data L IH C].
  - reflexivity.
  - rewrite !fold_left_app, IH. cbn [fold_left]. unfold inflight5_step at 2. cbn [fst snd].
    destruct e as [now len x g|now m|now m|b n|now| | |now uuid p data]; cbn [logged5] in G.
    + now rewrite (fly_entry wpid5 _ _ _ _ _ _ _ G).
    + now rewrite (fly_entry wpid5 _ _ _ _ _ _ _ G).
    + destruct G as (-> & outs & N0 & G). rewrite (fly_entry wpid5 _ _ _ _ _ _ _ G). cbn [landed]. now apply fly_none.
    + destruct G as (-> & ->). reflexivity.
    + now rewrite (fly_entry wpid5 _ _ _ _ _ _ _ G).
    + destruct G as (-> & ->). reflexivity.
    + destruct G as (-> & ->). reflexivity.
    + destruct G as (_ & ->). reflexivity.
  - rewrite fold_left_app. reflexivity.
Qed.

Lemma inflight3_log cfg l log : logs3 cfg l log -> NoDup (inflight3 cfg l) /\ incl (inflight3 cfg l) (outstanding wpid3 log).
Proof.
  unfold outstanding, inflight3. induction 1 as [|l log e out evs L (ND & IH) G|l log now s0 L IH].
  - split; [constructor|apply incl_refl].
  - rewrite !fold_left_app. cbn [fold_left]. unfold inflight3_step at 1 3. cbn [fst snd].
    set (a := fold_left (inflight3_step cfg) l []) in *. set (b := fold_left (outstanding_step wpid3) log []) in *.
    destruct e as [now len x g|now m|now m|b0 n|now| |now s0 present]; cbn [logged3] in G.
    + destruct G as (outs & G & O). rewrite (fly_entry wpid3 _ _ _ _ _ _ _ G). split; [now apply nodup_fly, nodup_landed|].
      destruct O as [->|(_ & ->)]; [now apply incl_fly, incl_landed|].
      assert (X : flat_map wire3 (after_answer3 x []) = []) by (destruct x; reflexivity). rewrite X. cbn [fold_left].
      eapply incl_tran; [apply incl_landed; exact IH|apply incl_fly_more].
    + rewrite (fly_entry wpid3 _ _ _ _ _ _ _ G). split; [now apply nodup_fly|now apply incl_fly].
    + destruct G as (-> & outs & N0 & G). rewrite (fly_entry wpid3 _ _ _ _ _ _ _ G). cbn [landed]. rewrite (fly_none wpid3 outs N0). auto.
    + destruct G as (-> & ->). auto.
    + rewrite (fly_entry wpid3 _ _ _ _ _ _ _ G). split; [now apply nodup_fly|now apply incl_fly].
    + destruct G as (-> & ->). auto.
    + split; [constructor|intros ? []].
  - rewrite fold_left_app. split; [constructor|intros ? []].
Qed.

(** ** MQTT 5 *)
Section V5.
  Variables (hash : wpub5 -> N) (cfg : config) (s : sess5) (l : list (sev5 * list pkt5)).
  Hypothesis run : srun5 hash cfg s l.
  Hypothesis clock : Forall clocked5 l.

  Lemma few_no_reuse5 rm amax ops : Forall op5_ok ops ->
    few_enough cfg (snd (run5 rm (cf_max_pending cfg) (cf_inflight_timeout cfg) amax ops)) ->
    no_reuse (snd (run5 rm (cf_max_pending cfg) (cf_inflight_timeout cfg) amax ops)).
  Proof. intros ok [[H1 H2]|H]; [now apply c10_nodrop_v5|now apply c10_recent_v5]. Qed.

  Ltac start := destruct (run_linked _ _ _ _ run clock) as (rm & amax & ops & log & F & R & L & RM); eexists; split; [eassumption|].
  Ltac feed H :=
    match goal with R : run5 ?rm _ _ ?amax ?ops = _, F : Forall op5_ok ?ops |- _ =>
      pose proof (H rm (cf_max_pending cfg) (cf_inflight_timeout cfg) amax ops F) as K; rewrite R in K; cbn [fst snd] in K
    end.
  Ltac reuse :=
    match goal with R : run5 ?rm _ _ ?amax ?ops = _, F : Forall op5_ok ?ops, FE : few_enough cfg _ |- _ =>
      pose proof (few_no_reuse5 rm amax ops F) as NR; rewrite R in NR; cbn [fst snd] in NR; specialize (NR FE)
    end.

  Lemma s08 : exists log, logs5 cfg l log /\ receive_max log = s_rmax s /\
    (few_enough cfg log -> N.of_nat (List.length (inflight5 cfg l)) <= s_rmax s).
  Proof.
    start. split; [exact RM|]. intros FE. rewrite <- (inflight5_log _ _ _ L), <- RM. reuse. feed c08_v5. auto.
  Qed.
  Lemma s09 : exists log, logs5 cfg l log /\
    (few_enough cfg log -> in_order carries5 (first_sent wpid5 w5_dup log) (queued log) /\
      (no_expiry_event log -> no_early_ack wpid5 w5_dup carries5 lifetime5 (cf_inflight_timeout cfg) log ->
       exists sent_ones waiting, queued log = (sent_ones ++ waiting)%list /\
         Forall2 (transmits carries5) (first_sent wpid5 w5_dup log) sent_ones)).
  Proof.
    start. intros FE. reuse.
    split; [feed c09_v5; auto|]. feed c09_all_v5. auto.
  Qed.
  Lemma s10 : exists log, logs5 cfg l log /\ (forall p, In p (arrivals log) -> 1 <= p <= 65535) /\
    (few_enough cfg log -> no_reuse log).
  Proof. start. split; [intros p; feed c10_range_v5; auto|]. intros FE. reuse. exact NR. Qed.
  Lemma s11 : exists log, logs5 cfg l log /\
    (few_enough cfg log -> forall p, exists st, life wpid5 w5_dup carries5 lifetime5 (cf_inflight_timeout cfg) p log st).
  Proof. start. intros FE. reuse. feed c11_v5. auto. Qed.
  Lemma s12_bound : N.of_nat (List.length (pq (o5_q (s_out s)))) <= cf_max_pending cfg.
  Proof.
    destruct (run_linked _ _ _ _ run clock) as (rm & amax & ops & log & F & R & L & RM). feed c12_bound_v5. exact K.
  Qed.
  Lemma s12_drop : 0 < cf_max_pending cfg -> exists log, logs5 cfg l log /\
    (few_enough cfg log -> forall l1 t p m l2, log = (l1 ++ EFull t p m :: l2)%list ->
     exists a t0 p0 m0 b, l1 = (a ++ EQueued t0 p0 m0 :: b)%list /\ active p0 l1 = true /\
       cf_max_pending cfg <= 1 + N.of_nat (List.length (queued b))).
  Proof. intros MX. start. intros FE. reuse. feed c12_drop_v5. exact (K NR MX). Qed.
  Lemma s13 : exists log, logs5 cfg l log /\
    (few_enough cfg log -> forall now len x g s' out k p, 0 < now -> ack5 cfg len x = Some (k, p) ->
      sstep5 hash cfg s (VPkt now len x g) s' out ->
      exists evs ok, logged5 cfg (VPkt now len x g) out evs /\ In (EAcked k now p ok) evs /\
        (active p log = false -> ok = false) /\
        (In p (inflight5 cfg l) -> forall st, life wpid5 w5_dup carries5 lifetime5 (cf_inflight_timeout cfg) p log st ->
          match k with
          | AckPuback | AckPubrec => exists t0 m l, st = InFlight t0 m l
          | AckPubcomp => exists l, st = Released l
          end -> ok = true) /\
        (forall p', x = IPubrec p' -> exists r, out = KPubrel p' (answer_code ok) :: r)).
  Proof.
    start. intros FE now len x g s' out k p T AK S. reuse.
    inversion S; subst. match goal with H : wf_glob cfg g |- _ => destruct H as (GC & _) end.
    match goal with H : packet_step5 _ ?pk _ _ _ _ _ = Go _ ?g1 _ |- _ => rename g1 into g', H into E, pk into pick end.
    pose proof (packet_moves hash cfg pick now len x s g s' g' out T GC E) as (ops1 & evs & (FO & TR) & EN).
    assert (EN' := EN). destruct EN' as (first & rest & -> & FI & _). rewrite AK in FI. destruct FI as (ok & -> & ANS).
    destruct ANS as (ANS & OK). specialize (OK _ _ AK).
    exists ([EAcked k now p ok] ++ rest)%list, ok. split; [refine (entry_imp _ _ _ _ _ _ _ _ (fun _ H => H) _ EN); intros ? H; apply H|].
    split; [now left|]. split; [|split].
    - intros AC. pose proof (c13_unknown_v5 rm (cf_max_pending cfg) (cf_inflight_timeout cfg) amax ops F k now p) as U. rewrite R in U.
      cbn [fst snd] in U. rewrite (U NR AC) in OK. exact OK.
    - intros IF st LF ST. rewrite <- (inflight5_log _ _ _ L) in IF.
      pose proof (c13_accept_v5 rm (cf_max_pending cfg) (cf_inflight_timeout cfg) amax ops F k now p st) as U. rewrite R in U.
      cbn [fst snd] in U. rewrite (U NR IF LF ST) in OK. exact OK.
    - intros p' ->. exact ANS.
  Qed.
  Lemma s14 : exists log, logs5 cfg l log /\
    (few_enough cfg log -> forall l1 t w p l2, log = (l1 ++ ESent t (SPub w) :: l2)%list -> wpid5 w = Some p -> w5_dup w = false ->
     exists t0 m, life wpid5 w5_dup carries5 lifetime5 (cf_inflight_timeout cfg) p l1 (Waiting t0 m) /\ In (EQueued t0 p m) l1 /\
       carries5 t0 t m w /\
       (forall v, lifetime5 m = Some v -> v < 2 ^ 32 -> t - t0 < v /\ pp_expiry (w5_props w) = Some (v - (t - t0))) /\
       (lifetime5 m = None -> pp_expiry (w5_props w) = None)).
  Proof.
    start. intros FE l1 t w p l2 E. reuse.
    pose proof (c14_v5 rm (cf_max_pending cfg) (cf_inflight_timeout cfg) amax ops F l1 t w p l2) as U. rewrite R in U. cbn [fst snd] in U. auto.
  Qed.
  Lemma s15 : exists log, logs5 cfg l log /\
    (few_enough cfg log -> forall t uuid p data now out, resumes5 hash cfg s t uuid p data now out ->
      0 < now -> cf_inflight_timeout cfg <= now ->
      exists n gone, map (sent_pid wpid5) (flat_map wire5 out) =
          map Some (filter (fun q => negb (existsb (N.eqb q) gone)) (firstn n (held (o5_q (s_out s))))) /\
        incl gone (firstn n (held (o5_q (s_out s)))) /\
        (0 < rmax5 cfg p -> held (o5_q (s_out s)) <> [] -> (0 < n)%nat) /\ N.of_nat n <= rmax5 cfg p /\
        (cf_max_pending cfg <= rmax5 cfg p -> n = List.length (held (o5_q (s_out s))))).
  Proof.
    start. intros FE t uuid p data now out (CL & s1 & s2 & s3 & S1 & S2 & S3) T TO. reuse.
    inversion S1 as [| | | | | | |? t0 ? ? ? ? s' k E1]; subst. apply take_out in E1. destruct E1 as (_ & E1). rewrite CL in E1.
    inversion S2; subst. inversion S3 as [| | |? ? ? ? E3| | | |]; subst.
    unfold pendings5 in E3. cbn [s_out with_connected with_last with_will] in E3.
    pose proof (c15_v5 rm (cf_max_pending cfg) (cf_inflight_timeout cfg) amax ops (rmax5 cfg p) (opt_or (co_alias p) 0) now F) as U.
    rewrite R in U. cbn [fst snd] in U. destruct (U NR TO T) as (_ & n & sent & gone & EQ & H1 & H2 & H3 & H4 & H5).
    exists n, gone. split; [|auto]. rewrite <- H1. f_equal.
    change [O5Resume (rmax5 cfg p) (opt_or (co_alias p) 0); O5Flush now] with ([O5Resume (rmax5 cfg p) (opt_or (co_alias p) 0)] ++ [O5Flush now])%list in EQ.
    rewrite app_assoc, run5_snoc, run5_snoc, R in EQ. cbn [fst snd step5] in EQ. rewrite <- E1 in EQ.
    destruct (handle_pendings5 now (s_out s1)) as (o, sn) eqn:HP. injection E3 as _ <-. rewrite wire_of_sent.
    cbn [fst snd] in EQ. rewrite <- !app_assoc in EQ. apply app_inv_head in EQ. cbn [app] in EQ. injection EQ as EQ.
    apply (f_equal sents) in EQ. rewrite !sents_app, !sents_map, !sents_expired, !app_nil_r in EQ.
    revert EQ. generalize sent. clear. induction sn as [|a sn IH]; intros [|b r] E; try discriminate; auto. cbn in E. injection E as -> E. f_equal. auto.
  Qed.
End V5.

Lemma s08_take hash cfg s t uuid p data s' out : sstep5 hash cfg s (VTake t uuid p data) s' out -> s_rmax s' = rmax5 cfg p.
Proof. intros S. inversion S; subst. match goal with H : session_connect5 _ _ _ _ _ _ = _ |- _ => apply take_out in H; apply H end. Qed.

(** ** MQTT 3 *)
  Lemma logs3_rm cfg l log : logs3 cfg l log -> receive_max log = cf_inflight_client cfg.
  Proof.
    unfold receive_max. induction 1 as [|l0 log e out evs L IH G|]; try reflexivity. rewrite fold_left_app, IH.
    assert (NC : forall t ack A outs q (ev : list (oev pub3 wpub3)), entry t ack A outs q ev ->
      fold_left (fun rm e => match e with EConn rm' => rm' | _ => rm end) ev (cf_inflight_client cfg) = cf_inflight_client cfg).
    { intros t ack A outs q ev (f & r & -> & H & _ & FO). rewrite fold_left_app.
      assert (X : fold_left (fun rm (e : oev pub3 wpub3) => match e with EConn rm' => rm' | _ => rm end) f (cf_inflight_client cfg) = cf_inflight_client cfg)
        by (destruct ack as [(k, p)|]; [destruct H as (ok & -> & _)|subst f]; reflexivity).
      rewrite X. clear -FO. induction FO as [|e r H FO IH]; [reflexivity|]. cbn [fold_left]. destruct e; auto. contradiction. }
    destruct e as [now len x g|now m|now m|b0 n|now| |now s0 present]; cbn [logged3] in G.
    - destruct G as (outs & G & _). eapply NC; exact G.
    - eapply NC; exact G.
    - destruct G as (_ & outs & _ & G). eapply NC; exact G.
    - destruct G as (_ & ->). reflexivity.
    - eapply NC; exact G.
    - destruct G as (_ & ->). reflexivity.
    - destruct G as (_ & ->). reflexivity.
  Qed.
Section V3.
  Variables (hash : wpub3 -> N) (cfg : config) (s : sess3) (l : list (sev3 * list pkt3)).
  Hypothesis run : srun3 hash cfg s l.
  Hypothesis clock : Forall clocked3 l.

  Lemma few_no_reuse3 rm ops : Forall op3_ok ops ->
    few_enough cfg (snd (run3 rm (cf_max_pending cfg) (cf_inflight_timeout cfg) ops)) ->
    no_reuse (snd (run3 rm (cf_max_pending cfg) (cf_inflight_timeout cfg) ops)).
  Proof. intros ok [[H1 H2]|H]; [now apply c10_nodrop_v3|now apply c10_recent_v3]. Qed.

  Ltac start := destruct (run_linked3 _ _ _ _ run clock) as (ops & log & F & R & L); eexists; split; [eassumption|].
  Ltac feed H :=
    match goal with R : run3 ?rm _ _ ?ops = _, F : Forall op3_ok ?ops |- _ =>
      pose proof (H rm (cf_max_pending cfg) (cf_inflight_timeout cfg) ops F) as K; rewrite R in K; cbn [fst snd] in K
    end.
  Ltac reuse :=
    match goal with R : run3 ?rm _ _ ?ops = _, F : Forall op3_ok ?ops, FE : few_enough cfg _ |- _ =>
      pose proof (few_no_reuse3 rm ops F) as NR; rewrite R in NR; cbn [fst snd] in NR; specialize (NR FE)
    end.

  Lemma t08 : exists log, logs3 cfg l log /\
    (few_enough cfg log -> N.of_nat (List.length (inflight3 cfg l)) <= cf_inflight_client cfg).
  Proof.
    start. intros FE. reuse. feed c08_v3. specialize (K NR). rewrite (logs3_rm _ _ _ L) in K.
    destruct (inflight3_log _ _ _ L) as (ND & IN). pose proof (NoDup_incl_length ND IN). lia.
  Qed.
  Lemma t09 : exists log, logs3 cfg l log /\
    (few_enough cfg log -> in_order carries3 (first_sent wpid3 w3_dup log) (queued log) /\
      (no_expiry_event log -> no_early_ack wpid3 w3_dup carries3 lifetime3 (cf_inflight_timeout cfg) log ->
       exists sent_ones waiting, queued log = (sent_ones ++ waiting)%list /\
         Forall2 (transmits carries3) (first_sent wpid3 w3_dup log) sent_ones)).
  Proof. start. intros FE. reuse. split; [feed c09_v3; auto|]. feed c09_all_v3. auto. Qed.
  Lemma t10 : exists log, logs3 cfg l log /\ (forall p, In p (arrivals log) -> 1 <= p <= 65535) /\
    (few_enough cfg log -> no_reuse log).
  Proof. start. split; [intros p; feed c10_range_v3; auto|]. intros FE. reuse. exact NR. Qed.
  Lemma t11 : exists log, logs3 cfg l log /\
    (few_enough cfg log -> forall p, exists st, life wpid3 w3_dup carries3 lifetime3 (cf_inflight_timeout cfg) p log st).
  Proof. start. intros FE. reuse. feed c11_v3. auto. Qed.
  Lemma t12_bound : N.of_nat (List.length (pq (o3_q (z_out s)))) <= cf_max_pending cfg.
  Proof. destruct (run_linked3 _ _ _ _ run clock) as (ops & log & F & R & L). feed c12_bound_v3. exact K. Qed.
  Lemma t12_drop : 0 < cf_max_pending cfg -> exists log, logs3 cfg l log /\
    (few_enough cfg log -> forall l1 t p m l2, log = (l1 ++ EFull t p m :: l2)%list ->
     exists a t0 p0 m0 b, l1 = (a ++ EQueued t0 p0 m0 :: b)%list /\ active p0 l1 = true /\
       cf_max_pending cfg <= 1 + N.of_nat (List.length (queued b))).
  Proof. intros MX. start. intros FE. reuse. feed c12_drop_v3. exact (K NR MX). Qed.
  Lemma t13 : exists log, logs3 cfg l log /\
    (few_enough cfg log -> forall now len x g s' out k p, 0 < now -> ack3 cfg len x = Some (k, p) ->
      sstep3 hash cfg s (UPkt now len x g) s' out ->
      exists evs ok, logged3 cfg (UPkt now len x g) out evs /\ In (EAcked k now p ok) evs /\
        (active p log = false -> ok = false) /\
        (In p (inflight3 cfg l) -> forall st, life wpid3 w3_dup carries3 lifetime3 (cf_inflight_timeout cfg) p log st ->
          match k with
          | AckPuback | AckPubrec => exists t0 m l, st = InFlight t0 m l
          | AckPubcomp => exists l, st = Released l
          end -> ok = true) /\
        (forall p', x = YPubrec p' -> exists r, out = JPubrel p' :: r)).
  Proof.
    start. intros FE now len x g s' out k p T AK S. reuse.
    inversion S; subst;
      match goal with H : wf_glob cfg g |- _ => destruct H as (GC & _) end;
      match goal with H : packet_step3 _ _ _ _ _ _ = _ |- _ => rename H into E end;
      [|apply (stop3_moves hash cfg) in E; auto; destruct E as (X & _); congruence].
    pose proof (packet3_moves hash cfg _ _ _ _ _ _ _ _ T GC E) as (ops1 & evs & (FO & TR) & EN).
    assert (EN' := EN). destruct EN' as (first & rest & -> & FI & _). rewrite AK in FI. destruct FI as (ok & -> & ANS).
    destruct ANS as (ANS & OK). specialize (OK _ _ AK).
    exists ([EAcked k now p ok] ++ rest)%list, ok. split.
    { eexists. split; [|left; reflexivity]. refine (entry_imp _ _ _ _ _ _ _ _ (fun _ H => H) _ EN); intros ? H; apply H. }
    split; [now left|]. split; [|split].
    - intros AC. pose proof (c13_unknown_v3 (cf_inflight_client cfg) (cf_max_pending cfg) (cf_inflight_timeout cfg) ops F k now p) as U.
      rewrite R in U. cbn [fst snd] in U. rewrite (U NR AC) in OK. exact OK.
    - intros IF st LF ST. apply (proj2 (inflight3_log _ _ _ L)) in IF.
      pose proof (c13_accept_v3 (cf_inflight_client cfg) (cf_max_pending cfg) (cf_inflight_timeout cfg) ops F k now p st) as U. rewrite R in U.
      cbn [fst snd] in U. rewrite (U NR IF LF ST) in OK. exact OK.
    - intros p' ->. exact ANS.
  Qed.
  Lemma t15 : exists log, logs3 cfg l log /\
    (few_enough cfg log -> forall t s0 now out, resumes3 hash cfg s t s0 now out ->
      0 < now -> cf_inflight_timeout cfg <= now ->
      exists n, map (sent_pid wpid3) (flat_map wire3 out) = map Some (firstn n (held (o3_q (z_out s)))) /\
        (0 < cf_inflight_client cfg -> held (o3_q (z_out s)) <> [] -> (0 < n)%nat) /\ N.of_nat n <= cf_inflight_client cfg /\
        (cf_max_pending cfg <= cf_inflight_client cfg -> n = List.length (held (o3_q (z_out s))))).
  Proof.
    start. intros FE t s0 now out (s1 & s2 & s3 & S1 & S2 & S3) T TO. reuse.
    inversion S1; subst. match goal with H : session_connect3 _ _ _ = _ |- _ => apply (take3_out cfg) in H; [rename H into E1|assumption] end.
    inversion S2; subst. inversion S3; subst. match goal with H : pendings3 _ _ = _ |- _ => rename H into E3 end.
    unfold pendings3 in E3. cbn [z_out zwith_connected zwith_last zwith_will] in E3.
    pose proof (c15_v3 (cf_inflight_client cfg) (cf_max_pending cfg) (cf_inflight_timeout cfg) ops now F) as U.
    rewrite R in U. cbn [fst snd] in U. destruct (U NR TO T) as (_ & n & sent & EQ & G1 & G2 & G3 & G4).
    exists n. split; [|auto]. rewrite <- G1. f_equal.
    change [O3Resume; O3Flush now] with ([O3Resume] ++ [O3Flush now])%list in EQ.
    rewrite app_assoc, run3_snoc, run3_snoc, R in EQ. cbn [fst snd step3] in EQ. rewrite <- E1 in EQ.
    destruct (handle_pendings3 now (z_out s1)) as (o, sn) eqn:HP. injection E3 as _ <-. rewrite wire_of_sent3.
    cbn [fst snd] in EQ. rewrite <- !app_assoc in EQ. apply app_inv_head in EQ. cbn [app] in EQ. injection EQ as _ EQ.
    apply (f_equal sents) in EQ. rewrite !sents_app, !sents_map, !sents_expired, !app_nil_r in EQ.
    revert EQ. generalize sent. clear. induction sn as [|a sn IH]; intros [|b r] E; try discriminate; auto. cbn in E. injection E as -> E. f_equal. auto.
  Qed.
End V3.
