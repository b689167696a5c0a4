(** Outgoing messages when packet identifiers may be in use twice: single queues, whole
    sessions and sessions of a broker run. *)
From Coq Require Import List Bool Arith NArith Lia Permutation String.
From Verif Require Import Base BaseLemmas MsgModel PendingModel PendingProofs AliasModel OutModel OutSpec OutProofs OutInv OutLemmas OutFacts OrderSpec OrderProofs OrderLast
  GlobModel Sess5Model Sess3Model ConnModel InSpec LinkSpec LinkProofs LinkProofs3 LinkFacts RegModel BrokerModel BrokerSpec RunProofs TimeProofs LifeSpec LifeProofs LifeFacts RecordProofs.
Import List ListNotations.
Local Open Scope N_scope.
Local Open Scope list_scope.

(** ** Queues *)
Lemma forall2_weaken {A B} (P Q : A -> B -> Prop) l l' : (forall a b, P a b -> Q a b) -> Forall2 P l l' -> Forall2 Q l l'.
Proof. intros H. induction 1; constructor; auto. Qed.
Lemma timely_announced s q : transmits (timely carries5 lifetime5) s q -> announced s q.
Proof.
  destruct s as [[t p] w], q as [[t0 p'] m]. intros (A & C & E). split; [exact A|]. split; [exact C|]. destruct C as (_ & _ & _ & _ & _ & _ & C). unfold lifetime5 in *. split.
  - intros v Ev Hv. rewrite Ev in C. assert (L : t - t0 < v). { destruct (N.lt_ge_cases (t - t0) v); [assumption|]. exfalso. apply E. exists v. auto. }
    split; [exact L|]. rewrite C, N.mod_small by lia. reflexivity.
  - intros Ev. now rewrite Ev in C.
Qed.
Lemma timely_carries {M W} (carries : N -> N -> M -> W -> Prop) lifetime s q : transmits (timely carries lifetime) s q -> transmits carries s q.
Proof. destruct s as [[t p] w], q as [[t0 p'] m]. intros (A & C & _). split; auto. Qed.
Lemma in_order_weaken {M W} (P Q : N -> N -> M -> W -> Prop) l l' : (forall a b, transmits P a b -> transmits Q a b) -> in_order P l l' -> in_order Q l l'.
Proof. intros H. induction 1; constructor; auto. Qed.

Lemma run5_all rm max timeout amax ops : Forall op5_ok ops ->
  All wpid5 w5_dup carries5 lifetime5 mok5 (o5_q (fst (run5 rm max timeout amax ops))) (snd (run5 rm max timeout amax ops)).
Proof. intros ok. destruct (run5 rm max timeout amax ops) as [o log] eqn:E. eapply wrun_all. eapply run5_wrun; eauto. Qed.
Lemma run3_all rm max timeout ops : Forall op3_ok ops ->
  All wpid3 w3_dup carries3 lifetime3 mok3 (o3_q (fst (run3 rm max timeout ops))) (snd (run3 rm max timeout ops)).
Proof. intros ok. destruct (run3 rm max timeout ops) as [o log] eqn:E. eapply wrun_all. eapply run3_wrun; eauto. Qed.
Lemma all_orderly5 q log : All wpid5 w5_dup carries5 lifetime5 mok5 q log -> orderly5 log.
Proof.
  intros A. split.
  - intros ST. eapply all_in_order; eauto.
  - intros L H. destruct (all_exact _ _ _ _ _ _ _ A L H) as (s & w & E & F). exists s, w. split; [exact E|]. eapply forall2_weaken; [|exact F]. intros. now apply (timely_carries _ lifetime5).
Qed.
Lemma all_orderly3 q log : All wpid3 w3_dup carries3 lifetime3 mok3 q log -> orderly3 log.
Proof.
  intros A. split.
  - eapply in_order_weaken; [|eapply all_in_order; [exact A|]; right; intros m; reflexivity]. intros. now apply (timely_carries _ lifetime3).
  - intros H. destruct (all_exact _ _ _ _ _ _ _ A ltac:(intros ? ? ? _; reflexivity) H) as (s & w & E & F). exists s, w. split; [exact E|]. eapply forall2_weaken; [|exact F]. intros. now apply (timely_carries _ lifetime3).
Qed.
Lemma all_announced q log : All wpid5 w5_dup carries5 lifetime5 mok5 q log ->
  exists matched rest, Permutation (queued log) (matched ++ rest) /\ Forall2 announced (first_sent wpid5 w5_dup log) matched.
Proof. intros A. destruct (all_timely_lemma _ _ _ _ _ _ _ A) as (m & r & P & F). exists m, r. split; [exact P|]. eapply forall2_weaken; [|exact F]. apply timely_announced. Qed.

(** Acknowledgements that name no unfinished message. *)
Lemma ack_unheld {M} k now p (q : pendq M) : ~ In p (OutSpec.held q) -> ack_queue k now p q = (q, false).
Proof.
  intros H. destruct (ack_first k now p q) as [(a & x & b & x' & E & B & Hk & Eq)|Eq]; [|exact Eq]. exfalso. apply H. unfold OutSpec.held. rewrite E, flat_map_app, in_app_iff. right. cbn [flat_map]. rewrite in_app_iff. left.
  destruct k; destruct Hk as (Hx & _); [destruct Hx as (? & ? & ? & ? & ->)|destruct Hx as (? & ? & ? & ? & ->)|destruct Hx as (? & ->)]; now left.
Qed.

(** ** Sessions *)
Lemma sess5_all hash cfg s l : srun5 hash cfg s l -> Forall clocked5 l ->
  exists log, logs5 cfg l log /\ All wpid5 w5_dup carries5 lifetime5 mok5 (o5_q (s_out s)) log.
Proof.
  intros run clock. destruct (run_linked _ _ _ _ run clock) as (rm & amax & ops & log & F & R & L & RM). exists log. split; [exact L|].
  pose proof (run5_all rm (cf_max_pending cfg) (cf_inflight_timeout cfg) amax ops F) as K. rewrite R in K. exact K.
Qed.
Lemma sess3_all hash cfg s l : srun3 hash cfg s l -> Forall clocked3 l ->
  exists log, logs3 cfg l log /\ All wpid3 w3_dup carries3 lifetime3 mok3 (o3_q (z_out s)) log.
Proof.
  intros run clock. destruct (run_linked3 _ _ _ _ run clock) as (ops & log & F & R & L). exists log. split; [exact L|].
  pose proof (run3_all (cf_inflight_client cfg) (cf_max_pending cfg) (cf_inflight_timeout cfg) ops F) as K. rewrite R in K. exact K.
Qed.

Lemma sess5_resume hash cfg s l : srun5 hash cfg s l -> Forall clocked5 l ->
  forall t uuid p data now out, resumes5 hash cfg s t uuid p data now out -> cf_inflight_timeout cfg <= now ->
  exists n, Forall2 (sends wpid5 carries5 now) (flat_map wire5 out) (filter (fun x => negb (dead lifetime5 now x)) (firstn n (unfinished (o5_q (s_out s))))) /\
    N.of_nat n <= rmax5 cfg p /\ (0 < rmax5 cfg p -> unfinished (o5_q (s_out s)) <> [] -> (0 < n)%nat) /\
    (cf_max_pending cfg <= rmax5 cfg p -> n = List.length (unfinished (o5_q (s_out s)))).
Proof.
  intros run clock t uuid p data now out (CL & s1 & s2 & s3 & S1 & S2 & S3) TO.
  destruct (run_linked _ _ _ _ run clock) as (rm & amax & ops & log & F & R & L & RM).
  inversion S1 as [| | | | | | |? t0 ? ? ? ? s' k E1]; subst. apply take_out in E1. destruct E1 as (_ & E1). rewrite CL in E1.
  inversion S2; subst. inversion S3 as [| | |? ? ? ? E3| | | |]; subst.
  unfold pendings5 in E3. cbn [s_out with_connected with_last with_will] in E3.
  pose proof (resume_v5 rm (cf_max_pending cfg) (cf_inflight_timeout cfg) amax ops (rmax5 cfg p) (opt_or (co_alias p) 0) now F TO) as U.
  rewrite R in U. cbn [fst snd] in U. destruct U as (_ & n & sent & gone & EQ & H1 & H2 & H3 & H4 & H5).
  exists n. split; [|auto].
  change [O5Resume (rmax5 cfg p) (opt_or (co_alias p) 0); O5Flush now] with ([O5Resume (rmax5 cfg p) (opt_or (co_alias p) 0)] ++ [O5Flush now])%list in EQ.
  rewrite app_assoc, run5_snoc, run5_snoc, R in EQ. cbn [fst snd step5] in EQ. rewrite <- E1 in EQ.
  destruct (handle_pendings5 now (s_out s1)) as (o, sn) eqn:HP. injection E3 as _ <-. rewrite wire_of_sent.
  cbn [fst snd] in EQ. rewrite <- !app_assoc in EQ. apply app_inv_head in EQ. cbn [app] in EQ. injection EQ as EQ.
  apply (f_equal sents) in EQ. rewrite !sents_app, !sents_map, !sents_expired, !app_nil_r in EQ.
  assert (sn = sent) as ->; [|exact H1].
  revert EQ. generalize sent. clear. induction sn as [|a sn IH]; intros [|b r] E; try discriminate; auto. cbn in E. injection E as -> E. f_equal. auto.
Qed.
Lemma sess3_resume hash cfg s l : srun3 hash cfg s l -> Forall clocked3 l ->
  forall t s0 now out, resumes3 hash cfg s t s0 now out -> cf_inflight_timeout cfg <= now ->
  exists n, Forall2 (sends wpid3 carries3 now) (flat_map wire3 out) (firstn n (unfinished (o3_q (z_out s)))) /\
    N.of_nat n <= cf_inflight_client cfg /\ (0 < cf_inflight_client cfg -> unfinished (o3_q (z_out s)) <> [] -> (0 < n)%nat) /\
    (cf_max_pending cfg <= cf_inflight_client cfg -> n = List.length (unfinished (o3_q (z_out s)))).
Proof.
  intros run clock t s0 now out (s1 & s2 & s3 & S1 & S2 & S3) TO.
  destruct (run_linked3 _ _ _ _ run clock) as (ops & log & F & R & L).
  inversion S1; subst. match goal with H : session_connect3 _ _ _ = _ |- _ => apply (take3_out cfg) in H; [rename H into E1|assumption] end.
  inversion S2; subst. inversion S3; subst. match goal with H : pendings3 _ _ = _ |- _ => rename H into E3 end.
  unfold pendings3 in E3. cbn [z_out zwith_connected zwith_last zwith_will] in E3.
  pose proof (resume_v3 (cf_inflight_client cfg) (cf_max_pending cfg) (cf_inflight_timeout cfg) ops now F TO) as U.
  rewrite R in U. cbn [fst snd] in U. destruct U as (_ & n & sent & EQ & G1 & G2 & G3 & G4).
  exists n. split; [|auto].
  change [O3Resume; O3Flush now] with ([O3Resume] ++ [O3Flush now])%list in EQ.
  rewrite app_assoc, run3_snoc, run3_snoc, R in EQ. cbn [fst snd step3] in EQ. rewrite <- E1 in EQ.
  destruct (handle_pendings3 now (z_out s1)) as (o, sn) eqn:HP. injection E3 as _ <-. rewrite wire_of_sent3.
  cbn [fst snd] in EQ. rewrite <- !app_assoc in EQ. apply app_inv_head in EQ. cbn [app] in EQ. injection EQ as _ EQ.
  apply (f_equal sents) in EQ. rewrite !sents_app, !sents_map, !sents_expired, !app_nil_r in EQ.
  assert (sn = sent) as ->; [|exact G1].
  revert EQ. generalize sent. clear. induction sn as [|a sn IH]; intros [|b r] E; try discriminate; auto. cbn in E. injection E as -> E. f_equal. auto.
Qed.

(** ** The clock of a broker run *)
Definition at5 (e : sev5) : option N := match e with VPkt t _ _ _ | VMsg t _ | VLost t _ | VFlush t => Some t | _ => None end.
Definition upto (T : N) (l : list (sev5 * list pkt5)) : Prop := forall e o t, In (e, o) l -> at5 e = Some t -> t <= T.
Fixpoint rising (l : list (sev5 * list pkt5)) : Prop :=                      (* latest first *)
  match l with [] => True | (e, o) :: r => (forall t, at5 e = Some t -> upto t r) /\ rising r end.

Lemma upto_app T a b : upto T a -> upto T b -> upto T (a ++ b).
Proof. intros A B e o t Hi. apply in_app_iff in Hi. destruct Hi; eauto. Qed.
Lemma upto_le T T' l : T <= T' -> upto T l -> upto T' l.
Proof. intros L H e o t Hi Ht. specialize (H e o t Hi Ht). lia. Qed.
Lemma upto_rev T l : upto T l -> upto T (rev l).
Proof. intros H e o t Hi. apply in_rev in Hi. eauto. Qed.

(** A log whose transmissions are those of a session that sees a rising clock. *)
Definition times (log : list (oev pub5 wpub5)) : list N := flat_map (fun e => match e with ESent t _ => [t] | _ => [] end) log.
Fixpoint up (l : list N) : Prop := match l with [] => True | x :: r => Forall (fun y => x <= y) r /\ up r end.
Lemma up_app a b : up (a ++ b) <-> up a /\ up b /\ forall x y, In x a -> In y b -> x <= y.
Proof.
  induction a as [|x a IH]; cbn; [split; [intros H; repeat split; auto; intros ? ? []|intros (_ & H & _); exact H]|]. rewrite IH, Forall_app, !Forall_forall. split.
  - intros ((A & B) & C & D & E). repeat split; auto. intros u v [<-|Hu] Hv; auto.
  - intros ((A & B) & C & D). repeat split; auto; intros; apply D; auto.
Qed.
Lemma times_app a b : times (a ++ b) = times a ++ times b.
Proof. apply flat_map_app. Qed.
Lemma up_steady log : up (times log) -> steady log.
Proof.
  intros H l1 t s l2 t' s' l3 ->. rewrite times_app in H. cbn in H. rewrite times_app in H. cbn in H. apply up_app in H. destruct H as (_ & H & _). cbn in H. destruct H as (H & _). rewrite Forall_forall in H. apply H. apply in_app_iff. right. now left.
Qed.
Lemma entry_times t ack A outs q (evs : list (oev pub5 wpub5)) : LinkSpec.entry t ack A outs q evs -> Forall (fun x => x = t) (times evs).
Proof.
  intros (first & rest & -> & H & _ & F). rewrite times_app. apply Forall_app. split.
  - destruct ack as [(k, p)|]; [destruct H as (ok & -> & _); constructor|subst; constructor].
  - clear - F. induction F as [|e r E F IH]; cbn; [constructor|]. destruct e; cbn; auto.
Qed.
Lemma up_same t l : Forall (fun x => x = t) l -> up l.
Proof. induction 1 as [|x l E F IH]; cbn; auto. split; [|exact IH]. subst. rewrite Forall_forall in *. intros y Hy. rewrite (F y Hy). lia. Qed.
Lemma logged_times cfg e out evs : logged5 cfg e out evs -> times evs = [] \/ exists t, at5 e = Some t /\ Forall (fun x => x = t) (times evs).
Proof.
  destruct e as [now len x g|now m|now m|b n|now| | |now uuid p data]; cbn [logged5 at5]; intros G.
  - right. eexists. split; [reflexivity|]. eapply entry_times; eauto.
  - right. eexists. split; [reflexivity|]. eapply entry_times; eauto.
  - destruct G as (_ & outs & _ & G). right. eexists. split; [reflexivity|]. eapply entry_times; eauto.
  - left. now destruct G as (_ & ->).
  - right. eexists. split; [reflexivity|]. eapply entry_times; eauto.
  - left. now destruct G as (_ & ->).
  - left. now destruct G as (_ & ->).
  - left. now destruct G as (_ & ->).
Qed.
Lemma rising_log cfg l log : logs5 cfg l log -> rising (rev l) -> up (times log) /\ forall x, In x (times log) -> exists e o, In (e, o) l /\ at5 e = Some x.
Proof.
  induction 1 as [rm|l log e out evs L IH G|l log now uuid p data L IH C]; intros H.
  - split; [exact I|intros ? []].
  - rewrite rev_app_distr in H. cbn in H. destruct H as (H1 & H2). destruct (IH H2) as (U & S). rewrite times_app. destruct (logged_times _ _ _ _ G) as [E|(t & Et & F)].
    + rewrite E, app_nil_r. split; [exact U|]. intros x Hx. destruct (S x Hx) as (e' & o & A & B). exists e', o. rewrite in_app_iff. auto.
    + split.
      * apply up_app. split; [exact U|]. split; [eapply up_same; eauto|]. intros x y Hx Hy. rewrite Forall_forall in F. rewrite (F y Hy). destruct (S x Hx) as (e' & o & A & B). eapply H1; eauto. apply -> in_rev. exact A.
      * intros x Hx. apply in_app_iff in Hx. destruct Hx as [Hx|Hx].
        -- destruct (S x Hx) as (e' & o & A & B). exists e', o. rewrite in_app_iff. auto.
        -- rewrite Forall_forall in F. rewrite (F x Hx). exists e, out. rewrite in_app_iff. cbn. auto.
  - split; [exact I|intros ? []].
Qed.

Section Clock.
  Variables (hash5 : wpub5 -> N) (hash3 : wpub3 -> N) (pick : draw -> broker -> string -> string -> N).
  Notation bstep := (bstep hash5 hash3 pick).
  Notation brun := (brun hash5 hash3 pick).
  Notation bgo := (bgo hash5 hash3 pick).
  Lemma go_now b h b' : good b -> bgo b h b' -> b_now b <= b_now b'.
  Proof.
    intros G R. induction R as [|? ? ? ? ? ? R IH S]; [lia|]. specialize (IH G). pose proof (go_good _ _ _ _ _ _ G R) as G1. destruct (step_now _ _ _ _ _ _ _ G1 S). lia.
  Qed.
  Lemma life_rising c k : forall h l, life5 k h l -> forall b, brun c h b -> rising (rev l) /\ upto (seconds b) l.
  Proof.
    intros h l LF. induction LF as [k p h q t0 uuid pc data E1 E2 E3 E4|k p h2 q j online s0 h1 l q0 t0 uuid pc data E1 E2 L IH E3 E4 E5 E6|k p h l d L IH D]; intros b R.
    - split; [exact I|intros ? ? ? []].
    - change (p :: h2 ++ q :: h1) with ((p :: h2) ++ q :: h1) in R. destruct (run_split _ _ _ _ _ _ _ R) as (b0 & R0 & RG). inversion R0 as [|? b1 ? ? ? R1 S]; subst. cbn [w_b] in *.
      destruct (IH _ R1) as (A & B). pose proof (run_good _ _ _ _ _ _ R1) as G1. pose proof (run_good _ _ _ _ _ _ R0) as G0.
      pose proof (go_now _ _ _ G0 RG) as N1. destruct (step_now _ _ _ _ _ _ _ G1 S) as (N2 & _).
      split; [rewrite rev_app_distr; cbn; split; [discriminate|exact A]|]. apply upto_app; [|intros e9 o9 t9 [X|[]]; injection X as <- <-; discriminate].
      eapply upto_le; [|exact B]. unfold seconds. apply N.div_le_mono; lia.
    - inversion R as [|? b1 ? ? ? R1 S]; subst. cbn [w_b w_e w_out] in *. destruct (IH _ R1) as (A & B). pose proof (run_good _ _ _ _ _ _ R1) as G1. destruct (step_now _ _ _ _ _ _ _ G1 S) as (N2 & _).
      assert (U : upto (seconds b1) l) by exact B.
      assert (LE : seconds b1 <= seconds b) by (unfold seconds; apply N.div_le_mono; lia).
      assert (K : forall e9 o9 t9, In (e9, o9) d -> at5 e9 = Some t9 -> t9 = seconds b1).
      { inversion D; subst; cbn [w_b w_e w_out] in *; intros e0 o0 t1 Hi Ht; cbn [In] in Hi;
          try (repeat match goal with Hi : _ \/ _ |- _ => destruct Hi as [Hi|Hi] end; try contradiction; injection Hi as <- <-; cbn in Ht; congruence).
        match goal with F : Forall still5 _ |- _ => rewrite Forall_forall in F; specialize (F _ Hi); destruct e0; cbn in F, Ht; try contradiction; discriminate end. }
      split.
      + rewrite rev_app_distr. clear - A U K. assert (Kr : forall e o t, In (e, o) (rev d) -> at5 e = Some t -> t = seconds b1) by (intros; eapply K; [apply in_rev; eassumption|eassumption]). clear K. revert Kr. generalize (rev d) as d'.
        induction d' as [|[e o] d' IH]; intros Kr; [exact A|]. cbn. split; [|apply IH; intros; eapply Kr; [right; eassumption|eassumption]].
        intros t Ht. rewrite (Kr e o t (or_introl eq_refl) Ht). apply upto_app; [|now apply upto_rev]. intros e' o' t' Hi Ht'. rewrite (Kr e' o' t' (or_intror Hi) Ht'). lia.
      + apply upto_app; [eapply upto_le; eauto|]. intros e9 o9 t9 Hi Ht. rewrite (K _ _ _ Hi Ht). exact LE.
  Qed.

  Lemma broker5_all c h b k s : brun c h b -> (forall p, In p h -> proper p) -> (forall p, In p h -> after_1970 p) -> sess_at b k = Some (A5 s) ->
    exists l log, life5 k h l /\ logs5 c l log /\ steady log /\ All wpid5 w5_dup carries5 lifetime5 mok5 (o5_q (s_out s)) log.
  Proof.
    intros R P T A. destruct (is_run5 hash5 hash3 pick c h b k s R P T A) as (l & L & S & C). destruct (sess5_all _ _ _ _ S C) as (log & LG & K). exists l, log. split; [exact L|]. split; [exact LG|]. split; [|exact K].
    apply up_steady. eapply rising_log; [exact LG|]. eapply life_rising; eauto.
  Qed.
  Lemma broker3_all c h b k s : brun c h b -> (forall p, In p h -> proper p) -> (forall p, In p h -> after_1970 p) -> sess_at b k = Some (A3 s) ->
    exists l log, life3 k h l /\ logs3 c l log /\ All wpid3 w3_dup carries3 lifetime3 mok3 (o3_q (z_out s)) log.
  Proof.
    intros R P T A. destruct (is_run3 hash5 hash3 pick c h b k s R P T A) as (l & L & S & C). destruct (sess3_all _ _ _ _ S C) as (log & LG & K). exists l, log. auto.
  Qed.
End Clock.

Lemma unfinished_held {M} (q : pendq M) : map fst (unfinished q) = OutSpec.held q.
Proof. unfold unfinished, OutSpec.held. induction (pq q) as [|[] l IH]; cbn; auto; now rewrite <- IH. Qed.
Lemma unheld5 k now p o : ~ In p (map fst (unfinished (o5_q o))) -> out5_on_queue (ack_queue k now p) o = (o, false).
Proof. intros H. rewrite unfinished_held in H. unfold out5_on_queue. rewrite (ack_unheld k now p _ H). now destruct o. Qed.
Lemma unheld3 k now p o : ~ In p (map fst (unfinished (o3_q o))) -> out3_on_queue (ack_queue k now p) o = (o, false).
Proof. intros H. rewrite unfinished_held in H. unfold out3_on_queue. rewrite (ack_unheld k now p _ H). now destruct o. Qed.

Section Broker.
  Variables (hash5 : wpub5 -> N) (hash3 : wpub3 -> N) (pick : draw -> broker -> string -> string -> N).
  Variables (c : config) (h : list past) (b : broker) (k : N).
  Hypotheses (R : brun hash5 hash3 pick c h b) (P : forall p, In p h -> proper p) (T : forall p, In p h -> after_1970 p).
  Lemma broker5_order s : sess_at b k = Some (A5 s) ->
    exists l log, life5 k h l /\ logs5 c l log /\
      in_order (timely carries5 lifetime5) (first_sent wpid5 w5_dup log) (queued log) /\
      (lasting lifetime5 log -> honest wpid5 w5_dup log ->
       exists sent_ones waiting, queued log = sent_ones ++ waiting /\ Forall2 (transmits carries5) (first_sent wpid5 w5_dup log) sent_ones).
  Proof. intros A. destruct (broker5_all _ _ _ _ _ _ _ _ R P T A) as (l & log & L & G & S & K). exists l, log. destruct (all_orderly5 _ _ K) as (O1 & O2). auto. Qed.
  Lemma broker3_order s : sess_at b k = Some (A3 s) -> exists l log, life3 k h l /\ logs3 c l log /\ orderly3 log.
  Proof. intros A. destruct (broker3_all _ _ _ _ _ _ _ _ R P T A) as (l & log & L & G & K). exists l, log. split; [exact L|]. split; [exact G|]. eapply all_orderly3; eauto. Qed.
  Lemma broker5_expiry s : sess_at b k = Some (A5 s) ->
    exists l log, life5 k h l /\ logs5 c l log /\ sourced5 log /\
      exists matched rest, Permutation (queued log) (matched ++ rest) /\ Forall2 announced (first_sent wpid5 w5_dup log) matched.
  Proof. intros A. destruct (broker5_all _ _ _ _ _ _ _ _ R P T A) as (l & log & L & G & S & K). exists l, log. split; [exact L|]. split; [exact G|]. split; [exact (a_srcs _ _ _ _ _ _ _ K)|]. eapply all_announced; eauto. Qed.
  Lemma broker5_unfinished s : sess_at b k = Some (A5 s) ->
    exists l log, life5 k h l /\ logs5 c l log /\ (lasting lifetime5 log -> unfinished (o5_q (s_out s)) = ledger log).
  Proof. intros A. destruct (broker5_all _ _ _ _ _ _ _ _ R P T A) as (l & log & L & G & S & K). exists l, log. split; [exact L|]. split; [exact G|]. exact (a_led _ _ _ _ _ _ _ K). Qed.
  Lemma broker3_unfinished s : sess_at b k = Some (A3 s) ->
    exists l log, life3 k h l /\ logs3 c l log /\ unfinished (o3_q (z_out s)) = ledger log.
  Proof. intros A. destruct (broker3_all _ _ _ _ _ _ _ _ R P T A) as (l & log & L & G & K). exists l, log. split; [exact L|]. split; [exact G|]. apply (a_led _ _ _ _ _ _ _ K). intros ? ? ? ?. reflexivity. Qed.
End Broker.

(** [honest] can be checked by computation. *)
Lemma honest_by {M W} wpid wdup (log : list (oev M W)) :
  Forall (fun n => Forall (fun p => (received p (firstn n log) <= first_under wpid wdup p (firstn n log))%nat)
    (flat_map (fun e => match e with EAcked _ _ p _ => [p] | _ => [] end) log)) (seq 0 (S (List.length log))) -> honest wpid wdup log.
Proof.
  intros H l1 l2 p E. rewrite Forall_forall in H. assert (K := H (List.length l1)). rewrite E in K at 1. rewrite app_length in K. specialize (K ltac:(apply in_seq; lia)).
  rewrite E in K at 1. rewrite E in K. rewrite firstn_app, Nat.sub_diag, firstn_O, app_nil_r, firstn_all in K.
  rewrite Forall_forall in K. destruct (Nat.eq_dec (received p l1) 0) as [Z|Z]; [rewrite Z; apply Nat.le_0_l|]. apply K. rewrite flat_map_app, in_app_iff. left.
  unfold received in Z. destruct (filter _ l1) as [|e r] eqn:F; [now cbn in Z|]. assert (I : In e (filter (fun e : oev M W => match e with EAcked AckPuback _ q true | EAcked AckPubrec _ q true => q =? p | _ => false end) l1)) by (rewrite F; now left).
  apply filter_In in I. destruct I as (I & J). apply in_flat_map. exists e. split; [exact I|]. destruct e as [| | | |k t q b|]; try discriminate. destruct k, b; try discriminate; apply N.eqb_eq in J; subst; now left.
Qed.
