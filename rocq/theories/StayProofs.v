(** Proofs for StayProps. *)
From Coq Require Import List Bool NArith String Lia.
From Verif Require Import Base BaseLemmas MsgModel PendingModel OutModel GlobModel Sess5Model Sess3Model ConnModel RegModel BrokerModel
  BrokerSpec OutSpec OutProofs OutInv OutLemmas OutFacts InSpec LinkSpec LinkProofs LinkProofs3 LinkFacts LifeSpec LifeProofs RecordProofs EndProofs StaySpec.
Import ListNotations.
Local Open Scope N_scope.
Local Open Scope list_scope.

Section Gen.
  Context {M W : Type}.
  Variable wpid : W -> option pid.
  Variable wdup : W -> bool.
  Variable carries : N -> N -> M -> W -> Prop.
  Variable lifetime : M -> option N.
  Notation lstep := (lstep wpid wdup carries lifetime).
  Notation life := (life wpid wdup carries lifetime).
  Notation elapsed := (elapsed lifetime).

  (** A message in flight was queued. *)
  Lemma life_inflight timeout p log : forall t0 m l, life timeout p log (InFlight t0 m l) -> In (EQueued t0 p m) log.
  Proof.
    induction log as [|e log IH] using rev_ind; intros t0 m l H; [apply life_nil_inv in H; discriminate|].
    apply life_snoc_inv in H as (s0 & H1 & H2). rewrite in_app_iff.
    inversion H2; subst; eauto. left. eapply life_waiting; eauto.
  Qed.

  Lemma stays timeout p t0 m : forall l2 l1 last st, life timeout p l1 (InFlight t0 m last) -> life timeout p (l1 ++ l2) st ->
    (forall k t, ~ In (EAcked k t p true) l2) ->
    (exists last', st = InFlight t0 m last' /\ (last' = None -> last = None \/ exists rm, In (EConn rm) l2)) \/
    (exists a t b, l2 = a ++ EExpired t p :: b /\ (last = None \/ exists rm, In (EConn rm) a) /\ elapsed t0 t m).
  Proof.
    induction l2 as [|e l2 IH] using rev_ind; intros l1 last st A B NA.
    - rewrite app_nil_r in B. left. exists last. split; [eapply life_det; eauto|auto].
    - rewrite app_assoc in B. apply life_snoc_inv in B as (s0 & B & S).
      destruct (IH l1 last s0 A B) as [(last' & E & Q)|(a & t & b & E & Q & X)].
      { intros k t H. apply (NA k t). apply in_app_iff; auto. }
      + subst s0. inversion S; subst.
        * left. exists last'. split; auto. intros F. destruct (Q F) as [F1|(rm & F1)]; auto. right. exists rm. apply in_app_iff; auto.
        * left. exists None. split; auto. intros _. right. exists rm. apply in_app_iff; right; left; auto.
        * left. exists (Some t). split; auto. discriminate.
        * left. exists (Some t). split; auto. discriminate.
        * left. exists last'. split; auto. intros F. destruct (Q F) as [F1|(rm & F1)]; auto. right. exists rm. apply in_app_iff; auto.
        * exfalso. apply (NA AckPuback t). apply in_app_iff; right; left; auto.
        * exfalso. apply (NA AckPubrec t). apply in_app_iff; right; left; auto.
        * right. exists l2, t, []. split; [auto|]. split; auto.
      + right. subst l2. exists a, t, (b ++ [e]). split; [rewrite <- app_assoc; reflexivity|]. auto.
  Qed.

  Lemma kept timeout p l1 t w l2 st : life timeout p (l1 ++ ESent t (SPub w) :: l2) st -> wpid w = Some p ->
    (forall k t, ~ In (EAcked k t p true) l2) ->
    exists t0 m, In (EQueued t0 p m) l1 /\ carries t0 t m w /\
      ((exists last, st = InFlight t0 m last) \/
       (exists a t' b, l2 = a ++ EExpired t' p :: b /\ (exists rm, In (EConn rm) a) /\ elapsed t0 t' m)).
  Proof.
    intros L E NA. destruct (life_split _ _ _ _ _ _ _ _ _ _ L) as (s0 & s1 & L0 & S).
    assert (K : exists t0 m, In (EQueued t0 p m) l1 /\ carries t0 t m w /\ s1 = InFlight t0 m (Some t)).
    { inversion S; subst.
      - exfalso. cbn in *. congruence.
      - exists t0, m. split; [eapply life_waiting; eauto|auto].
      - exists t0, m. split; [eapply life_inflight; eauto|auto].
      - exists t0, m. split; [eapply life_inflight; eauto|auto]. }
    destruct K as (t0 & m & Q & C & ->). exists t0, m. split; auto. split; auto.
    assert (L1 : life timeout p (l1 ++ [ESent t (SPub w)]) (InFlight t0 m (Some t))) by (econstructor; eauto).
    replace (l1 ++ ESent t (SPub w) :: l2) with ((l1 ++ [ESent t (SPub w)]) ++ l2) in L by (rewrite <- app_assoc; reflexivity).
    destruct (stays _ _ _ _ _ _ _ _ L1 L NA) as [(last & H & _)|(a & t' & b & H & [F|F] & X)]; [eauto|discriminate|]. right. eauto 8.
  Qed.

  Lemma abs_inflight p (l : list (pstatus M)) t0 m last : abs p l = InFlight t0 m last -> exists n, In (PNew t0 n p m true) l.
  Proof.
    induction l as [|x l IH]; cbn; [discriminate|]. destruct (status_pid x) as [q|] eqn:P.
    - destruct (N.eqb_spec q p) as [->|].
      + destruct x as [ad la q x d|la q|]; cbn in *; try discriminate. destruct d; [|discriminate]. injection P as ->. intros H. injection H as -> -> _. eauto.
      + intros H. destruct (IH H) as (n0 & I). eauto.
    - intros H. destruct (IH H) as (n0 & I). eauto.
  Qed.
End Gen.

(** ** From events to the log *)
Inductive parts5 (cfg : config) : list (sev5 * list pkt5) -> list (oev pub5 wpub5) -> Prop :=
| pt_nil : parts5 cfg [] []
| pt_cons e out l evs log : logged5 cfg e out evs -> parts5 cfg l log -> parts5 cfg ((e, out) :: l) (evs ++ log).
Lemma parts5_snoc cfg l log e out evs : parts5 cfg l log -> logged5 cfg e out evs -> parts5 cfg (l ++ [(e, out)]) (log ++ evs).
Proof.
  intros P G. induction P as [|e' out' l evs' log G' P IH]; cbn.
  - rewrite <- (app_nil_r evs). constructor; [auto|constructor].
  - rewrite <- app_assoc. constructor; auto.
Qed.
Lemma logs5_split cfg p : forall l2 l1 e out log, logs5 cfg (l1 ++ (e, out) :: l2) log -> open5 cfg p l2 ->
  (forall now uuid pc data, e = VTake now uuid pc data -> co_clean pc = false) ->
  exists log1 evs log2, log = log1 ++ evs ++ log2 /\ logged5 cfg e out evs /\ parts5 cfg l2 log2.
Proof.
  induction l2 as [|(e2, out2) l2 IH] using rev_ind; intros l1 e out log L O NC.
  - inversion L as [rm E|l log0 e0 out0 evs L0 G E|l log0 now uuid pc data L0 C E].
    + now destruct l1.
    + apply app_inj_tail in E. destruct E as (-> & E). injection E as -> ->. exists log0, evs, []. rewrite app_nil_r. split; auto. split; auto. constructor.
    + apply app_inj_tail in E. destruct E as (-> & E). injection E as <- <-. rewrite (NC _ _ _ _ eq_refl) in C. discriminate.
  - assert (O1 : open5 cfg p l2) by (intros x o I; apply (O x o); apply in_app_iff; auto).
    assert (Q : forall log0, logs5 cfg (l1 ++ (e, out) :: l2) log0 -> exists log1 evs log2, log0 = log1 ++ evs ++ log2 /\ logged5 cfg e out evs /\ parts5 cfg l2 log2) by (intros log0 L0; eapply IH; eauto).
    replace (l1 ++ (e, out) :: l2 ++ [(e2, out2)]) with ((l1 ++ (e, out) :: l2) ++ [(e2, out2)]) in L by (rewrite <- app_assoc; reflexivity).
    inversion L as [rm E|l log0 e0 out0 evs L0 G E|l log0 now uuid pc data L0 C E].
    + destruct l1; discriminate.
    + apply app_inj_tail in E. destruct E as (-> & E). injection E as -> ->. destruct (Q _ L0) as (log1 & evs1 & log2 & -> & G1 & P).
      exists log1, evs1, (log2 ++ evs). split; [rewrite <- !app_assoc; reflexivity|]. split; auto. apply parts5_snoc; auto.
    + apply app_inj_tail in E. destruct E as (-> & E). injection E as <- <-. exfalso.
      assert (X := O (VTake now uuid pc data) [] ltac:(apply in_app_iff; right; now left)). cbn in X. congruence.
Qed.

(** Acknowledgements in an entry are the one it brings. *)
Lemma entry_acks {M W} t ack A outs q (evs : list (oev M W)) k t' p ok : LinkSpec.entry t ack A outs q evs -> In (EAcked k t' p ok) evs -> ack = Some (k, p).
Proof.
  intros (first & rest & -> & H & _ & F) I. apply in_app_iff in I. destruct I as [I|I].
  - destruct ack as [(k0, p0)|]; [|subst; destruct I]. destruct H as (ok0 & -> & _). destruct I as [I|[]]. injection I as -> _ -> _. auto.
  - rewrite Forall_forall in F. now specialize (F _ I).
Qed.
Lemma entry_conn {M W} t ack A outs q (evs : list (oev M W)) rm : LinkSpec.entry t ack A outs q evs -> ~ In (EConn rm) evs.
Proof.
  intros (first & rest & -> & H & _ & F) I. apply in_app_iff in I. destruct I as [I|I].
  - destruct ack as [(k0, p0)|]; [|subst; destruct I]. destruct H as (ok0 & -> & _). destruct I as [I|[]]. discriminate.
  - rewrite Forall_forall in F. now specialize (F _ I).
Qed.
Lemma entry_expired {M W} t ack A outs q (evs : list (oev M W)) t' p : LinkSpec.entry t ack A outs q evs -> In (EExpired t' p) evs -> t' = t.
Proof.
  intros (first & rest & -> & H & _ & F) I. apply in_app_iff in I. destruct I as [I|I].
  - destruct ack as [(k0, p0)|]; [|subst; destruct I]. destruct H as (ok0 & -> & _). destruct I as [I|[]]. discriminate.
  - rewrite Forall_forall in F. now specialize (F _ I).
Qed.
(** A transmission comes after the acknowledgement. *)
Lemma entry_sent {M W} t ack A outs q (evs : list (oev M W)) s : LinkSpec.entry t ack A outs q evs -> In s outs ->
  exists a b, evs = a ++ ESent t s :: b /\ forall k t' p ok, ~ In (EAcked k t' p ok) b.
Proof.
  intros (first & rest & -> & _ & E & F) I.
  assert (J : In (t, s) (sents rest)) by (rewrite E; apply in_map; auto).
  unfold sents in J. apply in_flat_map in J. destruct J as (e & J & K). destruct e as [| | |t1 s1| |]; try (now destruct K). destruct K as [K|[]]. injection K as -> ->.
  apply in_split in J. destruct J as (a & b & ->). exists (first ++ a), b. split; [rewrite <- app_assoc; reflexivity|].
  intros k t' p ok I'. rewrite Forall_forall in F. specialize (F (EAcked k t' p ok) ltac:(apply in_app_iff; right; right; auto)). exact F.
Qed.

Lemma parts5_acks cfg p l log : parts5 cfg l log -> open5 cfg p l -> forall k t ok, ~ In (EAcked k t p ok) log.
Proof.
  induction 1 as [|e out l evs log G P IH]; intros O k t ok I; [destruct I|]. apply in_app_iff in I. destruct I as [I|I].
  2:{ revert I. apply IH. intros x o J. apply (O x o). now right. }
  assert (OE := O e out (or_introl eq_refl)).
  destruct e as [now len x g|now m|now m|b n|now| | |now uuid pc data]; cbn [logged5] in G.
  - apply (entry_acks _ _ _ _ _ _ _ _ _ _ G) in I. now apply (OE k).
  - apply (entry_acks _ _ _ _ _ _ _ _ _ _ G) in I. discriminate.
  - destruct G as (_ & outs & _ & G). apply (entry_acks _ _ _ _ _ _ _ _ _ _ G) in I. discriminate.
  - destruct G as (_ & ->). destruct I.
  - apply (entry_acks _ _ _ _ _ _ _ _ _ _ G) in I. discriminate.
  - destruct G as (_ & ->). destruct I.
  - destruct G as (_ & ->). destruct I.
  - destruct G as (_ & ->). destruct I as [I|[]]. discriminate.
Qed.
Lemma logged5_conn cfg e out evs rm : logged5 cfg e out evs -> In (EConn rm) evs -> (exists now uuid pc data, e = VTake now uuid pc data) /\ evs = [EConn rm].
Proof.
  intros G I. destruct e as [now len x g|now m|now m|b n|now| | |now uuid pc data]; cbn [logged5] in G; try (exfalso; exact (entry_conn _ _ _ _ _ _ _ G I)).
  - exfalso. destruct G as (_ & outs & _ & G). exact (entry_conn _ _ _ _ _ _ _ G I).
  - destruct G as (_ & ->). destruct I.
  - destruct G as (_ & ->). destruct I.
  - destruct G as (_ & ->). destruct I.
  - destruct G as (_ & ->). destruct I as [I|[]]. injection I as ->. split; [eauto|auto].
Qed.
Lemma logged5_expired cfg e out evs t p : logged5 cfg e out evs -> In (EExpired t p) evs -> when5 e = Some t.
Proof.
  intros G I. destruct e as [now len x g|now m|now m|b n|now| | |now uuid pc data]; cbn [logged5] in G; cbn.
  - now rewrite (entry_expired _ _ _ _ _ _ _ _ G I).
  - now rewrite (entry_expired _ _ _ _ _ _ _ _ G I).
  - destruct G as (_ & outs & _ & G). now rewrite (entry_expired _ _ _ _ _ _ _ _ G I).
  - destruct G as (_ & ->). destruct I.
  - now rewrite (entry_expired _ _ _ _ _ _ _ _ G I).
  - destruct G as (_ & ->). destruct I.
  - destruct G as (_ & ->). destruct I.
  - destruct G as (_ & ->). destruct I as [I|[]]. discriminate.
Qed.
Lemma parts5_conn cfg l log rm : parts5 cfg l log -> In (EConn rm) log -> exists now uuid pc data o, In (VTake now uuid pc data, o) l.
Proof.
  induction 1 as [|e out l evs log G P IH]; intros I; [destruct I|]. apply in_app_iff in I. destruct I as [I|I].
  - destruct (logged5_conn _ _ _ _ _ G I) as ((now & uuid & pc & data & ->) & _). exists now, uuid, pc, data, out. now left.
  - destruct (IH I) as (now & uuid & pc & data & o & J). exists now, uuid, pc, data, o. now right.
Qed.
Lemma app_eq_split {A} (a b c d : list A) x : a ++ b = c ++ x :: d -> (exists c', b = c' ++ x :: d /\ c = a ++ c') \/ (exists d', a = c ++ x :: d' /\ d = d' ++ b).
Proof.
  revert c. induction a as [|y a IH]; cbn; intros c E.
  - left. exists c. auto.
  - destruct c as [|z c]; cbn in E; injection E as -> E.
    + right. exists a. auto.
    + destruct (IH c E) as [(c' & -> & ->)|(d' & -> & ->)]; [left; exists c'; auto|right; exists d'; auto].
Qed.
Lemma parts5_expired cfg l log : parts5 cfg l log -> forall a t p b, log = a ++ EExpired t p :: b -> (exists rm, In (EConn rm) a) ->
  exists la e out lb, l = la ++ (e, out) :: lb /\ when5 e = Some t /\ exists now uuid pc data o, In (VTake now uuid pc data, o) la.
Proof.
  induction 1 as [|e out l evs log G P IH]; intros a t p b E (rm & I); [now destruct a|].
  destruct (app_eq_split _ _ _ _ _ E) as [(c' & E1 & E2)|(d' & E1 & E2)].
  - subst a. apply in_app_iff in I. destruct I as [I|I].
    + destruct (logged5_conn _ _ _ _ _ G I) as ((now & uuid & pc & data & ->) & _).
      clear IH. subst log. revert P. clear. intros P.
      assert (K : exists la e o lb, l = la ++ (e, o) :: lb /\ when5 e = Some t).
      { remember (c' ++ EExpired t p :: b) as log eqn:E. revert c' E. induction P as [|e o l evs log G P IH]; intros c' E; [now destruct c'|].
        destruct (app_eq_split _ _ _ _ _ E) as [(c2 & E1 & E2)|(d' & E1 & E2)].
        - destruct (IH _ E1) as (la & e1 & o1 & lb & -> & W). exists ((e, o) :: la), e1, o1, lb. auto.
        - exists [], e, o, l. split; auto. apply (logged5_expired _ _ _ _ _ p G). rewrite E1. apply in_app_iff. right. now left. }
      destruct K as (la & e & o & lb & -> & W). exists ((VTake now uuid pc data, out) :: la), e, o, lb. split; auto. split; auto. exists now, uuid, pc, data, out. now left.
    + destruct (IH _ _ _ _ E1 (ex_intro _ rm I)) as (la & e1 & o1 & lb & -> & W & now & uuid & pc & data & o & J). exists ((e, out) :: la), e1, o1, lb. split; auto. split; auto. exists now, uuid, pc, data, o. now right.
  - subst evs. destruct (logged5_conn _ _ _ _ rm G ltac:(apply in_app_iff; auto)) as (_ & X). destruct a as [|y [|]]; try discriminate; destruct I.
Qed.

(** ** MQTT 5 *)
Lemma inv_abs5 rm max timeout amax ops : Forall op5_ok ops -> no_reuse (snd (run5 rm max timeout amax ops)) -> forall p,
  OutSpec.life wpid5 w5_dup carries5 lifetime5 timeout p (snd (run5 rm max timeout amax ops)) (abs p (pq (o5_q (fst (run5 rm max timeout amax ops))))).
Proof. intros ok H p. assert (K := i_life _ _ _ _ _ _ _ (run5_inv rm max timeout amax ops ok H) p). rewrite run5_timeout in K by auto. exact K. Qed.

Lemma kept5 hash cfg s l : srun5 hash cfg s l -> Forall clocked5 l -> exists log, logs5 cfg l log /\
  (few_enough cfg log -> forall l1 e out l2 w p t, l = l1 ++ (e, out) :: l2 -> In (KPub w) out -> wpid5 w = Some p -> when5 e = Some t -> open5 cfg p l2 ->
   exists t0 m, carries5 t0 t m w /\ (to_resend5 s p t0 m \/ outlived5 l2 t0 m)).
Proof.
  intros R C. destruct (run_linked _ _ _ _ R C) as (rm & amax & ops & log & F & RU & L & _). exists log. split; auto. intros FE l1 e out l2 w p t E I WP WT O.
  assert (NR : no_reuse log). { pose proof (few_no_reuse5 cfg rm amax ops F) as X. rewrite RU in X. apply X. exact FE. }
  pose proof (inv_abs5 rm (cf_max_pending cfg) (cf_inflight_timeout cfg) amax ops F) as LI. rewrite RU in LI. cbn [fst snd] in LI. specialize (LI NR p).
  subst l. destruct (logs5_split cfg p l2 l1 e out log L O) as (log1 & evs & log2 & -> & G & P). { intros now uuid pc data ->. discriminate WT. }
  assert (S : exists a b, evs = a ++ ESent t (SPub w) :: b /\ forall k t' p ok, ~ In (EAcked k t' p ok) b).
  { assert (J : forall r, In (KPub w) r -> In (SPub w) (flat_map wire5 r)) by (intros r Hr; apply in_flat_map; exists (KPub w); split; [auto|now left]).
    destruct e as [now len x g|now m|now m|b n|now| | |now uuid pc data]; cbn [logged5] in G; cbn in WT; try discriminate; injection WT as ->.
    - apply (entry_sent _ _ _ _ _ _ _ G). apply J. destruct x; auto. cbn [after_answer5].
      destruct (ack5 cfg len (IPubrec p0)) as [(k0, p1)|] eqn:EA.
      + destruct G as (fi & re & _ & (ok & _ & X) & _). cbn in X. destruct X as (r & ->). cbn. destruct I as [I|I]; [discriminate|auto].
      + destruct (srun5_at _ _ _ _ _ _ _ R) as (r1 & r2 & _ & ST). inversion ST; subst. match goal with H : packet_step5 _ _ _ _ _ _ _ = _ |- _ => rename H into PS end.
        match goal with H : wf_glob cfg g |- _ => destruct H as (GC & _) end.
        unfold packet_step5, handle_packet5 in PS. rewrite GC in PS. unfold ack5 in EA. destruct (cf_packet_server cfg <? len); [|discriminate].
        cbn in PS. destruct (after_packet5 _ _) as (s2', o'). injection PS as _ _ <-. destruct I as [I|I]; [discriminate|auto].
    - apply (entry_sent _ _ _ _ _ _ _ G). apply J. auto.
    - destruct G as (-> & _). destruct I.
    - apply (entry_sent _ _ _ _ _ _ _ G). apply J. auto. }
  destruct S as (a & b & -> & NB).
  destruct (kept wpid5 w5_dup carries5 lifetime5 (cf_inflight_timeout cfg) p (log1 ++ a) t w (b ++ log2) (abs p (pq (o5_q (s_out s))))) as (t0 & m & _ & CA & D).
  { rewrite <- app_assoc. rewrite <- !app_assoc in LI. exact LI. }
  { exact WP. }
  { intros k t' J. apply in_app_iff in J. destruct J as [J|J]; [exact (NB _ _ _ _ J)|exact (parts5_acks _ _ _ _ P O _ _ _ J)]. }
  exists t0, m. split; auto. destruct D as [(last & D)|(a' & t' & b' & D & (rm' & CN) & EL)].
  - left. destruct (abs_inflight _ _ _ _ _ D) as (n & H). exists n. exact H.
  - right. assert (B0 : forall x, ~ In (EConn x) b).
    { intros x J. destruct (logged5_conn _ _ _ _ x G ltac:(apply in_app_iff; right; right; auto)) as (_ & X). destruct a as [|y [|]]; discriminate. }
    destruct EL as (v & LV & VE). destruct (app_eq_split _ _ _ _ _ D) as [(c' & D1 & ->)|(d' & D1 & D2)].
    + apply in_app_iff in CN. destruct CN as [CN|CN]; [now apply B0 in CN|].
      destruct (parts5_expired _ _ _ P _ _ _ _ D1 (ex_intro _ rm' CN)) as (la & e1 & o1 & lb & E1 & E2 & E3). exists la, e1, o1, lb, t', v. auto.
    + exfalso. apply (B0 rm'). rewrite D1. apply in_app_iff. auto.
Qed.

(** ** MQTT 3 *)
Inductive parts3 (cfg : config) : list (sev3 * list pkt3) -> list (oev pub3 wpub3) -> Prop :=
| pt3_nil : parts3 cfg [] []
| pt3_cons e out l evs log : logged3 cfg e out evs -> parts3 cfg l log -> parts3 cfg ((e, out) :: l) (evs ++ log).
Lemma parts3_snoc cfg l log e out evs : parts3 cfg l log -> logged3 cfg e out evs -> parts3 cfg (l ++ [(e, out)]) (log ++ evs).
Proof.
  intros P G. induction P as [|e' out' l evs' log G' P IH]; cbn.
  - rewrite <- (app_nil_r evs). constructor; [auto|constructor].
  - rewrite <- app_assoc. constructor; auto.
Qed.
Lemma logs3_split cfg p : forall l2 l1 e out log, logs3 cfg (l1 ++ (e, out) :: l2) log -> open3 cfg p l2 ->
  (forall now s0 present, e = UTake now s0 present -> present = true) ->
  exists log1 evs log2, log = log1 ++ evs ++ log2 /\ logged3 cfg e out evs /\ parts3 cfg l2 log2.
Proof.
  induction l2 as [|(e2, out2) l2 IH] using rev_ind; intros l1 e out log L O NC.
  - inversion L as [E|l log0 e0 out0 evs L0 G E|l log0 now s0 L0 E].
    + now destruct l1.
    + apply app_inj_tail in E. destruct E as (-> & E). injection E as -> ->. exists log0, evs, []. rewrite app_nil_r. split; auto. split; auto. constructor.
    + apply app_inj_tail in E. destruct E as (-> & E). injection E as <- <-. specialize (NC _ _ _ eq_refl). discriminate.
  - assert (O1 : open3 cfg p l2) by (intros x o I; apply (O x o); apply in_app_iff; auto).
    assert (Q : forall log0, logs3 cfg (l1 ++ (e, out) :: l2) log0 -> exists log1 evs log2, log0 = log1 ++ evs ++ log2 /\ logged3 cfg e out evs /\ parts3 cfg l2 log2) by (intros log0 L0; eapply IH; eauto).
    replace (l1 ++ (e, out) :: l2 ++ [(e2, out2)]) with ((l1 ++ (e, out) :: l2) ++ [(e2, out2)]) in L by (rewrite <- app_assoc; reflexivity).
    inversion L as [E|l log0 e0 out0 evs L0 G E|l log0 now s0 L0 E].
    + destruct l1; discriminate.
    + apply app_inj_tail in E. destruct E as (-> & E). injection E as -> ->. destruct (Q _ L0) as (log1 & evs1 & log2 & -> & G1 & P).
      exists log1, evs1, (log2 ++ evs). split; [rewrite <- !app_assoc; reflexivity|]. split; auto. apply parts3_snoc; auto.
    + apply app_inj_tail in E. destruct E as (-> & E). injection E as <- <-. exfalso.
      assert (X := O (UTake now s0 false) [] ltac:(apply in_app_iff; right; now left)). cbn in X. congruence.
Qed.
Lemma parts3_acks cfg p l log : parts3 cfg l log -> open3 cfg p l -> forall k t ok, ~ In (EAcked k t p ok) log.
Proof.
  induction 1 as [|e out l evs log G P IH]; intros O k t ok I; [destruct I|]. apply in_app_iff in I. destruct I as [I|I].
  2:{ revert I. apply IH. intros x o J. apply (O x o). now right. }
  assert (OE := O e out (or_introl eq_refl)).
  destruct e as [now len x g|now m|now m|b n|now| |now s0 present]; cbn [logged3] in G.
  - destruct G as (outs & G & _). apply (entry_acks _ _ _ _ _ _ _ _ _ _ G) in I. now apply (OE k).
  - apply (entry_acks _ _ _ _ _ _ _ _ _ _ G) in I. discriminate.
  - destruct G as (_ & outs & _ & G). apply (entry_acks _ _ _ _ _ _ _ _ _ _ G) in I. discriminate.
  - destruct G as (_ & ->). destruct I.
  - apply (entry_acks _ _ _ _ _ _ _ _ _ _ G) in I. discriminate.
  - destruct G as (_ & ->). destruct I.
  - destruct G as (_ & ->). destruct I as [I|[]]. discriminate.
Qed.
Lemma inv_abs3 rm max timeout ops : Forall op3_ok ops -> no_reuse (snd (run3 rm max timeout ops)) -> forall p,
  OutSpec.life wpid3 w3_dup carries3 lifetime3 timeout p (snd (run3 rm max timeout ops)) (abs p (pq (o3_q (fst (run3 rm max timeout ops))))).
Proof. intros ok H p. assert (K := i_life _ _ _ _ _ _ _ (run3_inv rm max timeout ops ok H) p). rewrite run3_timeout in K by auto. exact K. Qed.

Lemma kept3 hash cfg s l : srun3 hash cfg s l -> Forall clocked3 l -> exists log, logs3 cfg l log /\
  (few_enough cfg log -> forall l1 e out l2 w p t, l = l1 ++ (e, out) :: l2 -> In (JPub w) out -> wpid3 w = Some p -> when3 e = Some t -> open3 cfg p l2 ->
   exists t0 m, carries3 t0 t m w /\ to_resend3 s p t0 m).
Proof.
  intros R C. destruct (run_linked3 _ _ _ _ R C) as (ops & log & F & RU & L). exists log. split; auto. intros FE l1 e out l2 w p t E I WP WT O.
  assert (NR : no_reuse log). { pose proof (few_no_reuse3 cfg (cf_inflight_client cfg) ops F) as X. rewrite RU in X. apply X. exact FE. }
  pose proof (inv_abs3 (cf_inflight_client cfg) (cf_max_pending cfg) (cf_inflight_timeout cfg) ops F) as LI. rewrite RU in LI. cbn [fst snd] in LI. specialize (LI NR p).
  subst l. destruct (logs3_split cfg p l2 l1 e out log L O) as (log1 & evs & log2 & -> & G & P). { intros now s0 present ->. discriminate WT. }
  assert (S : exists a b, evs = a ++ ESent t (SPub w) :: b /\ forall k t' p ok, ~ In (EAcked k t' p ok) b).
  { assert (J : forall r, In (JPub w) r -> In (SPub w) (flat_map wire3 r)) by (intros r Hr; apply in_flat_map; exists (JPub w); split; [auto|now left]).
    destruct e as [now len x g|now m|now m|b n|now| |now s0 present]; cbn [logged3] in G; cbn in WT; try discriminate; injection WT as ->.
    - destruct G as (outs & G & [->|(_ & ->)]); [|destruct I]. apply (entry_sent _ _ _ _ _ _ _ G). apply J. destruct x; auto. cbn [after_answer3].
      destruct (ack3 cfg len (YPubrec p0)) as [(k0, p1)|] eqn:EA.
      + destruct G as (fi & re & _ & (ok & _ & X) & _). cbn in X. destruct X as (r & ->). cbn. destruct I as [I|I]; [discriminate|auto].
      + destruct (srun3_at _ _ _ _ _ _ _ R) as (r1 & r2 & _ & ST). inversion ST; subst; [|destruct I]. match goal with H : packet_step3 _ _ _ _ _ _ = _ |- _ => rename H into PS end.
        match goal with H : wf_glob cfg g |- _ => destruct H as (GC & _) end.
        unfold packet_step3, handle_packet3 in PS. rewrite GC in PS. unfold ack3 in EA. destruct (cf_packet_server cfg <? len); discriminate.
    - apply (entry_sent _ _ _ _ _ _ _ G). apply J. auto.
    - destruct G as (-> & _). destruct I.
    - apply (entry_sent _ _ _ _ _ _ _ G). apply J. auto. }
  destruct S as (a & b & -> & NB).
  destruct (kept wpid3 w3_dup carries3 lifetime3 (cf_inflight_timeout cfg) p (log1 ++ a) t w (b ++ log2) (abs p (pq (o3_q (z_out s))))) as (t0 & m & _ & CA & D).
  { rewrite <- app_assoc. rewrite <- !app_assoc in LI. exact LI. }
  { exact WP. }
  { intros k t' J. apply in_app_iff in J. destruct J as [J|J]; [exact (NB _ _ _ _ J)|exact (parts3_acks _ _ _ _ P O _ _ _ J)]. }
  exists t0, m. split; auto. destruct D as [(last & D)|(a' & t' & b' & D & _ & (v & X & _))]; [|discriminate].
  destruct (abs_inflight _ _ _ _ _ D) as (n & H). exists n. exact H.
Qed.

(** ** Broker runs *)
Section Broker.
  Variables (hash5 : wpub5 -> N) (hash3 : wpub3 -> N) (pick : draw -> broker -> string -> string -> N).
  Variables (c : config) (h : list past) (b : broker) (k : N).
  Hypotheses (R : brun hash5 hash3 pick c h b) (P : forall p, In p h -> proper p) (T : forall p, In p h -> after_1970 p).
  Lemma broker_kept5 s : sess_at b k = Some (A5 s) -> exists l log, life5 k h l /\ logs5 c l log /\
    (few_enough c log -> forall l1 e out l2 w p t, l = l1 ++ (e, out) :: l2 -> In (KPub w) out -> wpid5 w = Some p -> when5 e = Some t -> open5 c p l2 ->
     exists t0 m, carries5 t0 t m w /\ (to_resend5 s p t0 m \/ outlived5 l2 t0 m)).
  Proof. intros A. destruct (is_run5 _ _ _ _ _ _ _ _ R P T A) as (l & L & S & C). destruct (kept5 _ _ _ _ S C) as (log & G & H). exists l, log. auto. Qed.
  Lemma broker_kept3 s : sess_at b k = Some (A3 s) -> exists l log, life3 k h l /\ logs3 c l log /\
    (few_enough c log -> forall l1 e out l2 w p t, l = l1 ++ (e, out) :: l2 -> In (JPub w) out -> wpid3 w = Some p -> when3 e = Some t -> open3 c p l2 ->
     exists t0 m, carries3 t0 t m w /\ to_resend3 s p t0 m).
  Proof. intros A. destruct (is_run3 _ _ _ _ _ _ _ _ R P T A) as (l & L & S & C). destruct (kept3 _ _ _ _ S C) as (log & G & H). exists l, log. auto. Qed.
  Lemma broker_connection5 s : sess_at b k = Some (A5 s) -> exists l log, life5 k h l /\ logs5 c l log /\
    (few_enough c log -> forall l1 e out l2 w p t, l = l1 ++ (e, out) :: l2 -> In (KPub w) out -> wpid5 w = Some p -> when5 e = Some t -> open5 c p l2 ->
     (forall now uuid pc data o, ~ In (VTake now uuid pc data, o) l2) \/ pp_expiry (w5_props w) = None ->
     exists t0 m, carries5 t0 t m w /\ to_resend5 s p t0 m).
  Proof.
    intros A. destruct (broker_kept5 s A) as (l & log & L & G & H). exists l, log. split; auto. split; auto.
    intros FE l1 e out l2 w p t E I W T' O X. destruct (H FE l1 e out l2 w p t E I W T' O) as (t0 & m & CA & D). exists t0, m. split; auto.
    destruct D as [D|(a & e1 & o1 & b1 & t1 & v & -> & _ & LV & _ & now & uuid & pc & data & o & J)]; auto. exfalso. destruct X as [X|X].
    - apply (X now uuid pc data o). apply in_app_iff. auto.
    - destruct CA as (_ & _ & _ & _ & _ & _ & CA). unfold lifetime5 in LV. rewrite LV, X in CA. discriminate.
  Qed.
End Broker.
