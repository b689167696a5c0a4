(** Proofs for C77 with a correct client: when nothing is under way, everything is finished. *)
From Coq Require Import List Bool Arith NArith Lia String.
From Verif Require Import Base BaseLemmas MsgModel PendingModel OutModel GlobModel Sess5Model Sess3Model ConnModel RegModel BrokerModel
  OutSpec OutProofs OutInv OutLemmas OutFacts InSpec LinkSpec LinkProofs LinkProofs3 LinkFacts BrokerSpec LifeSpec LifeProofs LifeFacts RecordProofs CliSpec CliProofs CliFacts StallSpec StallProofs.
Import ListNotations.
Local Open Scope N_scope.
Local Open Scope list_scope.

Section Client.
  Context {M W : Type}.
  Variable wqp : W -> qospid.
  Variable wdup : W -> bool.
  Variable carries : N -> N -> M -> W -> Prop.
  Variable lifetime : M -> option N.
  Variable mqos : M -> qos.
  Hypothesis carries_qos : forall t0 t m w, carries t0 t m w -> qp_qos (wqp w) = mqos m.
  Variable timeout : N.
  Variable p : pid.
  Let wpid (w : W) := qp_pid (wqp w).
  Local Notation lstep := (lstep wpid wdup carries lifetime timeout p).
  Local Notation life := (OutSpec.life wpid wdup carries lifetime timeout p).
  Local Notation heard := (@heard M W wqp).
  Local Notation met := (@met M W wqp).
  Local Notation receive := (receive wqp).
  Local Notation is_pub := (is_pub wqp p).
  Local Notation Inv := (CliProofs.Inv wqp carries p).

  (** What was sent on this connection and not acknowledged is under way, or its answer is. *)
  Definition fly (st : lstate M) (c : client W) (og : list pid) : Prop :=
    match st with
    | InFlight _ _ (Some _) => (exists s, In s (c_down c) /\ is_pub s) \/ exists k, In (k, p) (c_up c)
    | Released (Some _) => In p og /\ (In (SRel p) (c_down c) \/ In (AckPubcomp, p) (c_up c))
    | _ => True
    end.

  Lemma up_grows c s rest a : In a (c_up c) -> In a (c_up (receive c s rest)).
  Proof. intros I. destruct s as [w|q]; cbn [CliSpec.receive]; [destruct (wqp w) as [|q|q]; [|..|destruct (existsb _ _)]|]; cbn [c_up]; rewrite ?in_app_iff; auto. Qed.
  Lemma down_rest c s rest : c_down (receive c s rest) = rest.
  Proof. destruct s as [w|q]; cbn [CliSpec.receive]; [destruct (wqp w) as [|q|q]; [|..|destruct (existsb _ _)]|]; reflexivity. Qed.

  Lemma fly_receive st c og s rest : fly st c og -> c_down c = s :: rest -> fly st (receive c s rest) og.
  Proof.
    intros F E. destruct st as [|t0 m|t0 m [l|]|[l|]]; cbn [fly] in *; auto; rewrite down_rest.
    - destruct F as [(x & I & P)|(k & I)]; [|right; exists k; now apply up_grows].
      rewrite E in I. destruct I as [<-|I]; [right|left; eauto]. destruct s as [w|]; [|destruct P]. cbn in P. cbn [CliSpec.receive].
      destruct (wqp w) as [|q|q]; [discriminate| |]; injection P as ->; [|destruct (existsb _ _)]; eexists; cbn [c_up]; apply in_app_iff; right; left; reflexivity.
    - destruct F as (O & [I|I]); split; auto; [|right; now apply up_grows]. rewrite E in I. destruct I as [->|I]; [right|now left].
      cbn [CliSpec.receive c_up]. apply in_app_iff. right. left. reflexivity.
  Qed.

  Lemma fly_frame st c c' og og' x : fly st c og -> c_down c' = c_down c ++ x -> (forall k, In (k, p) (c_up c) -> In (k, p) (c_up c')) -> (In p og -> In p og') -> fly st c' og'.
  Proof.
    intros F D U O. destruct st as [|t0 m|t0 m [l|]|[l|]]; cbn [fly] in *; auto; rewrite D.
    - destruct F as [(s & I & P)|(k & I)]; [left; exists s; split; [apply in_app_iff; now left|exact P]|right; eauto].
    - destruct F as (F & [I|I]); split; auto. left. apply in_app_iff. now left.
  Qed.

  Lemma fly_event clean X two st c d og e c' st' : Inv clean X two st c d og -> fly st c og -> heard c e c' -> lstep st e st' ->
    (forall t m, e <> EQueued t p m) -> taken_here p st og e -> fly st' c' (outstanding_step wpid og e).
  Proof.
    intros (_ & _ & _ & _ & HN) HF HH HL HQ HT. destruct HL as [st e Ha Hc|rm|rm t0 m|rm t0 m l|rm l|t m|t0 t m w Hw Hd Hc He|t0 t m w Hw Hd Hc He|t0 t1 t m w Hw Hd Hc He|
      t|t1 t Ht|st k t|t0 m l t|t0 m t|t0 m l t|t0 m t|l t|t0 t m He|t0 t m He]; try exact Logic.I.
    - destruct HH as [c rm|c t q m Hq|c t q m|c t s|c k t q ok up Eu|c t q].
      + contradiction (Hc rm). reflexivity.
      + apply fly_frame with (c := c) (og := og) (x := []); auto. now rewrite app_nil_r.
      + apply fly_frame with (c := c) (og := og) (x := []); auto. now rewrite app_nil_r.
      + apply fly_frame with (c := c) (og := og) (x := [s]); auto.
        destruct s as [w|q]; cbn; [|apply add_pid_incl]. destruct (wpid w); [apply add_pid_incl|auto].
      + assert (Nq : q <> p) by (intros ->; apply Ha; reflexivity).
        apply fly_frame with (c := c) (og := og) (x := match k with AckPubrec => [SRel q] | _ => [] end); auto.
        * intros k' J. rewrite Eu in J. destruct J as [J|J]; [congruence|exact J].
        * cbn. destruct k; auto; intros J; apply filter_other'; auto.
      + apply fly_frame with (c := c) (og := og) (x := []); auto. now rewrite app_nil_r.
    - inversion HH; subst. left. exists (SPub w). split; [apply in_app_iff; right; now left|exact Hw].
    - inversion HH; subst. left. exists (SPub w). split; [apply in_app_iff; right; now left|exact Hw].
    - inversion HH; subst. left. exists (SPub w). split; [apply in_app_iff; right; now left|exact Hw].
    - inversion HH; subst. split; [apply add_pid_in|]. left. apply in_app_iff. right. now left.
    - inversion HH; subst. split; [apply add_pid_in|]. left. apply in_app_iff. right. now left.
    - (* refused *)
      inversion HH as [| | | |c0 k0 t0 q ok up Eu|]; subst. assert (I : In (k, p) (c_up c)) by (rewrite Eu; now left).
      destruct st as [|t0 m|t0 m [l|]|[l|]]; try exact Logic.I.
      + destruct HN as (A & B & C & F). exfalso. assert (false = true); [|discriminate]. apply (HT k t false eq_refl C). destruct two.
        * destruct F as (F & _). destruct (F k I) as (-> & _). eauto.
        * destruct F as (F & _). destruct (F k I) as (-> & _). eauto.
      + destruct HN as (A & B & C & F & K). destruct HF as (O & _). destruct (K k I) as [->|(-> & _)].
        * split; [exact O|]. left. apply in_app_iff. right. now left.
        * exfalso. assert (false = true); [|discriminate]. apply (HT AckPubcomp t false eq_refl O). eauto.
    - (* PUBREC *)
      inversion HH as [| | | |c0 k0 t1 q ok up Eu|]; subst. assert (I : In (AckPubrec, p) (c_up c)) by (rewrite Eu; now left).
      destruct HN as (A & B & C & F). destruct l as [l|]; [|destruct C as (_ & C); contradiction (C _ I eq_refl)].
      split; [exact C|]. left. apply in_app_iff. right. now left.
    - inversion HH as [| | | |c0 k0 t1 q ok up Eu|]; subst. assert (I : In (AckPubrec, p) (c_up c)) by (rewrite Eu; now left).
      destruct HN as ((_ & A) & _). contradiction (A _ I eq_refl).
  Qed.

  Lemma fly_met full c0 log c : taken wqp wdup carries lifetime timeout p full -> met c0 log c -> c0 = client_new -> forall rest st, full = log ++ rest -> life log st ->
    fly st c (outstanding wpid log).
  Proof.
    intros FT. induction 1 as [c|c log c1 e c2 H IH Hd|c log c1 s rest' H IH Hd]; intros E0 rest st E HL.
    - subst c. assert (st = Idle) as -> by (inversion HL; [reflexivity|]; match goal with X : _ ++ [_] = [] |- _ => destruct (app_cons_not_nil _ _ _ (eq_sym X)) end). exact Logic.I.
    - rewrite <- app_assoc in E. apply OutLemmas.life_snoc_inv in HL as (s0 & HL & HS). pose proof (IH E0 _ _ E HL) as HF.
      destruct (pre_inv wqp wdup carries lifetime mqos carries_qos timeout p full FT _ _ _ H E0 _ _ E HL) as (X & two & d & HI).
      destruct (here wqp wdup carries lifetime timeout p full FT _ _ _ _ _ E HL HS) as (K1 & _).
      unfold outstanding. rewrite fold_left_app. fold (outstanding wpid log). cbn [fold_left]. destruct (is_queued_dec (M := M) (W := W) p e) as [(t & m & ->)|NQ].
      + inversion HS; subst; [cbn in *; congruence|exact Logic.I].
      + eapply fly_event; eauto.
    - eapply fly_receive; [|exact Hd]. eauto.
  Qed.

  Lemma rest_lands log c st : taken wqp wdup carries lifetime timeout p log -> met client_new log c -> at_rest c -> life log st ->
    match st with InFlight _ _ (Some _) | Released (Some _) => False | _ => True end.
  Proof.
    intros FT HM (D & U) HL. pose proof (fly_met log _ _ _ FT HM eq_refl [] st (eq_sym (app_nil_r _)) HL) as F.
    destruct st as [|t0 m|t0 m [l|]|[l|]]; cbn [fly] in F; auto; rewrite ?D, ?U in F.
    - destruct F as [(s & [] & _)|(k & [])].
    - destruct F as (_ & [[]|[]]).
  Qed.
End Client.

Section Ends.
  Context {M W : Type}.
  (** Between being queued and being free again the identifier's message ended. *)
  Lemma ends_at (p : pid) (post : list (oev M W)) : forall pre, active p pre = true -> active p (pre ++ post) = false -> no_reuse (pre ++ post) ->
    exists post1 e post2, post = post1 ++ e :: post2 /\ (forall t1 m1, ~ In (EQueued t1 p m1) post1) /\
      ((exists k t', e = EAcked k t' p true /\ k <> AckPubrec) \/ exists t', e = EExpired t' p).
  Proof.
    induction post as [|e post IH]; intros pre A B NR; [rewrite app_nil_r in B; congruence|].
    assert (S : active p (pre ++ [e]) = active_step p (active p pre) e) by (unfold active; now rewrite fold_left_app).
    destruct (active p (pre ++ [e])) eqn:A1.
    - destruct (IH (pre ++ [e]) A1) as (p1 & e' & p2 & -> & N & H); [now rewrite <- app_assoc|now rewrite <- app_assoc|].
      exists (e :: p1), e', p2. split; [reflexivity|]. split; [|exact H]. intros t1 m1 [->|I]; [|exact (N _ _ I)].
      rewrite (NR pre t1 p m1 (p1 ++ e' :: p2) eq_refl) in A. discriminate.
    - rewrite A in S. exists [], e, post. split; [reflexivity|]. split; [intros ? ? []|]. destruct e as [rm|t q m|t q m|t s|k t q ok|t q]; cbn in S; try discriminate.
      + destruct (q =? p); discriminate.
      + destruct k, ok; try discriminate; destruct (N.eqb_spec q p) as [->|]; try discriminate; left; eexists _, t; (split; [reflexivity|discriminate]).
      + destruct (N.eqb_spec q p) as [->|]; [|discriminate]. right. eauto.
  Qed.
  Lemma all_ends (log : list (oev M W)) : no_reuse log -> (forall p, active p log = false) -> all_ended True log.
  Proof.
    intros NR A pre t p m post E. assert (E' : log = (pre ++ [EQueued t p m]) ++ post) by (rewrite E, <- app_assoc; reflexivity).
    destruct (ends_at p post (pre ++ [EQueued t p m])) as (p1 & e & p2 & EP & N & H).
    - unfold active. rewrite fold_left_app. cbn. now rewrite N.eqb_refl.
    - rewrite <- E'. apply A.
    - now rewrite <- E'.
    - exists p1, e, p2. split; [exact EP|]. split; [exact N|]. destruct H as [H|H]; [now left|right; auto].
  Qed.
End Ends.

Section Broker.
  Variables (hash5 : wpub5 -> N) (hash3 : wpub3 -> N) (pick : draw -> broker -> string -> string -> N).
  Local Notation brun := (brun hash5 hash3 pick).

  Lemma done5 c h b k s q t0 uuid p data : brun c h b -> (forall p, In p h -> proper p) -> (forall p, In p h -> after_1970 p) -> (forall p, In p h -> late c p) ->
    aget k (b_tasks b) = Some (TOnline (A5 s)) -> a_disc (A5 s) = false -> made_by h q k -> w_e q = EConnect5 t0 uuid p data -> 0 < rmax5 c p ->
    exists l log, LifeSpec.life5 k h l /\ logs5 c l log /\ (few_enough c log -> delivered_once w5_qp p5_qos carries5 (expired_unsent log wpid5) log /\
      forall cl, met w5_qp client_new log cl -> at_rest cl -> all_ended True log \/ just_expired wpid5 log).
  Proof.
    intros R PR AF LT A D Q EQ RP. destruct (flow5_run _ _ _ _ _ _ R PR AF LT _ _ A) as (l & log & L & (rm & amax & ops & F & RU & LG & RM) & FL). exists l, log. split; auto. split; auto. intros FE.
    assert (El : log = snd (run5 rm (cf_max_pending c) (cf_inflight_timeout c) amax ops)) by now rewrite RU.
    assert (NR : no_reuse log) by (rewrite El; apply few_no_reuse5; [exact F|now rewrite <- El]).
    pose proof (run5_mrun _ _ _ _ _ _ _ F RU) as MR. pose proof (mrun_inv _ _ _ _ _ _ _ _ _ _ _ MR NR) as I. destruct (mrun_len _ _ _ _ _ _ _ _ _ _ _ MR) as (_ & TE & _).
    assert (HT : forall p, taken w5_qp w5_dup carries5 lifetime5 (cf_inflight_timeout c) p log).
    { intros p0. eapply mrun_taken; [|exact NR]. rewrite El. exact (run5_m rm (cf_max_pending c) (cf_inflight_timeout c) amax ops F). }
    assert (HL : forall p, exists st, OutSpec.life wpid5 w5_dup carries5 lifetime5 (cf_inflight_timeout c) p log st).
    { intros p0. rewrite El in *. exact (c11_v5 rm (cf_max_pending c) (cf_inflight_timeout c) amax ops F NR p0). }
    split.
    { apply (log_once w5_qp w5_dup carries5 lifetime5 p5_qos (cf_inflight_timeout c)); auto. intros ? ? ? ? H. apply H. }
    intros cl HM AR.
    assert (SA : sess_at b k = Some (A5 s)) by (unfold sess_at; rewrite A; reflexivity).
    destruct (rmax_from _ _ _ _ _ _ _ _ R SA) as (q' & t0' & uuid' & p' & data' & Q' & E' & X).
    assert (q' = q) by (eapply made_unique; eauto; [rewrite E'|rewrite EQ]; exact Logic.I). subst q'. rewrite E' in EQ. injection EQ as <- <- <- <-.
    destruct (FL D NR) as [MV|JE]; [rewrite <- (OutProofs.i_rm _ _ _ _ _ _ _ I), RM, X; exact RP| |right; exact JE].
    left. apply all_ends; [exact NR|]. intros p0. destruct (active p0 log) eqn:AC; [|reflexivity]. exfalso.
    assert (OW : exists p, on_its_way wpid5 w5_dup carries5 lifetime5 (cf_inflight_timeout c) p log) by (rewrite <- TE; eapply moving_log; eauto).
    destruct OW as (p1 & t & [(t1 & m & LF)|LF]);
      exact (rest_lands w5_qp w5_dup carries5 lifetime5 p5_qos ltac:(intros ? ? ? ? H; apply H) (cf_inflight_timeout c) p1 log cl _ (HT p1) HM AR LF).
  Qed.
  Lemma done3 c h b k s : brun c h b -> (forall p, In p h -> proper p) -> (forall p, In p h -> after_1970 p) -> (forall p, In p h -> late c p) -> 0 < cf_inflight_client c ->
    aget k (b_tasks b) = Some (TOnline (A3 s)) ->
    exists l log, LifeSpec.life3 k h l /\ logs3 c l log /\ (few_enough c log -> delivered_once w3_qp p3_qos carries3 True log /\
      forall cl, met w3_qp client_new log cl -> at_rest cl -> all_ended False log).
  Proof.
    intros R PR AF LT CP A. assert (SA : sess_at b k = Some (A3 s)) by (unfold sess_at; rewrite A; reflexivity).
    destruct (is_run3 _ _ _ _ _ _ _ _ R PR AF SA) as (l & L & S & C). destruct (run_linked3 _ _ _ _ S C) as (ops & log & F & RU & LG). exists l, log. split; auto. split; auto. intros FE.
    assert (El : log = snd (run3 (cf_inflight_client c) (cf_max_pending c) (cf_inflight_timeout c) ops)) by now rewrite RU.
    assert (NR : no_reuse log) by (rewrite El; apply few_no_reuse3; [exact F|now rewrite <- El]).
    pose proof (run3_mrun _ _ _ _ _ _ F RU) as MR. pose proof (mrun_inv _ _ _ _ _ _ _ _ _ _ _ MR NR) as I. destruct (mrun_len _ _ _ _ _ _ _ _ _ _ _ MR) as (_ & TE & _).
    assert (HT : forall p, taken w3_qp w3_dup carries3 lifetime3 (cf_inflight_timeout c) p log).
    { intros p. eapply mrun_taken; [|exact NR]. rewrite El. exact (run3_m (cf_inflight_client c) (cf_max_pending c) (cf_inflight_timeout c) ops F). }
    assert (HL : forall p, exists st, OutSpec.life wpid3 w3_dup carries3 lifetime3 (cf_inflight_timeout c) p log st).
    { intros p. rewrite El in *. exact (c11_v3 (cf_inflight_client c) (cf_max_pending c) (cf_inflight_timeout c) ops F NR p). }
    split.
    { intros pre t p m post rest c1 c2 E1 NQ H1 H2.
      destruct (log_once w3_qp w3_dup carries3 lifetime3 p3_qos (cf_inflight_timeout c) log ltac:(intros ? ? ? ? H; apply H) HT HL pre t p m post rest c1 c2 E1 NQ H1 H2) as (d & G & K1 & K2 & K3 & K4).
      exists d. split; [exact G|]. split; [exact K1|]. split; [exact K2|]. split; [|exact K4]. intros Q _ J. apply K3; auto.
      exact (no_lifetime w3_qp w3_dup carries3 (cf_inflight_timeout c) log HL). }
    intros cl HM AR pre t p m post E.
    assert (AE : all_ended True log).
    { apply all_ends; [exact NR|]. intros p0. destruct (active p0 log) eqn:AC; [|reflexivity]. exfalso.
      assert (OW : exists p, on_its_way wpid3 w3_dup carries3 lifetime3 (cf_inflight_timeout c) p log).
      { rewrite <- TE. eapply moving_log; eauto. eapply flow3_run; eauto. }
      destruct OW as (p1 & t1 & [(t2 & m1 & LF)|LF]);
        exact (rest_lands w3_qp w3_dup carries3 lifetime3 p3_qos ltac:(intros ? ? ? ? H; apply H) (cf_inflight_timeout c) p1 log cl _ (HT p1) HM AR LF). }
    destruct (AE pre t p m post E) as (p1 & e & p2 & EP & N & [H|(_ & t' & ->)]); [exists p1, e, p2; auto|].
    exfalso. destruct (HL p) as (st & LF). subst post. rewrite E, app_comm_cons, app_assoc in LF.
    destruct (life_split _ _ _ _ _ _ _ _ _ _ LF) as (s0 & s1 & _ & ST). inversion ST; subst; try (cbn in *; congruence);
      match goal with X : elapsed _ _ _ _ |- _ => destruct X as (v & V & _); discriminate end.
  Qed.
End Broker.
