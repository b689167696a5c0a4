(** Proofs for GetProps. *)
From Coq Require Import List Bool Arith NArith Lia String.
From Verif Require Import Base BaseLemmas MsgModel PendingModel OutModel GlobModel Sess5Model Sess3Model ConnModel RegModel BrokerModel
  OutSpec OutProofs OutInv OutLemmas OutFacts InSpec InProofs InRun InRun3 InFacts DelivSpec LinkSpec LinkProofs LinkProofs3 LinkFacts BrokerSpec LifeSpec LifeProofs LifeFacts SubsSpec SubsProofs SubFacts RecvSpec RecvProofs RecordProofs
  CliSpec CliProofs CliFacts StallSpec StallProofs DoneProofs EndSpec EndProofs GetSpec.
Import ListNotations.
Local Open Scope N_scope.
Local Open Scope list_scope.

(** ** What the application gets, from the log *)
Section Log.
  Context {M W : Type}.
  Variable wqp : W -> qospid.
  Variable wdup : W -> bool.
  Variable carries : N -> N -> M -> W -> Prop.
  Variable lifetime : M -> option N.
  Variable mqos : M -> qos.
  Hypothesis carries_qos : forall t0 t m w, carries t0 t m w -> qp_qos (wqp w) = mqos m.
  Variable timeout : N.
  Let wpid (w : W) := qp_pid (wqp w).

  Lemma until_reuse (p : pid) (post : list (oev M W)) : exists mid rest, post = mid ++ rest /\ (forall t m, ~ In (EQueued t p m) mid) /\
    (rest = [] \/ exists t m r, rest = EQueued t p m :: r).
  Proof.
    induction post as [|e post (mid & rest & -> & N & H)]; [exists [], []; split; [reflexivity|split; [intros ? ? []|now left]]|].
    destruct (is_queued_dec (M := M) (W := W) p e) as [(t & m & ->)|NQ].
    - exists [], (EQueued t p m :: mid ++ rest). split; [reflexivity|]. split; [intros ? ? []|right; eauto].
    - exists (e :: mid), rest. split; [reflexivity|]. split; [|exact H]. intros t m [E|I]; [exact (NQ _ _ E)|exact (N _ _ I)].
  Qed.
  Lemma end_before (p : pid) (e : oev M W) (mid rest a b : list (oev M W)) : mid ++ rest = a ++ e :: b -> (forall t m, ~ In (EQueued t p m) a) -> (forall t m, e <> EQueued t p m) ->
    (rest = [] \/ exists t m r, rest = EQueued t p m :: r) -> In e mid.
  Proof.
    revert a. induction mid as [|x mid IH]; intros a E N NE H.
    - cbn in E. subst rest. destruct H as [H|(t & m & r & H)]; [destruct a; discriminate|]. destruct a as [|y a]; cbn in H; injection H as -> _; [contradiction (NE t m); reflexivity|].
      contradiction (N t m). now left.
    - destruct a as [|y a]; cbn in E; injection E as <- E; [now left|]. right. apply (IH a); auto. intros t m I. apply (N t m). now right.
  Qed.
  Lemma gets_log (sure : Prop) log pre t p m post : (forall p, taken wqp wdup carries lifetime timeout p log) -> (forall p, exists st, OutSpec.life wpid wdup carries lifetime timeout p log st) ->
    log = pre ++ EQueued t p m :: post -> (sure -> forall cl, met wqp client_new log cl -> at_rest cl -> all_ended False log) ->
    gets wqp mqos carries (expired_unsent log wpid) sure pre t p m post.
  Proof.
    intros HT HL E HS c1 c2 H1 H2. destruct (until_reuse p post) as (mid & rest & EP & N & HR).
    assert (H2' := H2). rewrite EP in H2'. apply met_app in H2' as (cm & Hm & Hr). destruct (HL p) as (st & L).
    assert (E' : log = pre ++ EQueued t p m :: mid ++ rest) by now rewrite E, EP.
    destruct (once wqp wdup carries lifetime mqos carries_qos timeout p log (HT p) pre t m mid rest c1 cm st E' L H1 Hm N) as (d & G & F & A & B & C & K).
    exists mid, rest, cm, d. split; [exact EP|]. split; [exact N|]. split; [exact HR|]. split; [exact Hm|]. split; [exact Hr|]. split; [exact G|]. split; [exact F|]. split; [exact A|]. split.
    - intros GV (k & t' & I & NK). destruct (K k t' I NK) as (K2 & K1). split; intros Q.
      + rewrite (K2 Q) in I. specialize (A Q). specialize (B Q GV (ex_intro _ t' I)). destruct d as [|x [|y d]]; [contradiction|reflexivity|cbn in A; lia].
      + rewrite (K1 Q) in I. specialize (C Q (ex_intro _ t' I)). destruct d; [contradiction|cbn; lia].
    - intros SU AR. assert (HM : met wqp client_new log c2).
      { rewrite E. change (EQueued t p m :: post) with ([EQueued t p m] ++ post). rewrite app_assoc. eapply met_trans; eauto. }
      destruct (HS SU c2 HM AR pre t p m post E) as (a & e & b & EB & NA & [(k & t' & -> & NK)|([] & _)]). exists k, t'. split; [|exact NK].
      eapply end_before with (p := p); [rewrite <- EP; exact EB|exact NA|discriminate|exact HR].
  Qed.
  Lemma gets_given (g g' sure : Prop) pre t p m (post : list (oev M W)) : (g' -> g) -> gets wqp mqos carries g sure pre t p m post -> gets wqp mqos carries g' sure pre t p m post.
  Proof.
    intros H G c1 c2 H1 H2. destruct (G c1 c2 H1 H2) as (mid & rest & cm & d & A1 & A2 & A3 & A4 & A5 & A6 & A7 & A8 & A9 & A10).
    exists mid, rest, cm, d. repeat (split; [assumption|]). split; [auto|exact A10].
  Qed.
End Log.

(** ** Protocol 5 *)
Section V5.
  Variables (hash : wpub5 -> N) (cfg : config).

  Lemma step_trans5 s e s' out : sstep5 hash cfg s e s' out -> clocked5 (e, out) -> goes_on5 [(e, out)] ->
    exists ops evs, trans5 (s_out s) ops (s_out s') evs /\ logged5 cfg e out evs.
  Proof.
    intros S CK GO. destruct S as [pick s now len x g s' g' out D WF (GC & _) E|s now m s' r E|s b n|s now s' out E|s now m s' r E|s reason s' k E|s conn last w|s t0 now uuid p data s' k E].
    - apply (packet_moves hash cfg) in E; auto. destruct E as (ops & evs & T & En). exists ops, evs. split; [exact T|].
      refine (entry_imp _ _ _ _ _ _ _ _ (fun _ H => H) _ En). intros ok H0. apply H0.
    - apply normal_moves in E; auto. destruct E as ((ops & evs & T & En) & _). exists ops, evs. auto.
    - exists [], []. split; [apply trans5_nil|split; reflexivity].
    - apply (pendings_moves _ (fun _ => False)) in E; [|exact CK]. exact E.
    - apply normal_moves in E; auto. destruct E as ((ops & evs & T & En) & W). exists ops, evs. split; [exact T|]. split; [reflexivity|]. eexists. split; [|exact En].
      destruct r as [(q, [k|])|]; try constructor. destruct W as (w & -> & W). repeat constructor; exact W.
    - injection E as <- <-. exists [], []. split; [apply trans5_nil|split; reflexivity].
    - exists [], []. split; [apply trans5_nil|split; reflexivity].
    - apply take_out in E. destruct E as (RM & E). rewrite (GO now uuid p data [] (or_introl eq_refl)) in E.
      exists [O5Resume (rmax5 cfg p) (opt_or (co_alias p) 0)], [EConn (rmax5 cfg p)]. split.
      + apply trans5_one; [exact Logic.I|]. cbn. now rewrite E.
      + split; [exact (GO now uuid p data [] (or_introl eq_refl))|reflexivity].
  Qed.

  Lemma snoc_inv5 s l e o : srun5 hash cfg s (l ++ [(e, o)]) -> exists s0, srun5 hash cfg s0 l /\ sstep5 hash cfg s0 e s o.
  Proof.
    intros R. remember (l ++ [(e, o)]) as L eqn:EL. destruct R as [s0 I|s0 l0 e0 s' o0 R' S]; [destruct l; discriminate|].
    apply app_inj_tail in EL. destruct EL as (-> & E). injection E as -> ->. eauto.
  Qed.

  Definition entered5 (now : N) (m : pub5) (evs : list (oev pub5 wpub5)) : Prop := exists p, evs = [EQueued now p m] \/ evs = [EFull now p m].
  (** The message enters the log when it is handed over. *)
  Lemma enters5 r1 l1 now y (live : bool) s o : srun5 hash cfg r1 l1 -> sstep5 hash cfg r1 (if live then VMsg now y else VLost now y) s o -> 0 < now ->
    exists res, passes5 now cfg y r1 s res /\
      (res = None -> (forall f, In f (nm_filters y) -> aget f (s_subs r1) = None) \/ s_maxpkt r1 < nm_size y \/ qos_min (RecvSpec.nm_qos y) (nm_sqos y) = L0 /\ ~ up5 r1) /\
      (forall p, res = Some p -> p5_topic p = RecvSpec.nm_topic y /\ p5_payload p = RecvSpec.nm_payload y /\ p5_qos p = qos_min (RecvSpec.nm_qos y) (nm_sqos y)) /\
      exists ops evs, trans5 (s_out r1) ops (s_out s) evs /\ logged5 cfg (if live then VMsg now y else VLost now y) o evs /\ (forall m, res = Some m -> p5_qos m <> L0 -> entered5 now m evs).
  Proof.
    intros R S T. destruct (passes_spec now cfg y r1) as (r' & res & P & HN & HS).
    assert (EN : exists rr, handle_normal5 now cfg y r1 = (s, rr) /\ o = if live then match rr with Some (_, Some k) => [k] | _ => [] end else []).
    { destruct live; inversion S; subst; eauto. }
    destruct EN as (rr & EN & EO).
    assert (r' = s /\ rr = match res with Some m => match rr with Some (_, k) => Some (p5_qos m, k) | None => None end | None => None end) as (-> & ER).
    { inversion P as [E1 E2|m k E1 E2 E3]; subst; rewrite E1 in EN; injection EN as <- <-; auto. }
    exists res. split; [exact P|]. split; [exact HN|]. split; [exact HS|].
    assert (GO : goes_on5 [(if live then VMsg now y else VLost now y, o)]) by (intros ? ? ? ? ? [X|[]]; destruct live; discriminate).
    destruct res as [m|].
    2:{ destruct (step_trans5 _ _ _ _ S) as (ops & evs & TR & LG); [destruct live; exact T|exact GO|]. exists ops, evs. split; [exact TR|]. split; [exact LG|discriminate]. }
    destruct (qos_eqb (p5_qos m) L0) eqn:Q.
    { destruct (step_trans5 _ _ _ _ S) as (ops & evs & TR & LG); [destruct live; exact T|exact GO|]. exists ops, evs. split; [exact TR|]. split; [exact LG|].
      intros m' X NQ. injection X as <-. destruct (p5_qos m); try discriminate. contradiction NQ. reflexivity. }
    assert (NQ : p5_qos m <> L0) by (intros X; rewrite X in Q; discriminate).
    inversion P as [|m' k E1 E2 E3]; subst m'. rewrite E1 in EN. injection EN as <-. destruct (HS m eq_refl) as (A1 & A2 & A3).
    assert (TK : s_out s = fst (step5 (s_out r1) (O5Msg now m)) /\ k = None) by (unfold takes5 in E2; destruct (p5_qos m); [contradiction NQ; reflexivity|exact E2|exact E2]).
    destruct TK as (TK & ->). destruct (step5 (s_out r1) (O5Msg now m)) as (o1, evs) eqn:ST. cbn [fst] in TK.
    assert (ENT : entered5 now m evs).
    { cbn in ST. destruct (out5_push now m (s_out r1)) as (o2, full). injection ST as _ <-. eexists. destruct full; [right|left]; reflexivity. }
    exists [O5Msg now m], evs. split; [apply trans5_one; [split; [exact T|exact NQ]|rewrite ST, TK; reflexivity]|]. split; [|intros m' X _; injection X as <-; exact ENT].
    assert (IM : LinkSpec.is_message5 y m) by (destruct y as [y|y]; cbn in A1, A2, A3 |- *; repeat split; assumption).
    assert (EY : LinkSpec.entry now None (fun _ => True) [] (is_message5 y) evs).
    { exists [], evs. split; [reflexivity|]. split; [reflexivity|]. destruct ENT as (p & [->| ->]); (split; [reflexivity|]); repeat constructor; apply IM. }
    subst o. destruct live; cbn [logged5]; [exact EY|]. split; [reflexivity|]. exists []. split; [constructor|exact EY].
  Qed.

  Lemma through5 now y (live : bool) o l1 l2 : forall s, srun5 hash cfg s (l1 ++ (if live then VMsg now y else VLost now y, o) :: l2) ->
    Forall clocked5 (l1 ++ (if live then VMsg now y else VLost now y, o) :: l2) -> goes_on5 l2 ->
    exists r1 r2 res, srun5 hash cfg r1 l1 /\ passes5 now cfg y r1 r2 res /\
      (res = None -> (forall f, In f (nm_filters y) -> aget f (s_subs r1) = None) \/ s_maxpkt r1 < nm_size y \/ qos_min (RecvSpec.nm_qos y) (nm_sqos y) = L0 /\ ~ up5 r1) /\
      (forall p, res = Some p -> p5_topic p = RecvSpec.nm_topic y /\ p5_payload p = RecvSpec.nm_payload y /\ p5_qos p = qos_min (RecvSpec.nm_qos y) (nm_sqos y)) /\
      exists rm amax ops pre evs post, Forall op5_ok ops /\ run5 rm (cf_max_pending cfg) (cf_inflight_timeout cfg) amax ops = (s_out s, pre ++ evs ++ post) /\
        logs5 cfg (l1 ++ (if live then VMsg now y else VLost now y, o) :: l2) (pre ++ evs ++ post) /\ logs5 cfg l1 pre /\ (forall m, res = Some m -> p5_qos m <> L0 -> entered5 now m evs).
  Proof.
    induction l2 as [|[e oo] l2 IH] using rev_ind; intros s R C GO.
    - apply snoc_inv5 in R as (r1 & R1 & S). apply Forall_app in C as (C1 & C2). inversion C2 as [|? ? CK _]; subst.
      destruct (enters5 r1 l1 now y live s o R1 S) as (res & P & HN & HS & ops & evs & TR & LG & EN); [destruct live; exact CK|].
      destruct (run_linked hash cfg r1 l1 R1 C1) as (rm & amax & ops0 & pre & F & RU & L & _). destruct TR as (F1 & E1).
      exists r1, s, res. split; [exact R1|]. split; [exact P|]. split; [exact HN|]. split; [exact HS|]. exists rm, amax, (ops0 ++ ops), pre, evs, []. rewrite app_nil_r.
      split; [now apply Forall_app|]. split; [unfold run5 in *; rewrite fold_left_app, RU; now apply run5_from|]. split; [now constructor|]. auto.
    - rewrite app_comm_cons, app_assoc in R, C. apply snoc_inv5 in R as (s0 & R0 & S). apply Forall_app in C as (C1 & C2). inversion C2 as [|? ? CK _]; subst.
      destruct (IH s0 R0 C1) as (r1 & r2 & res & R1 & P & HN & HS & rm & amax & ops & pre & evs & post & F & RU & L & L1 & EN); [intros a1 a2 a3 a4 a5 I; eapply GO; apply in_app_iff; left; exact I|].
      destruct (step_trans5 _ _ _ _ S CK) as (ops' & evs' & (F1 & E1) & LG); [intros a1 a2 a3 a4 a5 I; eapply GO; apply in_app_iff; right; exact I|].
      exists r1, r2, res. split; [exact R1|]. split; [exact P|]. split; [exact HN|]. split; [exact HS|]. exists rm, amax, (ops ++ ops'), pre, evs, (post ++ evs').
      split; [now apply Forall_app|]. rewrite !app_assoc, <- (app_assoc pre evs post). split; [unfold run5 in *; rewrite fold_left_app, RU; now apply run5_from|].
      split; [|auto]. rewrite app_comm_cons, app_assoc. now constructor.
  Qed.

  Lemma finds5_lemma s l1 now y (live : bool) o l2 T P Q n f q : made_of y T P Q n f q -> srun5 hash cfg s (l1 ++ (if live then VMsg now y else VLost now y, o) :: l2) ->
    Forall clocked5 (l1 ++ (if live then VMsg now y else VLost now y, o) :: l2) ->
    finds5 hash cfg (l1 ++ (if live then VMsg now y else VLost now y, o) :: l2) l1 l2 now y T P Q n f q.
  Proof.
    intros (<- & <- & <- & <- & IF & LQ) R C. destruct (srun5_at _ _ _ _ _ _ _ R) as (r1 & r2 & R1 & S).
    assert (REASON : forall r1, srun5 hash cfg r1 l1 ->
      (forall f, In f (nm_filters y) -> aget f (s_subs r1) = None) \/ s_maxpkt r1 < nm_size y \/ qos_min (RecvSpec.nm_qos y) (nm_sqos y) = L0 /\ ~ up5 r1 ->
      subscribed5 l1 f = None \/ s_maxpkt r1 < nm_size y \/ qos_min (RecvSpec.nm_qos y) q = L0 /\ ~ up5 r1).
    { intros r R0 [X|[X|(X & U)]]; auto.
      - left. rewrite <- (proj2 (run_rec _ _ _ _ R0) f). unfold rec5. now rewrite (X f IF).
      - right. right. split; auto. eapply min_low; eauto. }
    destruct (enters5 r1 l1 now y live r2 o R1 S) as (res & PS & HN & HS & _).
    { apply Forall_app in C as (_ & C). inversion C as [|? ? CK _]; subst. destruct live; exact CK. }
    (* the choice of [res] must be made before it is known whether the session goes on *)
    assert (K : goes_on5 l2 \/ ~ goes_on5 l2).
    { clear. induction l2 as [|[e oo] l2 IH]; [left; intros ? ? ? ? ? []|]. destruct IH as [IH|IH]; [|right; intros H; apply IH; intros a1 a2 a3 a4 a5 I; apply (H a1 a2 a3 a4 a5); now right].
      assert (D : (exists now uuid p data, e = VTake now uuid p data /\ co_clean p = true) \/ forall now uuid p data, e = VTake now uuid p data -> co_clean p = false).
      { destruct e as [| | | | | | |now uuid p data]; try (right; discriminate). destruct (co_clean p) eqn:E; [left; eauto 10|right; intros ? ? ? ? X; injection X as <- <- <- <-; exact E]. }
      destruct D as [(a1 & a2 & a3 & a4 & -> & X)|D]; [right; intros H; specialize (H a1 a2 a3 a4 oo (or_introl eq_refl)); congruence|].
      left. intros a1 a2 a3 a4 a5 [X|I]; [injection X as -> _; eapply D; reflexivity|eapply IH; exact I]. }
    destruct K as [GO|NGO].
    - clear r1 r2 R1 S res PS HN HS. destruct (through5 now y live o l1 l2 s R C GO) as (r1 & r2 & res & R1 & PS & HN & HS & rm & amax & ops & pre & evs & post & F & RU & L & L1 & EN).
      exists r1, r2, res. split; [exact R1|]. split; [exact PS|]. split; [intros E; exact (REASON r1 R1 (HN E))|].
      intros m E. destruct (HS m E) as (A1 & A2 & A3). split; [exact A1|]. split; [exact A2|]. split; [eauto|]. intros NQ _.
      destruct (EN m E NQ) as (p & EV). exists (pre ++ evs ++ post), pre, p, post. split; [exact L|]. split; [exact L1|].
      destruct EV as [->| ->]; [right|left; reflexivity]. split; [reflexivity|]. intros FE. set (log := pre ++ [EQueued now p m] ++ post) in *.
      assert (El : log = snd (run5 rm (cf_max_pending cfg) (cf_inflight_timeout cfg) amax ops)) by now rewrite RU.
      assert (NR : no_reuse log) by (rewrite El; apply few_no_reuse5; [exact F|now rewrite <- El]).
      apply (gets_log w5_qp w5_dup carries5 lifetime5 p5_qos) with (timeout := cf_inflight_timeout cfg); [intros ? ? ? ? H; apply H| | |reflexivity|intros []].
      + intros p0. eapply mrun_taken; [|exact NR]. rewrite El. exact (run5_m rm (cf_max_pending cfg) (cf_inflight_timeout cfg) amax ops F).
      + intros p0. rewrite El in *. exact (c11_v5 rm (cf_max_pending cfg) (cf_inflight_timeout cfg) amax ops F NR p0).
    - exists r1, r2, res. split; [exact R1|]. split; [exact PS|]. split; [intros E; exact (REASON r1 R1 (HN E))|].
      intros m E. destruct (HS m E) as (A1 & A2 & A3). split; [exact A1|]. split; [exact A2|]. split; [eauto|]. intros _ GO. contradiction.
  Qed.
End V5.

(** ** Protocol 3.x *)
Section V3.
  Variables (hash : wpub3 -> N) (cfg : config).

  Lemma step_trans3 s e s' out : sstep3 hash cfg s e s' out -> clocked3 (e, out) -> goes_on3 [(e, out)] -> pq_inflight (o3_q (z_out s)) = cf_inflight_client cfg ->
    exists ops evs, trans3 (z_out s) ops (z_out s') evs /\ logged3 cfg e out evs.
  Proof.
    intros S CK GO RM. destruct S as [s now len x g s' g' out D WF (GC & _) E|s now len x g s' g' D WF (GC & _) E|s now m s' r E|s b n|s now s' out E|s now m s' r E|s conn last w|s now s0 s' present code PR E].
    - apply (packet3_moves hash cfg) in E; auto. destruct E as (ops & evs & T & En). exists ops, evs. split; [exact T|]. cbn. eexists. split; [|left; reflexivity].
      refine (entry_imp _ _ _ _ _ _ _ _ (fun _ H => H) _ En). intros ok H0. apply H0.
    - apply (stop3_moves hash cfg) in E; auto. destruct E as (AK & outs & (ops & evs & T & En) & B). exists ops, evs. split; [exact T|]. cbn. rewrite AK. exists outs. split; [exact (entry_none _ _ _ _ _ _ En)|].
      destruct B as [B| ->]; [auto|]. left. destruct x; reflexivity.
    - apply normal3_moves in E; auto. destruct E as ((ops & evs & T & En) & _). exists ops, evs. auto.
    - exists [], []. split; [apply trans3_nil|split; reflexivity].
    - apply (pendings3_moves _ (fun _ => False)) in E; [|exact CK]. exact E.
    - apply normal3_moves in E; auto. destruct E as ((ops & evs & T & En) & W). exists ops, evs. split; [exact T|]. split; [reflexivity|]. eexists. split; [|exact En].
      destruct r as [(q, [k|])|]; try constructor. destruct W as (w & -> & W). repeat constructor; exact W.
    - exists [], []. split; [apply trans3_nil|split; reflexivity].
    - apply (take3_out cfg) in E; auto. specialize (GO now s0 present [] (or_introl eq_refl)). subst present.
      exists [O3Resume], [EConn (cf_inflight_client cfg)]. split; [|split; reflexivity]. split; [repeat constructor|]. cbn. rewrite E. now rewrite RM.
  Qed.

  Lemma snoc_inv3 s l e o : srun3 hash cfg s (l ++ [(e, o)]) -> exists s0, srun3 hash cfg s0 l /\ sstep3 hash cfg s0 e s o.
  Proof.
    intros R. remember (l ++ [(e, o)]) as L eqn:EL. destruct R as [s0 I|s0 l0 e0 s' o0 R' S]; [destruct l; discriminate|].
    apply app_inj_tail in EL. destruct EL as (-> & E). injection E as -> ->. eauto.
  Qed.
  Lemma same_rm3 s l : srun3 hash cfg s l -> Forall clocked3 l -> pq_inflight (o3_q (z_out s)) = cf_inflight_client cfg.
  Proof.
    intros R C. destruct (run_linked3 _ _ _ _ R C) as (ops & log & F & E & _). pose proof (run3_rm (cf_inflight_client cfg) (cf_max_pending cfg) (cf_inflight_timeout cfg) ops) as Q. now rewrite E in Q.
  Qed.

  Definition entered3 (now : N) (m : pub3) (evs : list (oev pub3 wpub3)) : Prop := exists p, evs = [EQueued now p m] \/ evs = [EFull now p m].
  Lemma enters3 r1 l1 now y (live : bool) s o : srun3 hash cfg r1 l1 -> Forall clocked3 l1 -> sstep3 hash cfg r1 (if live then UMsg now y else ULost now y) s o -> 0 < now ->
    exists res, passes3 now y r1 s res /\
      (res = None -> (forall f, first_filter y = Some f -> aget f (z_subs r1) = None) \/ qos_min (RecvSpec.nm_qos y) (nm_sqos y) = L0 /\ z_disc r1 = true) /\
      (forall p, res = Some p -> p3_topic p = RecvSpec.nm_topic y /\ p3_payload p = RecvSpec.nm_payload y /\ p3_qos p = qos_min (RecvSpec.nm_qos y) (nm_sqos y)) /\
      exists ops evs, trans3 (z_out r1) ops (z_out s) evs /\ logged3 cfg (if live then UMsg now y else ULost now y) o evs /\ (forall m, res = Some m -> p3_qos m <> L0 -> entered3 now m evs).
  Proof.
    intros R C S T. destruct (normal3_spec now y r1) as (r' & res & P & HN & HS). pose proof (same_rm3 _ _ R C) as RM.
    assert (EN : exists rr, handle_normal3 now y r1 = (s, rr) /\ o = if live then match rr with Some (_, Some k) => [k] | _ => [] end else []).
    { destruct live; inversion S; subst; eauto. }
    destruct EN as (rr & EN & EO).
    assert (r' = s) as ->.
    { inversion P as [E1 E2|m k E1 E2 E3]; subst; rewrite E1 in EN; injection EN as <- <-; auto. }
    exists res. split; [exact P|]. split; [exact (proj1 HN)|]. split; [intros p E; destruct (HS p E) as (A & B & D & _); auto|].
    assert (GO : goes_on3 [(if live then UMsg now y else ULost now y, o)]) by (intros ? ? ? ? [X|[]]; destruct live; discriminate).
    destruct res as [m|].
    2:{ destruct (step_trans3 _ _ _ _ S) as (ops & evs & TR & LG); [destruct live; exact T|exact GO|exact RM|]. exists ops, evs. split; [exact TR|]. split; [exact LG|discriminate]. }
    destruct (qos_eqb (p3_qos m) L0) eqn:Q.
    { destruct (step_trans3 _ _ _ _ S) as (ops & evs & TR & LG); [destruct live; exact T|exact GO|exact RM|]. exists ops, evs. split; [exact TR|]. split; [exact LG|].
      intros m' X NQ. injection X as <-. destruct (p3_qos m); try discriminate. contradiction NQ. reflexivity. }
    assert (NQ : p3_qos m <> L0) by (intros X; rewrite X in Q; discriminate).
    inversion P as [|m' k E1 E2 E3]; subst m'. rewrite E1 in EN. injection EN as <-. destruct (HS m eq_refl) as (A1 & A2 & A3 & _).
    assert (TK : z_out s = fst (step3 (z_out r1) (O3Msg now m)) /\ k = None) by (unfold takes3 in E2; destruct (p3_qos m); [contradiction NQ; reflexivity|exact E2|exact E2]).
    destruct TK as (TK & ->). destruct (step3 (z_out r1) (O3Msg now m)) as (o1, evs) eqn:ST. cbn [fst] in TK.
    assert (ENT : entered3 now m evs).
    { cbn in ST. destruct (out3_push now m (z_out r1)) as (o2, full). injection ST as _ <-. eexists. destruct full; [right|left]; reflexivity. }
    exists [O3Msg now m], evs. split; [apply trans3_one; [split; [exact T|exact NQ]|rewrite ST, TK; reflexivity]|]. split; [|intros m' X _; injection X as <-; exact ENT].
    assert (IM : LinkSpec.is_message3 y m) by (destruct y as [y|y]; cbn in A1, A2, A3 |- *; repeat split; assumption).
    assert (EY : LinkSpec.entry now None (fun _ => True) [] (is_message3 y) evs).
    { exists [], evs. split; [reflexivity|]. split; [reflexivity|]. destruct ENT as (p & [->| ->]); (split; [reflexivity|]); repeat constructor; apply IM. }
    subst o. destruct live; cbn [logged3]; [exact EY|]. split; [reflexivity|]. exists []. split; [constructor|exact EY].
  Qed.

  Lemma through3 now y (live : bool) o l1 l2 : forall s, srun3 hash cfg s (l1 ++ (if live then UMsg now y else ULost now y, o) :: l2) ->
    Forall clocked3 (l1 ++ (if live then UMsg now y else ULost now y, o) :: l2) -> goes_on3 l2 ->
    exists r1 r2 res, srun3 hash cfg r1 l1 /\ passes3 now y r1 r2 res /\
      (res = None -> (forall f, first_filter y = Some f -> aget f (z_subs r1) = None) \/ qos_min (RecvSpec.nm_qos y) (nm_sqos y) = L0 /\ z_disc r1 = true) /\
      (forall p, res = Some p -> p3_topic p = RecvSpec.nm_topic y /\ p3_payload p = RecvSpec.nm_payload y /\ p3_qos p = qos_min (RecvSpec.nm_qos y) (nm_sqos y)) /\
      exists ops pre evs post, Forall op3_ok ops /\ run3 (cf_inflight_client cfg) (cf_max_pending cfg) (cf_inflight_timeout cfg) ops = (z_out s, pre ++ evs ++ post) /\
        logs3 cfg (l1 ++ (if live then UMsg now y else ULost now y, o) :: l2) (pre ++ evs ++ post) /\ logs3 cfg l1 pre /\ (forall m, res = Some m -> p3_qos m <> L0 -> entered3 now m evs).
  Proof.
    induction l2 as [|[e oo] l2 IH] using rev_ind; intros s R C GO.
    - apply snoc_inv3 in R as (r1 & R1 & S). apply Forall_app in C as (C1 & C2). inversion C2 as [|? ? CK _]; subst.
      destruct (enters3 r1 l1 now y live s o R1 C1 S) as (res & P & HN & HS & ops & evs & TR & LG & EN); [destruct live; exact CK|].
      destruct (run_linked3 hash cfg r1 l1 R1 C1) as (ops0 & pre & F & RU & L). destruct TR as (F1 & E1).
      exists r1, s, res. split; [exact R1|]. split; [exact P|]. split; [exact HN|]. split; [exact HS|]. exists (ops0 ++ ops), pre, evs, []. rewrite app_nil_r.
      split; [now apply Forall_app|]. split; [unfold run3 in *; rewrite fold_left_app, RU; now apply run3_from|]. split; [now constructor|]. auto.
    - rewrite app_comm_cons, app_assoc in R, C. apply snoc_inv3 in R as (s0 & R0 & S). apply Forall_app in C as (C1 & C2). inversion C2 as [|? ? CK _]; subst.
      destruct (IH s0 R0 C1) as (r1 & r2 & res & R1 & P & HN & HS & ops & pre & evs & post & F & RU & L & L1 & EN); [intros a1 a2 a3 a4 I; eapply GO; apply in_app_iff; left; exact I|].
      destruct (step_trans3 _ _ _ _ S CK) as (ops' & evs' & (F1 & E1) & LG); [intros a1 a2 a3 a4 I; eapply GO; apply in_app_iff; right; exact I|exact (same_rm3 _ _ R0 C1)|].
      exists r1, r2, res. split; [exact R1|]. split; [exact P|]. split; [exact HN|]. split; [exact HS|]. exists (ops ++ ops'), pre, evs, (post ++ evs').
      split; [now apply Forall_app|]. rewrite !app_assoc, <- (app_assoc pre evs post). split; [unfold run3 in *; rewrite fold_left_app, RU; now apply run3_from|].
      split; [|auto]. rewrite app_comm_cons, app_assoc. now constructor.
  Qed.

  Lemma rest_ended3 ops log o : Forall op3_ok ops -> run3 (cf_inflight_client cfg) (cf_max_pending cfg) (cf_inflight_timeout cfg) ops = (o, log) -> no_reuse log -> moving (pq (o3_q o)) ->
    forall cl, met w3_qp client_new log cl -> at_rest cl -> all_ended False log.
  Proof.
    intros F RU NR MV cl HM AR pre t p m post E.
    assert (El : log = snd (run3 (cf_inflight_client cfg) (cf_max_pending cfg) (cf_inflight_timeout cfg) ops)) by now rewrite RU.
    pose proof (run3_mrun _ _ _ _ _ _ F RU) as MR. pose proof (mrun_inv _ _ _ _ _ _ _ _ _ _ _ MR NR) as I. destruct (mrun_len _ _ _ _ _ _ _ _ _ _ _ MR) as (_ & TE & _).
    assert (HT : forall p, taken w3_qp w3_dup carries3 lifetime3 (cf_inflight_timeout cfg) p log).
    { intros p0. eapply mrun_taken; [|exact NR]. rewrite El. exact (run3_m (cf_inflight_client cfg) (cf_max_pending cfg) (cf_inflight_timeout cfg) ops F). }
    assert (HL : forall p, exists st, OutSpec.life wpid3 w3_dup carries3 lifetime3 (cf_inflight_timeout cfg) p log st).
    { intros p0. rewrite El in *. exact (c11_v3 (cf_inflight_client cfg) (cf_max_pending cfg) (cf_inflight_timeout cfg) ops F NR p0). }
    assert (AE : all_ended True log).
    { apply all_ends; [exact NR|]. intros p0. destruct (active p0 log) eqn:AC; [|reflexivity]. exfalso.
      assert (OW : exists p, on_its_way wpid3 w3_dup carries3 lifetime3 (cf_inflight_timeout cfg) p log).
      { rewrite <- TE. eapply moving_log; eauto. }
      destruct OW as (p1 & t1 & [(t2 & m1 & LF)|LF]);
        exact (rest_lands w3_qp w3_dup carries3 lifetime3 p3_qos ltac:(intros ? ? ? ? H; apply H) (cf_inflight_timeout cfg) p1 log cl _ (HT p1) HM AR LF). }
    destruct (AE pre t p m post E) as (p1 & e & p2 & EP & N & [H|(_ & t' & ->)]); [exists p1, e, p2; auto|].
    exfalso. destruct (HL p) as (st & LF). subst post. rewrite E, app_comm_cons, app_assoc in LF.
    destruct (life_split _ _ _ _ _ _ _ _ _ _ LF) as (s0 & s1 & _ & ST). inversion ST; subst; try (cbn in *; congruence);
      match goal with X : elapsed _ _ _ _ |- _ => destruct X as (v & V & _); discriminate end.
  Qed.

  Lemma finds3_lemma (up : Prop) s l1 now y (live : bool) o l2 T P Q n f q : cf_max_qos cfg <= 2 -> made_of y T P Q n f q -> srun3 hash cfg s (l1 ++ (if live then UMsg now y else ULost now y, o) :: l2) ->
    Forall clocked3 (l1 ++ (if live then UMsg now y else ULost now y, o) :: l2) -> (up -> moving (pq (o3_q (z_out s)))) ->
    finds3 hash cfg up (l1 ++ (if live then UMsg now y else ULost now y, o) :: l2) l1 l2 now y T P Q f q.
  Proof.
    intros MQ (<- & <- & <- & <- & IF & LQ) R C UP. destruct (srun3_at _ _ _ _ _ _ _ R) as (r1 & r2 & R1 & S).
    assert (REASON : forall r1, srun3 hash cfg r1 l1 ->
      (forall f, first_filter y = Some f -> aget f (z_subs r1) = None) \/ qos_min (RecvSpec.nm_qos y) (nm_sqos y) = L0 /\ z_disc r1 = true ->
      (exists f', In f' (nm_filters y) /\ subscribed3 cfg l1 f' = None) \/ qos_min (RecvSpec.nm_qos y) q = L0 /\ z_disc r1 = true).
    { intros r R0 [X|(X & U)].
      - left. assert (F : exists f', first_filter y = Some f' /\ In f' (nm_filters y)).
        { destruct y as [m|m]; cbn in *; [eauto|]. destruct (n5_filters m) as [|g gs]; [destruct IF|]. exists g. cbn. auto. }
        destruct F as (f' & F1 & F2). exists f'. split; auto. rewrite <- (proj2 (run3_rec _ _ MQ _ _ R0) f'). exact (X f' F1).
      - right. split; auto. eapply min_low; eauto. }
    destruct (enters3 r1 l1 now y live r2 o R1 (proj1 (proj1 (Forall_app _ _ _) C)) S) as (res & PS & HN & HS & _).
    { apply Forall_app in C as (_ & C). inversion C as [|? ? CK _]; subst. destruct live; exact CK. }
    assert (K : goes_on3 l2 \/ ~ goes_on3 l2).
    { clear. induction l2 as [|[e oo] l2 IH]; [left; intros ? ? ? ? []|]. destruct IH as [IH|IH]; [|right; intros H; apply IH; intros a1 a2 a3 a4 I; apply (H a1 a2 a3 a4); now right].
      assert (D : (exists now s0, e = UTake now s0 false) \/ forall now s0 pr, e = UTake now s0 pr -> pr = true).
      { destruct e as [| | | | | |now s0 pr]; try (right; discriminate). destruct pr; [right; intros ? ? ? X; injection X as <- <- <-; reflexivity|left; eauto]. }
      destruct D as [(a1 & a2 & ->)|D]; [right; intros H; specialize (H a1 a2 false oo (or_introl eq_refl)); congruence|].
      left. intros a1 a2 a3 a4 [X|I]; [injection X as -> _; eapply D; reflexivity|eapply IH; exact I]. }
    destruct K as [GO|NGO].
    - clear r1 r2 R1 S res PS HN HS. destruct (through3 now y live o l1 l2 s R C GO) as (r1 & r2 & res & R1 & PS & HN & HS & ops & pre & evs & post & F & RU & L & L1 & EN).
      exists r1, r2, res. split; [exact R1|]. split; [exact PS|]. split; [intros E; exact (REASON r1 R1 (HN E))|].
      intros m E. destruct (HS m E) as (A1 & A2 & A3). split; [exact A1|]. split; [exact A2|]. split; [eauto|]. intros NQ _.
      destruct (EN m E NQ) as (p & EV). exists (pre ++ evs ++ post), pre, p, post. split; [exact L|]. split; [exact L1|].
      destruct EV as [->| ->]; [right|left; reflexivity]. split; [reflexivity|]. intros FE. set (log := pre ++ [EQueued now p m] ++ post) in *.
      assert (El : log = snd (run3 (cf_inflight_client cfg) (cf_max_pending cfg) (cf_inflight_timeout cfg) ops)) by now rewrite RU.
      assert (NR : no_reuse log) by (rewrite El; apply few_no_reuse3; [exact F|now rewrite <- El]).
      assert (HL : forall p, exists st, OutSpec.life wpid3 w3_dup carries3 lifetime3 (cf_inflight_timeout cfg) p log st).
      { intros p0. rewrite El in *. exact (c11_v3 (cf_inflight_client cfg) (cf_max_pending cfg) (cf_inflight_timeout cfg) ops F NR p0). }
      apply (gets_given _ _ _ (expired_unsent log wpid3)); [intros _; exact (no_lifetime w3_qp w3_dup carries3 (cf_inflight_timeout cfg) log HL)|].
      apply (gets_log w3_qp w3_dup carries3 lifetime3 p3_qos) with (timeout := cf_inflight_timeout cfg); [intros ? ? ? ? H; apply H| |exact HL|reflexivity|].
      + intros p0. eapply mrun_taken; [|exact NR]. rewrite El. exact (run3_m (cf_inflight_client cfg) (cf_max_pending cfg) (cf_inflight_timeout cfg) ops F).
      + intros U. eapply rest_ended3; eauto.
    - exists r1, r2, res. split; [exact R1|]. split; [exact PS|]. split; [intros E; exact (REASON r1 R1 (HN E))|].
      intros m E. destruct (HS m E) as (A1 & A2 & A3). split; [exact A1|]. split; [exact A2|]. split; [eauto|]. intros _ GO. contradiction.
  Qed.
End V3.

(** ** The broker *)
Section Broker.
  Variables (hash5 : wpub5 -> N) (hash3 : wpub3 -> N) (pick : draw -> broker -> string -> string -> N).
  Local Notation brun := (brun hash5 hash3 pick).

  Lemma gone_run c h1 b1 e b2 out h b j d : gone_through hash5 hash3 pick c h1 b1 e b2 out h b j d -> brun c h b.
  Proof.
    intros (R & S & P & W & h2 & b3 & h3 & a' & G2 & G3 & -> & _). apply (RunProofs.run_go _ _ _ _ _ b3); auto. apply (RunProofs.run_go _ _ _ _ _ b2); auto. econstructor; eauto.
  Qed.
  Lemma get5 c h k lr r d j bf y l1 now live o T P Q n f q : (forall p, In p h -> after_1970 p) -> LifeSpec.life5 k h lr -> srun5 hash5 c r lr -> reached5 d h j bf y lr l1 now live o ->
    fate5 hash5 c l1 now y live o T P Q n f q -> exists l2, lr = l1 ++ (if live then VMsg now y else VLost now y, o) :: l2 /\ finds5 hash5 c lr l1 l2 now y T P Q n f q.
  Proof.
    intros AF L R RE (MD & _). destruct RE as [f1 f2 l2 E1 E2 E3 E4 E5]. exists l2. split; auto. pose proof (life5_clocked _ _ _ L AF) as C. rewrite E3 in *. eapply finds5_lemma; eauto.
  Qed.
  Lemma get3 c h b k lr r d j bf y l1 now live o T P Q f q : cf_max_qos c <= 2 -> brun c h b -> (forall p, In p h -> proper p) -> (forall p, In p h -> after_1970 p) -> LifeSpec.life3 k h lr -> srun3 hash3 c r lr ->
    reached3 d h j bf y lr l1 now live o -> fate3 hash3 c l1 now y live o T P Q f q ->
    exists l2, lr = l1 ++ (if live then UMsg now y else ULost now y, o) :: l2 /\ finds3 hash3 c (ready3 c h b k r) lr l1 l2 now y T P Q f q.
  Proof.
    intros MQ RB PR AF L R RE (MD & _). destruct RE as [f1 f2 l2 E1 E2 E3 E4 E5]. exists l2. split; auto. pose proof (life3_clocked _ _ _ L AF) as C. rewrite E3 in *. eapply finds3_lemma; eauto.
    intros (A & LT & CP). eapply flow3_run; eauto.
  Qed.
End Broker.
