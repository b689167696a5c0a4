(** Proofs for EndProps. *)
From Coq Require Import List Bool Arith NArith String Lia.
From Verif Require Import Base BaseLemmas TopicModel TopicSpec MsgModel PendingModel OutModel RouteModel RouteSpec RouteInv RouteProps RetainModel RetainSpec GlobModel Sess5Model Sess3Model ConnModel
  OutSpec DelivSpec InSpec InFacts DelivLast SubFacts RegModel BrokerModel
  BrokerSpec FrameProofs CoreProofs BrokerInv TaskMove StepProofs RunProofs RegProofs EvolProofs HistProofs LifeSpec TabProofs TabInv RouteRun LifeProofs LifeFacts SubsSpec SubsProofs RecvSpec RecvProofs ReplySpec RecordSpec RecordProofs
  AccSpec AccProofs AccRecv DrainSpec DrainProofs EndSpec.
Import ListNotations.
Local Open Scope N_scope.
Local Open Scope list_scope.

(** ** Lists *)
Lemma sent_by_passed j l : sent_by j (map (fun x : N * (client_id * nmsg) => (fst x, snd (snd x))) l) = passed_by j l.
Proof. unfold sent_by, passed_by. induction l as [|x l IH]; cbn; auto. now rewrite IH. Qed.
Lemma sent_split j from A y B : sent_by j from = A ++ y :: B -> exists f1 f2, from = f1 ++ (j, y) :: f2 /\ sent_by j f1 = A.
Proof.
  revert A. induction from as [|[i m] from IH]; intros A H; cbn in H; [destruct A; discriminate|].
  destruct (i =? j) eqn:E.
  - apply N.eqb_eq in E. subst i. destruct A as [|a A]; cbn in H; injection H as -> H.
    + exists [], from. auto.
    + destruct (IH _ H) as (f1 & f2 & -> & X). exists ((j, a) :: f1), f2. split; auto. change (sent_by j ((j, a) :: f1)) with ((if j =? j then [a] else []) ++ sent_by j f1). now rewrite N.eqb_refl, X.
  - destruct (IH _ H) as (f1 & f2 & -> & X). exists ((i, m) :: f1), f2. split; auto. change (sent_by j ((i, m) :: f1)) with ((if i =? j then [m] else []) ++ sent_by j f1). now rewrite E.
Qed.
Lemma heard_split5 l A y B : heard5 l = A ++ y :: B -> exists l1 now (live : bool) o l2, l = l1 ++ (if live then VMsg now y else VLost now y, o) :: l2 /\ heard5 l1 = A /\ heard5 l2 = B.
Proof.
  revert A. induction l as [|[e o] l IH]; intros A H; [destruct A; discriminate|].
  assert (C : heard5 l = A ++ y :: B -> heard5 [(e, o)] = [] -> exists l1 now (live : bool) o0 l2, (e, o) :: l = l1 ++ (if live then VMsg now y else VLost now y, o0) :: l2 /\ heard5 l1 = A /\ heard5 l2 = B).
  { intros X Z. destruct (IH _ X) as (l1 & now & live & o1 & l2 & -> & Y1 & Y2). exists ((e, o) :: l1), now, live, o1, l2. split; auto. split; auto.
    change (heard5 ([(e, o)] ++ l1) = A). unfold heard5 in *. rewrite flat_map_app, Z. exact Y1. }
  assert (D : forall now (live : bool) m, e = (if live then VMsg now m else VLost now m) -> m :: heard5 l = A ++ y :: B ->
     exists l1 now (live : bool) o0 l2, (e, o) :: l = l1 ++ (if live then VMsg now y else VLost now y, o0) :: l2 /\ heard5 l1 = A /\ heard5 l2 = B).
  { intros now live m -> X. destruct A as [|a A]; cbn in X; injection X as -> X.
    - exists [], now, live, o, l. auto.
    - destruct (IH _ X) as (l1 & now1 & live1 & o1 & l2 & -> & Y1 & Y2). exists ((if live then VMsg now a else VLost now a, o) :: l1), now1, live1, o1, l2. split; auto. split; auto.
      destruct live; cbn; fold (heard5 l1); now rewrite Y1. }
  destruct e; try (apply C; [exact H|reflexivity]).
  - eapply (D _ true); [reflexivity|exact H].
  - eapply (D _ false); [reflexivity|exact H].
Qed.
Lemma heard_split3 l A y B : heard3 l = A ++ y :: B -> exists l1 now (live : bool) o l2, l = l1 ++ (if live then UMsg now y else ULost now y, o) :: l2 /\ heard3 l1 = A /\ heard3 l2 = B.
Proof.
  revert A. induction l as [|[e o] l IH]; intros A H; [destruct A; discriminate|].
  assert (C : heard3 l = A ++ y :: B -> heard3 [(e, o)] = [] -> exists l1 now (live : bool) o0 l2, (e, o) :: l = l1 ++ (if live then UMsg now y else ULost now y, o0) :: l2 /\ heard3 l1 = A /\ heard3 l2 = B).
  { intros X Z. destruct (IH _ X) as (l1 & now & live & o1 & l2 & -> & Y1 & Y2). exists ((e, o) :: l1), now, live, o1, l2. split; auto. split; auto.
    change (heard3 ([(e, o)] ++ l1) = A). unfold heard3 in *. rewrite flat_map_app, Z. exact Y1. }
  assert (D : forall now (live : bool) m, e = (if live then UMsg now m else ULost now m) -> m :: heard3 l = A ++ y :: B ->
     exists l1 now (live : bool) o0 l2, (e, o) :: l = l1 ++ (if live then UMsg now y else ULost now y, o0) :: l2 /\ heard3 l1 = A /\ heard3 l2 = B).
  { intros now live m -> X. destruct A as [|a A]; cbn in X; injection X as -> X.
    - exists [], now, live, o, l. auto.
    - destruct (IH _ X) as (l1 & now1 & live1 & o1 & l2 & -> & Y1 & Y2). exists ((if live then UMsg now a else ULost now a, o) :: l1), now1, live1, o1, l2. split; auto. split; auto.
      destruct live; cbn; fold (heard3 l1); now rewrite Y1. }
  destruct e; try (apply C; [exact H|reflexivity]).
  - eapply (D _ true); [reflexivity|exact H].
  - eapply (D _ false); [reflexivity|exact H].
Qed.

(** ** The receiving session *)
Lemma srun5_at hash c l1 e o l2 : forall s, srun5 hash c s (l1 ++ (e, o) :: l2) -> exists s1 s2, srun5 hash c s1 l1 /\ sstep5 hash c s1 e s2 o.
Proof.
  induction l2 as [|x l2 IH] using rev_ind; intros s R.
  - remember (l1 ++ [(e, o)]) as L eqn:EL. destruct R as [s0 I|s0 l e0 s' o0 R' S]; [destruct l1; discriminate|]. rename EL into E. apply app_inj_tail in E. destruct E as (-> & E). injection E as -> ->. subst. eauto.
  - remember (l1 ++ (e, o) :: l2 ++ [x]) as L eqn:E. destruct R as [s0 I|s0 l e0 s' o0 R' S]; [destruct l1; discriminate|]. rewrite app_comm_cons, app_assoc in E. apply app_inj_tail in E. destruct E as (-> & _). eauto.
Qed.
Lemma srun3_at hash c l1 e o l2 : forall s, srun3 hash c s (l1 ++ (e, o) :: l2) -> exists s1 s2, srun3 hash c s1 l1 /\ sstep3 hash c s1 e s2 o.
Proof.
  induction l2 as [|x l2 IH] using rev_ind; intros s R.
  - remember (l1 ++ [(e, o)]) as L eqn:EL. destruct R as [s0 I|s0 l e0 s' o0 R' S]; [destruct l1; discriminate|]. rename EL into E. apply app_inj_tail in E. destruct E as (-> & E). injection E as -> ->. subst. eauto.
  - remember (l1 ++ (e, o) :: l2 ++ [x]) as L eqn:E. destruct R as [s0 I|s0 l e0 s' o0 R' S]; [destruct l1; discriminate|]. rewrite app_comm_cons, app_assoc in E. apply app_inj_tail in E. destruct E as (-> & _). eauto.
Qed.


Lemma min_low Q q q' : qos_leb q q' = true -> qos_min Q q' = L0 -> qos_min Q q = L0.
Proof. destruct Q, q, q'; cbn; auto; discriminate. Qed.
Lemma checked_le q fq n : checked_size q fq n <= n.
Proof. unfold checked_size. destruct (_ && _); lia. Qed.

Lemma passes_spec now cfg y r : exists r' o, passes5 now cfg y r r' o /\
  (o = None -> (forall f, In f (nm_filters y) -> aget f (s_subs r) = None) \/ s_maxpkt r < nm_size y \/ qos_min (nm_qos y) (nm_sqos y) = L0 /\ ~ up5 r) /\
  (forall p, o = Some p -> p5_topic p = nm_topic y /\ p5_payload p = nm_payload y /\ p5_qos p = qos_min (nm_qos y) (nm_sqos y)).
Proof.
  destruct y as [m|m].
  - destruct (normal5_spec3 now cfg m r) as (r' & o & P & HN & HS). exists r', o. split; auto. split.
    + intros E. destruct (proj1 HN E) as [X|[X|X]]; auto.
      * left. intros f [<-|[]]. exact X.
      * right. left. cbn [nm_size]. eapply N.lt_le_trans; [exact X|apply checked_le].
    + intros p E. destruct (HS p E) as (A & B & C & _). auto.
  - destruct (normal5_spec now cfg m r) as (r' & o & P & HN & HS). exists r', o. split; auto. split.
    + intros E. destruct (proj1 HN E) as [X|[X|X]]; auto.
      right. left. cbn [nm_size]. eapply N.lt_le_trans; [exact X|apply checked_le].
    + intros p E. destruct (HS p E) as (A & B & C & _). auto.
Qed.
Lemma passes_det now cfg y r r' o : passes5 now cfg y r r' o -> exists k, handle_normal5 now cfg y r = (r', option_map (fun p => (p5_qos p, k)) o) /\ (o = None -> k = None) /\
  forall p, o = Some p -> p5_qos p = L0 -> exists w, k = Some (KPub w) /\ w5_payload w = p5_payload p /\ w5_qp w = Q0 /\ (w5_topic w = p5_topic p \/ w5_topic w = EmptyString /\ pp_alias (w5_props w) <> None).
Proof.
  intros [E ->|p k E T _].
  - exists None. split; auto. split; auto. discriminate.
  - exists k. split; auto. split; [discriminate|]. intros p' X Q. injection X as <-. unfold takes5 in T. rewrite Q in T. destruct T as (w & S & ->). exists w. split; auto.
    cbn [step5] in S. unfold out5_qos0, apply_alias in S. destruct (0 <? _).
    + destruct (AliasModel.get_or_assign_alias _ _ _) as (al & (a & nw)). destruct (0 <? a); cbn in S; injection S as _ <-; cbn; repeat split; auto.
      destruct nw; auto. right. split; auto. discriminate.
    + cbn in S. injection S as _ <-. cbn. auto.
Qed.
Lemma fate5_lemma hash c l1 now y live o l2 s f q : srun5 hash c s (l1 ++ (if live : bool then VMsg now y else VLost now y, o) :: l2) ->
  In f (nm_filters y) -> qos_leb q (nm_sqos y) = true ->
  fate5 hash c l1 now y live o (nm_topic y) (nm_payload y) (nm_qos y) (nm_size y) f q.
Proof.
  intros R IF LQ. split; [repeat split; assumption|]. destruct (srun5_at _ _ _ _ _ _ _ R) as (r1 & r2 & R1 & S). destruct (passes_spec now c y r1) as (r' & res & P & HN & HS).
  exists r1, r', res. split; auto. split; auto. split.
  - intros E. destruct (HN E) as [X|[X|(X & U)]]; auto.
    + left. rewrite <- (proj2 (run_rec _ _ _ _ R1) f). unfold rec5. now rewrite (X f IF).
    + right. right. split; auto. eapply min_low; eauto.
  - intros p E. destruct (HS p E) as (A & B & C). split; auto. split; auto. split; [eauto|]. intros Q LV.
    destruct (passes_det _ _ _ _ _ _ P) as (k & HN' & _ & W). destruct (W p E Q) as (w & -> & W1 & W2 & W3). exists w. rewrite W1, B, <- A. split; auto.
    subst live res. inversion S as [|s0 now0 m s' r EN| | | | | |]; subst. rewrite HN' in EN. injection EN as <- <-. reflexivity.
Qed.

Lemma fate3_lemma hash c l1 now y live o l2 s f q : cf_max_qos c <= 2 -> srun3 hash c s (l1 ++ (if live : bool then UMsg now y else ULost now y, o) :: l2) ->
  In f (nm_filters y) -> qos_leb q (nm_sqos y) = true ->
  fate3 hash c l1 now y live o (nm_topic y) (nm_payload y) (nm_qos y) f q.
Proof.
  intros MQ R IF LQ. split; [repeat split; assumption|]. destruct (srun3_at _ _ _ _ _ _ _ R) as (r1 & r2 & R1 & S). destruct (normal3_spec now y r1) as (r' & res & P & HN & HS).
  exists r1, r', res. split; auto. split; auto. split.
  - intros E. destruct (proj1 HN E) as [X|(X & U)].
    + left. assert (F : exists f', first_filter y = Some f' /\ In f' (nm_filters y)).
      { destruct y as [m|m]; cbn in *; [eauto|]. destruct (n5_filters m) as [|g gs]; [destruct IF|]. exists g. cbn. auto. }
      destruct F as (f' & F1 & F2). exists f'. split; auto. rewrite <- (proj2 (run3_rec _ _ MQ _ _ R1) f'). exact (X f' F1).
    + right. split; auto. eapply min_low; eauto.
  - intros p E. destruct (HS p E) as (A & B & C & _). split; auto. split; auto. split; [eauto|]. intros Q LV.
    destruct P as [EN _|p' k EN T _]; [discriminate|]. injection E as ->. unfold takes3 in T. rewrite Q in T. destruct T as (_ & ->).
    subst live. inversion S as [| |s0 now0 m s' r EN'| | | | |]; subst. rewrite EN in EN'. injection EN' as <- <-. eexists. split; [reflexivity|]. cbn. auto.
Qed.

Section End2End.
  Variables (hash5 : wpub5 -> N) (hash3 : wpub3 -> N) (pick : draw -> broker -> string -> string -> N).
  Local Notation bstep := (bstep hash5 hash3 pick).
  Local Notation brun := (brun hash5 hash3 pick).
  Local Notation bgo := (bgo hash5 hash3 pick).

  Lemma queued_go j d b2 h2 b : bgo b2 h2 b -> forall h, exists X, queued_in j d (h2 ++ h) b = queued_in j d h b2 ++ X.
  Proof.
    induction 1 as [b|b0 h2 b e b' out G IH S]; intros h; cbn [app].
    - exists []. now rewrite app_nil_r.
    - destruct (IH h) as (X & E). cbn [queued_in w_b]. rewrite E. eexists. now rewrite <- app_assoc.
  Qed.

  (** ** A client that has a session was never cut off *)
  Lemma closed_step e b b' out d q : good b -> bstep e b = BOk b' out -> cv b d = Some (q, false) -> exists q', cv b' d = Some (q', false).
  Proof.
    intros G S C. pose proof (i_core _ (proj1 G)) as K.
    assert (U : forall c q0 x, cv b c = Some (q0, true) -> (forall d, cv b' d = upd (cv b) c x d) -> exists q', cv b' d = Some (q', false)).
    { intros c q0 x O E. rewrite E. unfold upd. destruct (N.eqb_spec d c) as [->|]; [congruence|]. eauto. }
    assert (V : (forall c, cv b' c = cv b c) -> exists q', cv b' d = Some (q', false)) by (intros E; rewrite E; eauto).
    destruct (step_smove _ _ _ _ _ _ _ (proj1 G) (proj2 G) S) as [? ? E|? ? ->|x CN ? ? E|? ? ? ? ? O ? ? E|? ? ? ? E|k t v i c d0 q0 tms ? ? O ? ? E|? ? ? ? ? ? ? ? ? ? ? ? E|? ? ? ? ? ? ? ? ? ? E|? ? ? ? ? ? ? E|? ? ? ? ? ? E|? ? ? ? ? ? O ? ? E|n i ? ? ? ? ? ? E]; eauto.
    - rewrite E. destruct (aget (p_ident x) (r_idents (b_reg b))); [eauto|]. unfold upd. destruct (N.eqb_spec d (r_next (b_reg b))) as [->|]; [|eauto].
      exfalso. assert (X : cv b (r_next (b_reg b)) <> None) by congruence. apply (k_chan _ _ _ _ _ K) in X. lia.
    - destruct i; [destruct E as (_ & E & _); auto|destruct E as (_ & E & _); auto|destruct E as (_ & E & _); auto|]. destruct E as (_ & [(_ & E)|(O & E)]); eauto.
  Qed.
  Lemma closed_go b h b' d q : good b -> bgo b h b' -> cv b d = Some (q, false) -> exists q', cv b' d = Some (q', false).
  Proof.
    intros G R. revert q. induction R as [b|b0 h b e b' out R IH S]; intros q C; [eauto|]. destruct (IH G q C) as (q1 & C1).
    exact (closed_step _ _ _ _ _ _ (go_good _ _ _ _ _ _ G R) S C1).
  Qed.
  Lemma not_cut c h b k a j : brun c h b -> sess_at b k = Some a -> forall p, In p h -> ~ cut_off j (a_id a) p.
  Proof.
    intros R A p IN (E & O). destruct (in_split _ _ IN) as (h2 & h1 & ->). destruct (run_split _ _ _ _ _ _ _ R) as (b0 & R0 & G0).
    inversion R0 as [|h b1 e b2 out R1 S]; subst. cbn [w_e w_b] in *. subst e. pose proof (run_good _ _ _ _ _ _ R1) as G1.
    assert (CH : exists q, cv b1 (a_id a) = Some (q, false)).
    { pose proof S as S'. cbn [BrokerModel.bstep] in S'. unfold do_flush in S'.
      assert (F : exists a1, sess_at b1 j = Some a1 /\ flush (a_id a) a1 b1 <> None).
      { unfold sess_at. destruct (aget j (b_tasks b1)) as [[| | | |a1| |a1| |a1 st]|]; try discriminate; exists a1; split; auto; intros X; rewrite X in S'; discriminate. }
      destruct F as (a1 & A1 & F). destruct (target_chan _ _ _ _ _ _ _ _ (a_id a) R1 A1) as (ch & C).
      { intros X. apply F. unfold flush. now rewrite X. }
      unfold received_for in O. rewrite C in O. unfold cv. rewrite C. cbn. unfold cview. rewrite O. eauto. }
    destruct CH as (q & CH).
    assert (GO : bgo b1 (h2 ++ [Past b1 (EFlush j (a_id a)) out]) b).
    { apply (go_trans _ _ _ _ _ b0); auto. econstructor; [constructor|exact S]. }
    destruct (closed_go _ _ _ _ _ G1 GO CH) as (q' & C').
    unfold sess_at in A. destruct (aget k (b_tasks b)) as [t|] eqn:T; [|discriminate].
    pose proof (open_own _ _ _ _ (run_good _ _ _ _ _ _ R) T A) as X. unfold received_for in X. unfold cv in C'. destruct (aget (a_id a) (b_chans b)) as [ch|]; [|discriminate]. cbn in C'. unfold cview in C'. injection C' as _ C'. congruence.
  Qed.
  (** What was queued has arrived. *)
  Lemma position c h1 b1 e b2 out h2 b j d a' x1 y x2 (H := h2 ++ Past b1 e out :: h1) : brun c h1 b1 -> bstep e b1 = BOk b2 out -> bgo b2 h2 b ->
    sess_at b j = Some a' -> (forall p, In p H -> ~ cut_off j d p) -> queue_of (a_bcast a') d = [] -> AccSpec.queued j d b1 b2 = x1 ++ y :: x2 ->
    exists f1 f2, arrived d H = f1 ++ (j, y) :: f2 /\ sent_by j f1 = queued_in j d h1 b1 ++ x1.
  Proof.
    intros R S G A NC E Q. assert (RH : brun c H b) by (apply (run_go _ _ _ _ _ b2); auto; econstructor; eauto).
    pose proof (sender_lemma _ _ _ _ _ _ _ _ d RH A NC) as SL. rewrite E, app_nil_r in SL. rewrite <- sent_by_passed in SL. fold (arrived d H) in SL.
    destruct (queued_go j d b2 h2 b G (Past b1 e out :: h1)) as (X & QX). unfold H in SL at 1. rewrite QX in SL. cbn [queued_in w_b] in SL. rewrite Q in SL.
    rewrite <- !app_assoc in SL. cbn [app] in SL. rewrite app_assoc in SL. exact (sent_split _ _ _ _ _ (eq_sym SL)).
  Qed.
  Lemma later c h1 b1 e b2 out h2 b3 h3 b j d a' x1 y x2 (H := h3 ++ h2 ++ Past b1 e out :: h1) : brun c h1 b1 -> bstep e b1 = BOk b2 out -> bgo b2 h2 b3 -> bgo b3 h3 b ->
    sess_at b3 j = Some a' -> (forall p, In p H -> ~ cut_off j d p) -> queue_of (a_bcast a') d = [] -> AccSpec.queued j d b1 b2 = x1 ++ y :: x2 ->
    exists f1 f2, arrived d H = f1 ++ (j, y) :: f2 /\ sent_by j f1 = queued_in j d h1 b1 ++ x1.
  Proof.
    intros R S G G3 A NC E Q. destruct (position c h1 b1 e b2 out h2 b3 j d a' x1 y x2 R S G A) as (f1 & f2 & AR & SB); auto.
    { intros p IP. apply NC. unfold H. apply in_or_app. auto. }
    exists f1, (f2 ++ arrived d h3). split; auto. unfold H, arrived. rewrite passed_in_app, map_app. fold (arrived d (h2 ++ Past b1 e out :: h1)). rewrite AR, <- app_assoc. reflexivity.
  Qed.
  Lemma reach5_lemma c H b k r j before y f1 f2 : brun c H b -> (forall p, In p H -> proper p) -> sess_at b k = Some (A5 r) -> waiting b (s_id r) = [] ->
    arrived (s_id r) H = f1 ++ (j, y) :: f2 -> sent_by j f1 = before ->
    exists l l1 now live o, life5 k H l /\ srun5 hash5 c r l /\ reached5 (s_id r) H j before y l l1 now live o /\
      forall f q, In f (nm_filters y) -> qos_leb q (nm_sqos y) = true -> fate5 hash5 c l1 now y live o (nm_topic y) (nm_payload y) (nm_qos y) (nm_size y) f q.
  Proof.
    intros R P A W E S. destruct (arrived5 _ _ _ _ _ _ _ _ R P A) as (l & L & SR & X). rewrite W, app_nil_r in X.
    assert (Y : heard5 l = map snd f1 ++ y :: map snd f2).
    { rewrite <- X. transitivity (map snd (arrived (s_id r) H)); [unfold arrived; rewrite map_map; reflexivity|]. rewrite E, map_app. reflexivity. }
    destruct (heard_split5 _ _ _ _ Y) as (l1 & now & live & o & l2 & EL & Y1 & Y2). exists l, l1, now, live, o. split; auto. split; auto. split.
    - econstructor; eauto.
    - intros f q. rewrite EL in SR. eapply fate5_lemma; eauto.
  Qed.
  Lemma reach3_lemma c H b k r j before y f1 f2 : cf_max_qos c <= 2 -> brun c H b -> (forall p, In p H -> proper p) -> sess_at b k = Some (A3 r) -> waiting b (z_id r) = [] ->
    arrived (z_id r) H = f1 ++ (j, y) :: f2 -> sent_by j f1 = before ->
    exists l l1 now live o, life3 k H l /\ srun3 hash3 c r l /\ reached3 (z_id r) H j before y l l1 now live o /\
      forall f q, In f (nm_filters y) -> qos_leb q (nm_sqos y) = true -> fate3 hash3 c l1 now y live o (nm_topic y) (nm_payload y) (nm_qos y) f q.
  Proof.
    intros MQ R P A W E S. destruct (arrived3 _ _ _ _ _ _ _ _ R P A) as (l & L & SR & X). rewrite W, app_nil_r in X.
    assert (Y : heard3 l = map snd f1 ++ y :: map snd f2).
    { rewrite <- X. transitivity (map snd (arrived (z_id r) H)); [unfold arrived; rewrite map_map; reflexivity|]. rewrite E, map_app. reflexivity. }
    destruct (heard_split3 _ _ _ _ Y) as (l1 & now & live & o & l2 & EL & Y1 & Y2). exists l, l1, now, live, o. split; auto. split; auto. split.
    - econstructor; eauto.
    - intros f q. rewrite EL in SR. eapply fate3_lemma; eauto.
  Qed.

  (** ** The publishing session *)
  Lemma handed_queued b1 b2 j d a a' xs : sess_at b1 j = Some a -> sess_at b2 j = Some a' -> handed (a_bcast a) (a_bcast a') d xs -> AccSpec.queued j d b1 b2 = xs.
  Proof. intros A A' Hh. unfold AccSpec.queued. rewrite A, A'. unfold handed in Hh. rewrite Hh. rewrite skipn_app, skipn_all, Nat.sub_diag. reflexivity. Qed.

  Lemma made5 c h b j s len w b' out : cf_max_qos c <= 2 -> brun c h b -> (forall p, In p h -> proper p) -> sess_at b j = Some (A5 s) -> wf_in5 (IPub w) -> len <= cf_packet_server c ->
    bstep (EPacket5 j len (IPub w)) b = BOk b' out -> (forall code reason, ~ In (OPkt5 j (KDisconnect code reason)) out) ->
    exists l, life5 j h l /\ forall k a, sess_at b k = Some a -> not_removed b k -> exists m, on_record c h k a m /\
      forall T f q, topic_for (cf_alias_max c) l w = Some T -> (forall p, w5_qp w = Q2 p -> opener l p = None /\ w5_dup w = false) ->
        m f = Some q -> plain f -> topic_matches f T -> wanted s (a_id a) f ->
        exists y, AccSpec.queued j (a_id a) b b' = [y] /\ nm_topic y = T /\ nm_payload y = w5_payload w /\ nm_qos y = qp_qos (w5_qp w) /\ In f (nm_filters y) /\
          qos_leb q (nm_sqos y) = true /\ enc_len5 w = Some (nm_size y).
  Proof.
    intros M R P A W LE S ND. destruct (life5_lemma _ _ _ _ _ _ _ _ R P A) as (l & L & SR). destruct (run_tables _ _ _ _ _ _ R) as (ops & hr & C & RT & _ & AH & _).
    pose proof S as S0. pose proof A as A0.
    cbn [BrokerModel.bstep] in S. unfold do_packet5 in S. unfold sess_at in A. destruct (aget j (b_tasks b)) as [[| | | |[s0|s0]| | | |]|] eqn:AJ; try discriminate. cbn in A. injection A as ->.
    destruct (is_disconnected5 s) eqn:D; [discriminate|]. destruct (packet_step5 _ _ _ _ _ _ _) as [s1 g o|s1 g|] eqn:PS; [| |discriminate].
    2:{ exfalso. unfold packet_step5, handle_packet5 in PS. destruct (_ <? _); [cbn in PS; destruct (after_packet5 _ _); discriminate|]. destruct (handle_publish5 _ _ _ _ _) as [[[? ?] ?]|]; [|discriminate]. destruct (after_packet5 _ _); discriminate. }
    injection S as H0 H1.
    assert (A' : sess_at b' j = Some (A5 s1)).
    { subst b'. unfold sess_at, set_task, set_tasks, set_last, set_lasts. destruct (is_disconnected5 s1); cbn [b_tasks]; rewrite aget_aset, eqb_refl; reflexivity. }
    assert (PB : RecvSpec.published5 hash5 (pick (DPacket j (IPub w)) b) c ops l w s s1 (glob_of b) o).
    { exists (seconds b), len, g. split; auto. split; auto. split; [|exact PS]. destruct W as (W1 & W2). exact (conj W1 (conj W2 (conj C (conj RT LE)))). }
    exists l. split; auto.
    assert (UP : is_disconnected5 s1 = false).
    { destruct (c48 hash5 (pick (DPacket j (IPub w)) b) c s l (seconds b) len w (glob_of b) ops SR D) as (s3 & g3 & o3 & E3 & Q).
      { destruct W as (W1 & W2). exact (conj W1 (conj W2 (conj C (conj RT LE)))). }
      rewrite PS in E3. injection E3 as <- <- <-. destruct Q as [(Q & _)|(_ & code & (reason & Q) & _)]; auto. exfalso. apply (ND code reason). subst out.
      apply in_map_iff. exists (KDisconnect code reason). split; auto. assert (X : In (KDisconnect code reason) (answers o)) by (rewrite Q; now left). exact (proj1 (proj1 (filter_In _ _ _) X)). }
    intros k a AK N. destruct (recorded _ _ _ _ _ _ _ _ M R P AK) as (m & RC & E). exists m. split; auto. intros T f q HT HQ MF PL MT WT.
    assert (HH : held b k = Some (a_id a, a_subs a)) by exact (held_sess _ _ _ AK N).
    assert (TH : through (pick (DPacket j (IPub w)) b) ops s T (a_id a) f q) by (left; split; auto; split; auto; split; auto; apply (proj2 (AH _ _ _ HH)); rewrite E; auto).
    destruct (c22_one hash5 (pick (DPacket j (IPub w)) b) c ops l w s s1 (glob_of b) o T (a_id a) f q PB UP HQ HT TH) as (y & HY & Y1 & Y2 & Y3 & Y4); [eapply held_reachable; eauto|].
    destruct (published_cases _ _ _ _ _ _ _ _ _ _ _ _ PB HY) as [?|(T' & n & fs & sq & HT' & EL & EX & _ & _ & _ & A2 & _ & _)]; [discriminate|].
    rewrite HT in HT'. injection HT' as <-. exists y. split; [eapply handed_queued; [exact A0|exact A'|exact HY]|]. repeat (split; [assumption|]). injection EX as ->. cbn [nm_sqos nm_size n5_sqos n5_len]. split; auto. eapply A2; eauto.
  Qed.
  Lemma made3 c h b j s len w b' out : cf_max_qos c <= 2 -> brun c h b -> (forall p, In p h -> proper p) -> sess_at b j = Some (A3 s) -> wf_in3 (YPub w) -> len <= cf_packet_server c ->
    bstep (EPacket3 j len (YPub w)) b = BOk b' out -> over b' j = false -> (forall p, w3_qp w = Q2 p -> w3_dup w = false) ->
    forall k a, sess_at b k = Some a -> not_removed b k -> exists m, on_record c h k a m /\
      forall f q, m f = Some q -> plain f -> topic_matches f (w3_topic w) ->
        exists x1 y x2, AccSpec.queued j (a_id a) b b' = x1 ++ y :: x2 /\ nm_topic y = w3_topic w /\ nm_payload y = w3_payload w /\ nm_qos y = qp_qos (w3_qp w) /\ nm_filters y = [f] /\ nm_sqos y = q /\
          (forall n, enc_len3 w = Some n -> nm_size y = n + 1) /\
          (forall x, In x (x1 ++ x2) -> nm_topic x = w3_topic w /\ nm_payload x = w3_payload w /\ nm_filters x <> [f]).
  Proof.
    intros M R P A W LE S ND HQ. destruct (life3_lemma _ _ _ _ _ _ _ _ R P A) as (l & L & SR). destruct (run_tables _ _ _ _ _ _ R) as (ops & hr & C & RT & _ & AH & _).
    pose proof A as A0.
    cbn [BrokerModel.bstep] in S. unfold do_packet3 in S. unfold sess_at in A. destruct (aget j (b_tasks b)) as [[| | | |[s0|s0]| | | |]|] eqn:AJ; try discriminate. cbn in A. injection A as ->.
    destruct (z_disc s) eqn:D; [discriminate|]. destruct (packet_step3 _ _ _ _ _ _) as [s1 g o|s1 g|] eqn:PS; [| |discriminate]; inversion S; subst b' out; clear S.
    2:{ exfalso. revert ND. unfold over, set_task, set_tasks. cbn [b_tasks]. rewrite aget_aset, eqb_refl. discriminate. }
    match goal with |- context [AccSpec.queued j _ b ?b'] => assert (A' : sess_at b' j = Some (A3 s1)) end.
    { unfold sess_at, set_task, set_tasks, set_last, set_lasts. cbn [b_tasks]. rewrite aget_aset, eqb_refl. reflexivity. }
    assert (PB : RecvSpec.published3 hash3 c ops l w s s1 (glob_of b) o).
    { exists (seconds b), len, g. split; auto. split; auto. split; [|exact PS]. destruct W as (W1 & W2). exact (conj W1 (conj W2 (conj C (conj RT LE)))). }
    intros k a AK N. destruct (recorded _ _ _ _ _ _ _ _ M R P AK) as (m & RC & E). exists m. split; auto. intros f q MF PL MT.
    assert (HH : held b k = Some (a_id a, a_subs a)) by exact (held_sess _ _ _ AK N).
    assert (PS' : plain_sub ops (w3_topic w) (a_id a) f q) by (split; auto; split; auto; apply (proj2 (AH _ _ _ HH)); rewrite E; auto).
    destruct (c49_v3 hash3 c ops l w s s1 (glob_of b) o (a_id a) f q PB HQ PS') as (xs & y0 & HY & IN & _); [eapply held_reachable; eauto|].
    destruct (published3_cases _ _ _ _ _ _ _ _ _ _ _ PB HY) as [->|(n & es & EL & EX & NDp & HI)]; [destruct IN|].
    pose proof (proj2 (HI f q) PS') as IE. destruct (in_split _ _ IE) as (e1 & e2 & ->). rewrite map_app in EX. cbn [map] in EX.
    eexists _, _, _. split; [rewrite <- EX; eapply handed_queued; [exact A0|exact A'|exact HY]|]. cbn [nm_topic nm_payload nm_qos nm_filters nm_sqos nm_size n3_topic n3_payload n3_qos n3_filter n3_sqos n3_len fst snd].
    repeat (split; [reflexivity|]). split; [intros n'; rewrite EL; intros X; injection X as ->; reflexivity|].
    intros x IX. rewrite <- map_app in IX. apply in_map_iff in IX. destruct IX as ((g0, q0) & <- & IG). cbn [nm_topic nm_payload nm_filters n3_topic n3_payload n3_filter fst snd].
    split; auto. split; auto. intros X. injection X as ->. rewrite map_app in NDp. cbn [map fst] in NDp. apply NoDup_remove_2 in NDp. apply NDp. rewrite <- map_app. apply in_map_iff. exists (f, q0). auto.
  Qed.

  (** ** All of the way *)
  Section Way.
    Variables (c : config) (h1 h2 h3 : list past) (b1 b2 b3 b : broker) (j k0 k : N) (a a' : sess) (out : list bout).
    Hypotheses (MQ : cf_max_qos c <= 2) (R1 : brun c h1 b1) (G2 : bgo b2 h2 b3) (G3 : bgo b3 h3 b) (AK : sess_at b1 k0 = Some a) (NR : not_removed b1 k0)
      (AJ : sess_at b3 j = Some a') (QE : queue_of (a_bcast a') (a_id a) = []) (WE : waiting b (a_id a) = []).
    Lemma way5 e x1 y x2 r (H := h3 ++ h2 ++ Past b1 e out :: h1) : bstep e b1 = BOk b2 out -> (forall p, In p H -> proper p) -> sess_at b k = Some (A5 r) -> s_id r = a_id a ->
      AccSpec.queued j (a_id a) b1 b2 = x1 ++ y :: x2 ->
      exists l l1 now live o, life5 k H l /\ srun5 hash5 c r l /\ reached5 (a_id a) H j (queued_in j (a_id a) h1 b1 ++ x1) y l l1 now live o /\
        forall f q, In f (nm_filters y) -> qos_leb q (nm_sqos y) = true -> fate5 hash5 c l1 now y live o (nm_topic y) (nm_payload y) (nm_qos y) (nm_size y) f q.
    Proof.
      intros S P A ID Q. assert (RH : brun c H b).
      { unfold H. apply (run_go _ _ _ _ _ b3); auto. apply (run_go _ _ _ _ _ b2); auto. econstructor; eauto. }
      destruct (later c h1 b1 e b2 out h2 b3 h3 b j (a_id a) a' x1 y x2 R1 S G2 G3 AJ) as (f1 & f2 & AR & SB); auto.
      { intros p IP. rewrite <- ID. exact (not_cut _ _ _ _ (A5 r) j RH A p IP). }
      rewrite <- ID in *. exact (reach5_lemma _ _ _ _ _ _ _ _ _ _ RH P A WE AR SB).
    Qed.
    Lemma way3 e x1 y x2 r (H := h3 ++ h2 ++ Past b1 e out :: h1) : bstep e b1 = BOk b2 out -> (forall p, In p H -> proper p) -> sess_at b k = Some (A3 r) -> z_id r = a_id a ->
      AccSpec.queued j (a_id a) b1 b2 = x1 ++ y :: x2 ->
      exists l l1 now live o, life3 k H l /\ srun3 hash3 c r l /\ reached3 (a_id a) H j (queued_in j (a_id a) h1 b1 ++ x1) y l l1 now live o /\
        forall f q, In f (nm_filters y) -> qos_leb q (nm_sqos y) = true -> fate3 hash3 c l1 now y live o (nm_topic y) (nm_payload y) (nm_qos y) f q.
    Proof.
      intros S P A ID Q. assert (RH : brun c H b).
      { unfold H. apply (run_go _ _ _ _ _ b3); auto. apply (run_go _ _ _ _ _ b2); auto. econstructor; eauto. }
      destruct (later c h1 b1 e b2 out h2 b3 h3 b j (a_id a) a' x1 y x2 R1 S G2 G3 AJ) as (f1 & f2 & AR & SB); auto.
      { intros p IP. rewrite <- ID. exact (not_cut _ _ _ _ (A3 r) j RH A p IP). }
      rewrite <- ID in *. exact (reach3_lemma _ _ _ _ _ _ _ _ _ _ MQ RH P A WE AR SB).
    Qed.
  End Way.
  Lemma before_proper h3 h2 q h1 : (forall p, In p (h3 ++ h2 ++ q :: h1) -> proper p) -> forall p, In p h1 -> proper p.
  Proof. intros P p IP. apply P. apply in_or_app. right. apply in_or_app. right. now right. Qed.

  Lemma end55 c h1 b1 j s len w b2 out h2 b3 h3 b k0 a a' k r (H := h3 ++ h2 ++ Past b1 (EPacket5 j len (IPub w)) out :: h1) : cf_max_qos c <= 2 ->
    brun c h1 b1 -> sess_at b1 j = Some (A5 s) -> wf_in5 (IPub w) -> len <= cf_packet_server c ->
    bstep (EPacket5 j len (IPub w)) b1 = BOk b2 out -> (forall code reason, ~ In (OPkt5 j (KDisconnect code reason)) out) ->
    bgo b2 h2 b3 -> bgo b3 h3 b -> (forall p, In p H -> proper p) ->
    sess_at b1 k0 = Some a -> not_removed b1 k0 -> sess_at b3 j = Some a' -> queue_of (a_bcast a') (a_id a) = [] ->
    sess_at b k = Some (A5 r) -> s_id r = a_id a -> waiting b (a_id a) = [] ->
    exists l m, life5 j h1 l /\ on_record c h1 k0 a m /\ forall T f q,
      topic_for (cf_alias_max c) l w = Some T -> (forall p, w5_qp w = Q2 p -> opener l p = None /\ w5_dup w = false) ->
      m f = Some q -> plain f -> topic_matches f T -> wanted s (a_id a) f ->
      exists y lr l1 now live o n, life5 k H lr /\ srun5 hash5 c r lr /\ reached5 (a_id a) H j (queued_in j (a_id a) h1 b1) y lr l1 now live o /\ enc_len5 w = Some n /\
        fate5 hash5 c l1 now y live o T (w5_payload w) (qp_qos (w5_qp w)) n f q.
  Proof.
    intros MQ R A W LE S ND G2 G3 P AK NR AJ QE AR ID WE. pose proof (before_proper _ _ _ _ P) as P1.
    destruct (made5 _ _ _ _ _ _ _ _ _ MQ R P1 A W LE S ND) as (l & L & MD). destruct (MD _ _ AK NR) as (m & RC & MD'). exists l, m. split; auto. split; auto.
    intros T f q HT HQ MF PL MT WT. destruct (MD' T f q HT HQ MF PL MT WT) as (y & Q & Y1 & Y2 & Y3 & Y4 & Y5 & Y6).
    destruct (way5 c h1 h2 h3 b1 b2 b3 b j k a a' out R G2 G3 AJ QE WE _ [] y [] r S P AR ID Q) as (lr & l1 & now & live & o & LR & SR & RE & FT).
    rewrite app_nil_r in RE. exists y, lr, l1, now, live, o, (nm_size y). repeat (split; [assumption|]). rewrite <- Y1, <- Y2, <- Y3. apply FT; auto.
  Qed.
  Lemma end53 c h1 b1 j s len w b2 out h2 b3 h3 b k0 a a' k r (H := h3 ++ h2 ++ Past b1 (EPacket5 j len (IPub w)) out :: h1) : cf_max_qos c <= 2 ->
    brun c h1 b1 -> sess_at b1 j = Some (A5 s) -> wf_in5 (IPub w) -> len <= cf_packet_server c ->
    bstep (EPacket5 j len (IPub w)) b1 = BOk b2 out -> (forall code reason, ~ In (OPkt5 j (KDisconnect code reason)) out) ->
    bgo b2 h2 b3 -> bgo b3 h3 b -> (forall p, In p H -> proper p) ->
    sess_at b1 k0 = Some a -> not_removed b1 k0 -> sess_at b3 j = Some a' -> queue_of (a_bcast a') (a_id a) = [] ->
    sess_at b k = Some (A3 r) -> z_id r = a_id a -> waiting b (a_id a) = [] ->
    exists l m, life5 j h1 l /\ on_record c h1 k0 a m /\ forall T f q,
      topic_for (cf_alias_max c) l w = Some T -> (forall p, w5_qp w = Q2 p -> opener l p = None /\ w5_dup w = false) ->
      m f = Some q -> plain f -> topic_matches f T -> wanted s (a_id a) f ->
      exists y lr l1 now live o, life3 k H lr /\ srun3 hash3 c r lr /\ reached3 (a_id a) H j (queued_in j (a_id a) h1 b1) y lr l1 now live o /\
        fate3 hash3 c l1 now y live o T (w5_payload w) (qp_qos (w5_qp w)) f q.
  Proof.
    intros MQ R A W LE S ND G2 G3 P AK NR AJ QE AR ID WE. pose proof (before_proper _ _ _ _ P) as P1.
    destruct (made5 _ _ _ _ _ _ _ _ _ MQ R P1 A W LE S ND) as (l & L & MD). destruct (MD _ _ AK NR) as (m & RC & MD'). exists l, m. split; auto. split; auto.
    intros T f q HT HQ MF PL MT WT. destruct (MD' T f q HT HQ MF PL MT WT) as (y & Q & Y1 & Y2 & Y3 & Y4 & Y5 & Y6).
    destruct (way3 c h1 h2 h3 b1 b2 b3 b j k a a' out MQ R G2 G3 AJ QE WE _ [] y [] r S P AR ID Q) as (lr & l1 & now & live & o & LR & SR & RE & FT).
    rewrite app_nil_r in RE. exists y, lr, l1, now, live, o. repeat (split; [assumption|]). rewrite <- Y1, <- Y2, <- Y3. apply FT; auto.
  Qed.
  Lemma end35 c h1 b1 j s len w b2 out h2 b3 h3 b k0 a a' k r (H := h3 ++ h2 ++ Past b1 (EPacket3 j len (YPub w)) out :: h1) : cf_max_qos c <= 2 ->
    brun c h1 b1 -> sess_at b1 j = Some (A3 s) -> wf_in3 (YPub w) -> len <= cf_packet_server c ->
    bstep (EPacket3 j len (YPub w)) b1 = BOk b2 out -> over b2 j = false -> (forall p, w3_qp w = Q2 p -> w3_dup w = false) ->
    bgo b2 h2 b3 -> bgo b3 h3 b -> (forall p, In p H -> proper p) ->
    sess_at b1 k0 = Some a -> not_removed b1 k0 -> sess_at b3 j = Some a' -> queue_of (a_bcast a') (a_id a) = [] ->
    sess_at b k = Some (A5 r) -> s_id r = a_id a -> waiting b (a_id a) = [] ->
    exists m, on_record c h1 k0 a m /\ forall f q, m f = Some q -> plain f -> topic_matches f (w3_topic w) ->
      exists x1 y lr l1 now live o n, life5 k H lr /\ srun5 hash5 c r lr /\ reached5 (a_id a) H j (queued_in j (a_id a) h1 b1 ++ x1) y lr l1 now live o /\
        nm_filters y = [f] /\ Forall (fun x => nm_topic x = w3_topic w /\ nm_payload x = w3_payload w /\ nm_filters x <> [f]) x1 /\ (forall n', enc_len3 w = Some n' -> n = n' + 1) /\
        fate5 hash5 c l1 now y live o (w3_topic w) (w3_payload w) (qp_qos (w3_qp w)) n f q.
  Proof.
    intros MQ R A W LE S ND HQ G2 G3 P AK NR AJ QE AR ID WE. pose proof (before_proper _ _ _ _ P) as P1.
    destruct (made3 _ _ _ _ _ _ _ _ _ MQ R P1 A W LE S ND HQ _ _ AK NR) as (m & RC & MD'). exists m. split; auto.
    intros f q MF PL MT. destruct (MD' f q MF PL MT) as (x1 & y & x2 & Q & Y1 & Y2 & Y3 & Y4 & Y5 & Y6 & Y7).
    destruct (way5 c h1 h2 h3 b1 b2 b3 b j k a a' out R G2 G3 AJ QE WE _ x1 y x2 r S P AR ID Q) as (lr & l1 & now & live & o & LR & SR & RE & FT).
    exists x1, y, lr, l1, now, live, o, (nm_size y). repeat (split; [assumption|]). split; [apply Forall_forall; intros x IX; apply Y7, in_or_app; auto|]. split; auto.
    rewrite <- Y1, <- Y2, <- Y3. apply FT; [rewrite Y4; now left|rewrite Y5; destruct q; reflexivity].
  Qed.
  Lemma end33 c h1 b1 j s len w b2 out h2 b3 h3 b k0 a a' k r (H := h3 ++ h2 ++ Past b1 (EPacket3 j len (YPub w)) out :: h1) : cf_max_qos c <= 2 ->
    brun c h1 b1 -> sess_at b1 j = Some (A3 s) -> wf_in3 (YPub w) -> len <= cf_packet_server c ->
    bstep (EPacket3 j len (YPub w)) b1 = BOk b2 out -> over b2 j = false -> (forall p, w3_qp w = Q2 p -> w3_dup w = false) ->
    bgo b2 h2 b3 -> bgo b3 h3 b -> (forall p, In p H -> proper p) ->
    sess_at b1 k0 = Some a -> not_removed b1 k0 -> sess_at b3 j = Some a' -> queue_of (a_bcast a') (a_id a) = [] ->
    sess_at b k = Some (A3 r) -> z_id r = a_id a -> waiting b (a_id a) = [] ->
    exists m, on_record c h1 k0 a m /\ forall f q, m f = Some q -> plain f -> topic_matches f (w3_topic w) ->
      exists x1 y lr l1 now live o, life3 k H lr /\ srun3 hash3 c r lr /\ reached3 (a_id a) H j (queued_in j (a_id a) h1 b1 ++ x1) y lr l1 now live o /\
        nm_filters y = [f] /\ Forall (fun x => nm_topic x = w3_topic w /\ nm_payload x = w3_payload w /\ nm_filters x <> [f]) x1 /\
        fate3 hash3 c l1 now y live o (w3_topic w) (w3_payload w) (qp_qos (w3_qp w)) f q.
  Proof.
    intros MQ R A W LE S ND HQ G2 G3 P AK NR AJ QE AR ID WE. pose proof (before_proper _ _ _ _ P) as P1.
    destruct (made3 _ _ _ _ _ _ _ _ _ MQ R P1 A W LE S ND HQ _ _ AK NR) as (m & RC & MD'). exists m. split; auto.
    intros f q MF PL MT. destruct (MD' f q MF PL MT) as (x1 & y & x2 & Q & Y1 & Y2 & Y3 & Y4 & Y5 & Y6 & Y7).
    destruct (way3 c h1 h2 h3 b1 b2 b3 b j k a a' out MQ R G2 G3 AJ QE WE _ x1 y x2 r S P AR ID Q) as (lr & l1 & now & live & o & LR & SR & RE & FT).
    exists x1, y, lr, l1, now, live, o. repeat (split; [assumption|]). split; [apply Forall_forall; intros x IX; apply Y7, in_or_app; auto|].
    rewrite <- Y1, <- Y2, <- Y3. apply FT; [rewrite Y4; now left|rewrite Y5; destruct q; reflexivity].
  Qed.

  (** ** For examples *)
  Lemma trace_go es : forall h0 b h b', trace hash5 hash3 pick es h0 b = Some (h, b') -> exists h2, h = h2 ++ h0 /\ bgo b h2 b'.
  Proof.
    induction es as [|e es IH]; intros h0 b h b' E; cbn [trace] in E; [injection E as <- <-; exists []; split; [auto|constructor]|].
    destruct (BrokerModel.bstep hash5 hash3 pick e b) as [|b1 o1|] eqn:S; try discriminate. destruct (IH _ _ _ _ E) as (h2 & -> & G). exists (h2 ++ [Past b e o1]). split; [now rewrite <- app_assoc|].
    apply (go_trans _ _ _ _ _ b1); auto. econstructor; [constructor|exact S].
  Qed.
  Lemma gone_by_trace c h1 b1 e b2 out es h b j d a : brun c h1 b1 -> bstep e b1 = BOk b2 out -> trace hash5 hash3 pick es (Past b1 e out :: h1) b2 = Some (h, b) ->
    (forall p, In p h -> proper p) -> sess_at b j = Some a -> queue_of (a_bcast a) d = [] -> waiting b d = [] -> gone_through hash5 hash3 pick c h1 b1 e b2 out h b j d.
  Proof.
    intros R S T P A Q W. destruct (trace_go _ _ _ _ _ T) as (h2 & -> & G). repeat (split; [assumption|]). exists h2, b, [], a. split; [exact G|]. split; [constructor|]. auto.
  Qed.
End End2End.
