(** The outgoing side of a v3 session run is a run of OutSpec. *)
From Coq Require Import List Bool String NArith Lia.
From Verif Require Import Base BaseLemmas TopicModel MsgModel PendingModel OutModel RouteModel RetainModel GlobModel
  Sess5Model Sess3Model ConnModel OutSpec OutFacts InSpec InProofs InRun3 LinkSpec LinkProofs.
Import ListNotations.
Local Open Scope N_scope.

(** ** Moves of the outgoing side *)
Definition trans3 (o : out3) (ops : list op3) (o' : out3) (evs : list (oev pub3 wpub3)) : Prop :=
  Forall op3_ok ops /\ fold_left run3_step ops (o, []) = (o', evs).

Lemma run3_from ops : forall o log o' evs, fold_left run3_step ops (o, []) = (o', evs) ->
  fold_left run3_step ops (o, log) = (o', (log ++ evs)%list).
Proof.
  induction ops as [|op ops IH]; intros o log o' evs E.
  - cbn in E |- *. injection E as <- <-. now rewrite app_nil_r.
  - cbn [fold_left] in E |- *. unfold run3_step in E at 2. unfold run3_step at 2. destruct (step3 o op) as (o1, e1).
    cbn [app] in E. destruct (fold_left run3_step ops (o1, [])) as (o2, e2) eqn:F.
    rewrite (IH _ _ _ _ F) in E. injection E as <- <-. rewrite (IH _ _ _ _ F). now rewrite app_assoc.
Qed.
Lemma trans3_app o a o1 e1 b o2 e2 : trans3 o a o1 e1 -> trans3 o1 b o2 e2 -> trans3 o (a ++ b) o2 (e1 ++ e2).
Proof.
  intros (F1 & E1) (F2 & E2). split; [now apply Forall_app|]. rewrite fold_left_app, E1. now apply run3_from.
Qed.
Lemma trans3_nil o : trans3 o [] o [].
Proof. split; [constructor|reflexivity]. Qed.
Lemma trans3_one o op o' evs : op3_ok op -> step3 o op = (o', evs) -> trans3 o [op] o' evs.
Proof. intros H E. split; [now repeat constructor|]. cbn. now rewrite E. Qed.

Definition moves3 (t : N) (ack : option (ackkind * pid)) (A : bool -> Prop) (q : pub3 -> Prop) (o o' : out3) (outs : list (sent wpub3)) : Prop :=
  exists ops evs, trans3 o ops o' evs /\ entry t ack A outs q evs.
Notation moves := (fun t q => moves3 t None (fun _ => True) q).

Lemma moves3_refl t q o : moves t q o o [].
Proof. exists [], []. split; [apply trans3_nil|apply entry_nil]. Qed.
Lemma moves3_app t ack A q o o1 o2 a b : moves3 t ack A q o o1 a -> moves t q o1 o2 b -> moves3 t ack A q o o2 (a ++ b).
Proof.
  intros (p1 & e1 & T1 & E1) (p2 & e2 & T2 & E2). exists (p1 ++ p2)%list, (e1 ++ e2)%list.
  split; [eapply trans3_app; eauto|now apply entry_app].
Qed.
Lemma moves3_imp t ack (A B : bool -> Prop) (q q' : pub3 -> Prop) o o' a : (forall m, q m -> q' m) -> (forall ok, A ok -> B ok) ->
  moves3 t ack A q o o' a -> moves3 t ack B q' o o' a.
Proof. intros H1 H2 (p & e & T & E). exists p, e. split; auto. eapply entry_imp; eauto. Qed.

Lemma wire_of_sent3 l : flat_map wire3 (map of_sent3 l) = l.
Proof. induction l as [|[w|p] l IH]; cbn; f_equal; auto. Qed.

Lemma pendings3_moves t q s s' out : 0 < t -> pendings3 t s = (s', out) -> moves t q (z_out s) (z_out s') (flat_map wire3 out).
Proof.
  intros T. unfold pendings3. destruct (handle_pendings3 t (z_out s)) as (o, l) eqn:H. intros E. injection E as <- <-.
  exists [O3Flush t], (map (ESent t) l ++ map (EExpired t) (given_up (o3_q (z_out s)) (o3_q o)))%list.
  split; [apply trans3_one; [exact T|cbn; now rewrite H]|].
  exists [], (map (ESent t) l ++ map (EExpired t) (given_up (o3_q (z_out s)) (o3_q o)))%list.
  split; auto. split; auto. split.
  - rewrite sents_app, sents_map, sents_expired, app_nil_r. now rewrite wire_of_sent3.
  - apply Forall_app. split; apply Forall_forall; intros e I; apply in_map_iff in I; destruct I as (? & <- & _); reflexivity.
Qed.

(** ** Deliveries *)
Lemma recv3_moves t m s s' r : 0 < t -> recv_publish3 t m s = (s', r) ->
  moves t (fun x => p3_topic x = rp3_topic m /\ p3_payload x = rp3_payload m /\ p3_qos x = qos_min (rp3_qos m) (rp3_sqos m))
    (z_out s) (z_out s') (flat_map wire3 (match r with Some (_, Some k) => [k] | _ => [] end)) /\
  match r with Some (_, Some k) => exists w, k = JPub w /\ wpid3 w = None | _ => True end.
Proof.
  intros T. unfold recv_publish3.
  destruct (aget _ _); [|intros E; injection E as <- <-; split; [apply moves3_refl|auto]].
  destruct (negb (qos_eqb _ L0)) eqn:Q.
  - destruct (out3_push t _ (z_out s)) as (o, full) eqn:P. intros E. injection E as <- <-. split; [|auto]. cbn [z_out zwith_out flat_map].
    set (x := Pub3 _ _ _ _) in *.
    eexists [O3Msg t x], _. split; [apply trans3_one; [|cbn; rewrite P; reflexivity]|].
    + cbn. split; [exact T|]. intros X. rewrite X in Q. discriminate.
    + exists [], [if full then EFull t (o3_next (z_out s)) x else EQueued t (o3_next (z_out s)) x].
      split; [reflexivity|]. split; [reflexivity|]. split; [destruct full; reflexivity|].
      constructor; [|constructor]. destruct full; repeat split.
  - destruct (negb (z_disc s)); [|intros E; injection E as <- <-; split; [apply moves3_refl|auto]].
    intros E. injection E as <- <-. cbn [flat_map wire3 app]. split; [|eexists; split; reflexivity].
    match goal with |- context [SPub ?x] => set (w := x) end.
    exists [O3Zero t w], [ESent t (SPub w)]. split; [apply trans3_one; reflexivity|].
    exists [], [ESent t (SPub w)]. repeat split. repeat constructor.
Qed.

Lemma normal3_moves t m s s' r : 0 < t -> handle_normal3 t m s = (s', r) ->
  moves t (is_message3 m) (z_out s) (z_out s') (flat_map wire3 (match r with Some (_, Some k) => [k] | _ => [] end)) /\
  match r with Some (_, Some k) => exists w, k = JPub w /\ wpid3 w = None | _ => True end.
Proof.
  intros T. unfold handle_normal3. destruct m as [m|m].
  - intros E. exact (recv3_moves _ _ _ _ _ T E).
  - destruct (n5_filters m); [intros E; injection E as <- <-; split; [apply moves3_refl|auto]|].
    intros E. exact (recv3_moves _ _ _ _ _ T E).
Qed.

(** ** SUBSCRIBE *)
Lemma retained3_moves t f o ms : 0 < t -> forall s s' out pend, send_retained3 t f o ms s = (s', out, pend) ->
  moves t (fun _ => True) (z_out s) (z_out s') (flat_map wire3 out).
Proof.
  intros T. induction ms as [|m ms IH]; intros s s' out pend E; cbn [send_retained3] in E.
  - injection E as <- <- <-. apply moves3_refl.
  - destruct (qos_leb _ _); [|now apply IH in E].
    destruct (recv_publish3 _ _ _) as (s1, res) eqn:R. destruct (send_retained3 t f o ms s1) as ((s2, o2), p2) eqn:E2.
    apply IH in E2. apply recv3_moves in R; auto. destruct R as (R & _). apply (moves3_imp _ _ _ (fun _ => True) _ (fun _ => True)) in R; auto.
    pose proof (moves3_app _ _ _ _ _ _ _ _ _ R E2) as X. rewrite <- flat_map_app in X.
    destruct res as [(q, k)|]; injection E as <- <- <-; [destruct k|]; exact X.
Qed.

Lemma subscribe_one3_moves t f q s g s' g' code out : 0 < t -> subscribe_one3 t f q s g = Ok3 (s', g', code, out) ->
  moves t (fun _ => True) (z_out s) (z_out s') (flat_map wire3 out).
Proof.
  intros T. unfold subscribe_one3. destruct (is_shared f); [discriminate|]. destruct (max_allowed_qos _); [|discriminate].
  destruct (rt_subscribe _ _ _ _) as (tt0, p). destruct p; [discriminate|].
  destruct (ret_get_matches _ _); [|discriminate].
  destruct (send_retained3 _ _ _ _ _) as ((s2, o2), pend) eqn:R. apply retained3_moves in R; auto.
  destruct pend; [|intros E; injection E as <- _ _ <-; exact R].
  destruct (pendings3 t s2) as (s3, o3) eqn:P. apply (pendings3_moves _ (fun _ => True)) in P; auto. intros E. injection E as <- _ _ <-.
  rewrite flat_map_app. eapply moves3_app; eauto.
Qed.
Lemma subscribe_all3_moves t fs : 0 < t -> forall s g s' g' r, subscribe_all3 t fs s g = (s', g', r) ->
  exists outs, moves t (fun _ => True) (z_out s) (z_out s') outs /\
    match r with Ok3 (_, out) => outs = flat_map wire3 out | _ => True end.
Proof.
  intros T. induction fs as [|(f, q) fs IH]; intros s g s' g' r E; cbn [subscribe_all3] in E.
  - injection E as <- <- <-. exists []. split; [apply moves3_refl|reflexivity].
  - destruct (subscribe_one3 _ _ _ _ _) as [(((s1, g1), code), o1)| |] eqn:S;
      [|injection E as <- _ <-; exists []; split; [apply moves3_refl|exact I]..].
    apply subscribe_one3_moves in S; auto.
    destruct (subscribe_all3 _ _ _ _) as ((s2, g2), r2) eqn:A.
    apply IH in A. destruct A as (outs & A & B). exists (flat_map wire3 o1 ++ outs)%list.
    destruct r2 as [(codes, o2)| |]; injection E as <- _ <-; (split; [eapply moves3_app; eauto|]); auto.
    now rewrite flat_map_app, B.
Qed.
Lemma unsubscribe_all3_out fs : forall s g s' g', unsubscribe_all3 fs s g = Done (s', g') -> z_out s' = z_out s.
Proof.
  induction fs as [|f fs IH]; intros s g s' g' E; cbn [unsubscribe_all3] in E.
  - now injection E as <- _.
  - destruct (rt_unsubscribe _ _ _) as (t, p). destruct p; [discriminate|]. apply IH in E. exact E.
Qed.
Lemma publish3_out hash w s g s' g' out : handle_publish3 hash w s g = Ok3 (s', g', out) ->
  z_out s' = z_out s /\ flat_map wire3 out = [].
Proof.
  unfold handle_publish3. destruct (String.eqb _ _); [discriminate|]. destruct (starts_with_dollar _); [discriminate|].
  destruct (_ && w3_dup w); [discriminate|].
  match goal with |- context [match ?c with None => Err3 | Some _ => _ end] => set (check := c) end.
  assert (C : forall s1, check = Some s1 -> z_out s1 = z_out s).
  { unfold check. intros s1. destruct (w3_qp w); try (intros E; injection E as <-; reflexivity). destruct (aget _ _).
    - destruct (negb _); [discriminate|]. destruct (negb _); [discriminate|]. intros E; injection E as <-; reflexivity.
    - intros E; injection E as <-; reflexivity. }
  destruct check as [s1|]; [|discriminate]. specialize (C _ eq_refl).
  assert (P : flat_map wire3 (publish_ack3 (w3_qp w)) = []) by (destruct (w3_qp w); reflexivity).
  destruct (_ && _).
  - intros E; injection E as <- _ <-. auto.
  - destruct (enc_len3 w); [|discriminate]. destruct (send_publish3 _ _ _) as [(s3, g3)|] eqn:SP; [|discriminate].
    intros E; injection E as <- _ <-. split; auto.
    unfold send_publish3 in SP. destruct (collect3 _); [|discriminate]. destruct (fold_left _ _ _). injection SP as <- _. exact C.
Qed.

(** ** One packet *)
Section Pkt.
  Variables (hash : wpub3 -> N) (cfg : config).

  Lemma after3_moves t q s s' out : 0 < t -> after_packet3 t s = (s', out) -> moves t q (z_out s) (z_out s') (flat_map wire3 out).
  Proof. intros T E. exact (pendings3_moves _ q _ _ _ T E). Qed.

  Definition told3 (t len : N) (x : in3) (s : sess3) (out : list pkt3) (ok : bool) : Prop :=
    answered3 x out /\ forall k p, ack3 cfg len x = Some (k, p) -> ok = snd (out3_on_queue (ack_queue k t p) (z_out s)).
  Lemma packet3_moves t len x s g s' g' out : 0 < t -> g_cfg g = cfg -> packet_step3 hash t len x s g = Go3 s' g' out ->
    moves3 t (ack3 cfg len x) (told3 t len x s out) (fun _ => by_subscribe3 x) (z_out s) (z_out s') (flat_map wire3 (after_answer3 x out)).
  Proof.
    intros T GC. unfold packet_step3, handle_packet3. rewrite GC. unfold told3, ack3.
    assert (AFT : forall s1 g1 o, (let '(s2, out') := after_packet3 t s1 in Go3 s2 g1 (o ++ out')) = Go3 s' g' out ->
      exists k, out = (o ++ k)%list /\ forall q, moves t q (z_out s1) (z_out s') (flat_map wire3 k)).
    { intros s1 g1 o. destruct (after_packet3 t s1) as (s2, k) eqn:A. intros E. injection E as <- _ <-. exists k. split; auto.
      intros q. now apply after3_moves. }
    assert (PLAIN : forall A s1 o k, z_out s1 = z_out s -> flat_map wire3 o = [] -> out = (o ++ k)%list ->
      (forall q, moves t q (z_out s1) (z_out s') (flat_map wire3 k)) ->
      moves3 t None A (fun _ => by_subscribe3 x) (z_out s) (z_out s') (flat_map wire3 out)).
    { intros A s1 o k E1 E2 -> M. rewrite flat_map_app, E2, <- E1. destruct (M (fun _ => by_subscribe3 x)) as (ops & evs & Tr & En).
      exists ops, evs. split; [exact Tr|exact En]. }
    destruct (cf_packet_server cfg <? len); [discriminate|].
    assert (ACK : forall k p (A : bool -> Prop) o1 ok, out3_on_queue (ack_queue k t p) (z_out s) = (o1, ok) -> A ok ->
      moves3 t (Some (k, p)) A (fun _ => by_subscribe3 x) (z_out s) o1 []).
    { intros k p A o1 ok E HA. exists [O3Ack k t p], [EAcked k t p ok]. split; [apply trans3_one; [exact T|cbn; now rewrite E]|].
      exists [EAcked k t p ok], []. split; [reflexivity|]. split; [eauto|]. split; [reflexivity|constructor]. }
    destruct x as [w|p|p|p|p|p fs|p fs| | |]; cbn [after_answer3].
    - destruct (handle_publish3 hash w s g) as [((s1, g1), o1)| |] eqn:P; [|discriminate..]. apply publish3_out in P. destruct P as (P1 & P2).
      intros E. apply AFT in E. destruct E as (k & E & M). eapply PLAIN; eauto.
    - unfold handle_puback3. intros E. apply AFT in E. destruct E as (k & -> & M). cbn [app].
      destruct (out3_on_queue (pend_complete p L1) (z_out s)) as (o1, ok) eqn:Q. change (flat_map wire3 k) with ([] ++ flat_map wire3 k)%list.
      eapply moves3_app; [|apply M]. eapply ACK; [exact Q|]. split; [exact I|]. intros ? ? X; injection X as <- <-. exact (eq_sym (f_equal snd Q)).
    - unfold handle_pubrec3. destruct (out3_on_queue (pend_pubrec t p) (z_out s)) as (o1, ok) eqn:Q.
      intros E. apply AFT in E. destruct E as (k & -> & M). cbn [app tl]. change (flat_map wire3 k) with ([] ++ flat_map wire3 k)%list.
      eapply moves3_app; [|apply M]. eapply ACK; [exact Q|]. split; [exists k; reflexivity|]. intros ? ? X; injection X as <- <-. exact (eq_sym (f_equal snd Q)).
    - destruct (handle_pubrel3 p s) as [(s1, k1)|] eqn:P; [|discriminate]. unfold handle_pubrel3 in P.
      destruct (aget p (z_qos2 s)); [|discriminate]. injection P as <- <-.
      intros E; apply AFT in E; destruct E as (k & E & M); (eapply PLAIN; [| |exact E|exact M]); reflexivity.
    - unfold handle_pubcomp3. intros E. apply AFT in E. destruct E as (k & -> & M). cbn [app].
      destruct (out3_on_queue (pend_complete p L2) (z_out s)) as (o1, ok) eqn:Q. change (flat_map wire3 k) with ([] ++ flat_map wire3 k)%list.
      eapply moves3_app; [|apply M]. eapply ACK; [exact Q|]. split; [exact I|]. intros ? ? X; injection X as <- <-. exact (eq_sym (f_equal snd Q)).
    - unfold handle_subscribe3. destruct (subscribe_all3 t fs s g) as ((s1, g1), r) eqn:P. apply subscribe_all3_moves in P; auto.
      destruct P as (outs & P & B). destruct r as [(codes, o1)| |]; [|discriminate..]. subst outs.
      intros E. apply AFT in E. destruct E as (k & -> & M). rewrite flat_map_app.
      eapply moves3_app; [|apply M]. rewrite flat_map_app. cbn [flat_map wire3 app]. rewrite app_nil_r.
      destruct P as (ops & evs & Tr & En). exists ops, evs. split; auto.
      refine (entry_none _ _ _ _ _ _ (entry_imp _ _ _ (fun _ => True) _ _ _ _ _ (fun _ _ => I) En)).
      intros m _. exists p, fs. reflexivity.
    - unfold handle_unsubscribe3. destruct (unsubscribe_all3 fs s g) as [(s1, g1)|] eqn:P; [|discriminate]. apply unsubscribe_all3_out in P.
      intros E. apply AFT in E. destruct E as (k & E & M). eapply PLAIN; eauto; reflexivity.
    - intros E. apply AFT in E. destruct E as (k & E & M). eapply PLAIN; eauto; reflexivity.
    - intros E. apply AFT in E. destruct E as (k & E & M). eapply PLAIN; eauto; reflexivity.
    - discriminate.
  Qed.
  Lemma stop3_moves t len x s g s' g' : 0 < t -> g_cfg g = cfg -> packet_step3 hash t len x s g = Stop3 s' g' ->
    ack3 cfg len x = None /\ exists outs, moves t (fun _ => by_subscribe3 x) (z_out s) (z_out s') outs /\ (by_subscribe3 x \/ outs = []).
  Proof.
    intros T GC. unfold packet_step3, handle_packet3. rewrite GC. unfold ack3.
    assert (SAME : s' = s -> exists outs, moves t (fun _ => by_subscribe3 x) (z_out s) (z_out s') outs /\ (by_subscribe3 x \/ outs = [])).
    { intros ->. exists []. split; [apply moves3_refl|auto]. }
    destruct (cf_packet_server cfg <? len); [intros E; injection E as <- _; auto|].
    assert (NG : forall s1 g1 o, (let '(s2, out') := after_packet3 t s1 in Go3 s2 g1 (o ++ out')) = Stop3 s' g' -> False).
    { intros s1 g1 o. destruct (after_packet3 t s1). discriminate. }
    destruct x as [w|p|p|p|p|p fs|p fs| | |].
    - destruct (handle_publish3 hash w s g) as [((s1, g1), o1)| |]; [intros E; now apply NG in E|intros E; injection E as <- _; auto|discriminate].
    - intros E; now apply NG in E.
    - unfold handle_pubrec3. intros E; now apply NG in E.
    - destruct (handle_pubrel3 p s) as [(s1, k1)|]; [intros E; now apply NG in E|intros E; injection E as <- _; auto].
    - intros E; now apply NG in E.
    - unfold handle_subscribe3. destruct (subscribe_all3 t fs s g) as ((s1, g1), r) eqn:P. apply subscribe_all3_moves in P; auto.
      destruct P as (outs & P & B). destruct r as [(codes, o1)| |]; [intros E; now apply NG in E| |discriminate].
      intros E. injection E as <- _. split; auto. exists outs. assert (BS : by_subscribe3 (YSub p fs)) by (exists p, fs; reflexivity).
      split; [|auto]. eapply moves3_imp; [|intros ? H; exact H|exact P]. auto.
    - unfold handle_unsubscribe3. destruct (unsubscribe_all3 fs s g) as [(s1, g1)|]; [intros E; now apply NG in E|discriminate].
    - intros E; now apply NG in E.
    - intros E; now apply NG in E.
    - intros E; injection E as <- _; auto.
  Qed.

  (** ** Runs *)
  Definition linked3 (s : sess3) (l : list (sev3 * list pkt3)) : Prop :=
    exists ops log, Forall op3_ok ops /\
      run3 (cf_inflight_client cfg) (cf_max_pending cfg) (cf_inflight_timeout cfg) ops = (z_out s, log) /\
      logs3 cfg l log.

  Lemma linked3_step s l e s' out ops evs : linked3 s l -> trans3 (z_out s) ops (z_out s') evs -> logged3 cfg e out evs ->
    linked3 s' (l ++ [(e, out)]).
  Proof.
    intros (ops0 & log & F & R & L) (F1 & E1) LG.
    exists (ops0 ++ ops)%list, (log ++ evs)%list. split; [now apply Forall_app|]. split.
    - unfold run3 in *. rewrite fold_left_app, R. now apply run3_from.
    - now constructor.
  Qed.
  Lemma linked3_moves s l e s' out t ack A q outs : linked3 s l -> moves3 t ack A q (z_out s) (z_out s') outs ->
    (forall evs, entry t ack A outs q evs -> logged3 cfg e out evs) -> linked3 s' (l ++ [(e, out)]).
  Proof. intros L (ops & evs & Tr & En) H. eapply linked3_step; eauto. Qed.

  Lemma take3_out s now s0 s' present code : prepared3 cfg s0 ->
    session_connect3 now (RcPresent3 (snd (build_state3 s))) s0 = (s', Connack3 present code) ->
    z_out s' = if present then out3_resume (z_out s) else out3_new (cf_inflight_client cfg) (cf_max_pending cfg) (cf_inflight_timeout cfg).
  Proof.
    intros (uuid & t0 & p & ->). unfold session_connect3. destruct (_ && _); intros E; injection E as <- <- _; reflexivity.
  Qed.

  Lemma run_linked3 s l : srun3 hash cfg s l -> Forall clocked3 l -> linked3 s l.
  Proof.
    induction 1 as [s H|s l e s' out H IH S]; intros C.
    - destruct H as [now s0 id s k (uuid & t0 & p & ->) E]. unfold session_connect3 in E. injection E as <- _.
      exists [], [EConn (cf_inflight_client cfg)]. split; [constructor|]. split; [reflexivity|constructor].
    - apply Forall_app in C. destruct C as (C & CE). inversion CE as [|? ? CK _]; subst. specialize (IH C).
      destruct S as [s now len x g s' g' out D WF (GC & _) E|s now len x g s' g' D WF (GC & _) E|s now m s' r E|s b n|s now s' out E|s now m s' r E|s conn last w|s now s0 s' present code PR E].
      + apply packet3_moves in E; auto. eapply linked3_moves; eauto. intros evs En. cbn. eexists. split; [|left; reflexivity].
        refine (entry_imp _ _ _ _ _ _ _ _ (fun _ H => H) _ En). intros ok H0. apply H0.
      + apply stop3_moves in E; auto. destruct E as (AK & outs & M & B). eapply linked3_moves; [exact IH|exact M|].
        intros evs En. cbn. rewrite AK. exists outs. split; [exact (entry_none _ _ _ _ _ _ En)|]. destruct B as [B| ->]; [auto|].
        left. destruct x; reflexivity.
      + apply normal3_moves in E; auto. destruct E as (E & _). eapply linked3_moves; eauto.
      + eapply linked3_step; [exact IH|apply trans3_nil|split; reflexivity].
      + apply (pendings3_moves _ (fun _ => False)) in E; auto. eapply linked3_moves; eauto.
      + apply normal3_moves in E; auto. destruct E as (E & W).
        eapply linked3_moves; [exact IH|exact E|].
        intros evs En. split; [reflexivity|]. eexists. split; [|exact En]. destruct r as [(q, [k|])|]; try constructor.
        * destruct W as (w & -> & W). repeat constructor; exact W.
      + eapply linked3_step; [exact IH|apply trans3_nil|split; reflexivity].
      + apply take3_out in E; auto. destruct present.
        * eapply (linked3_step _ _ _ _ _ [O3Resume]); [exact IH| |split; reflexivity].
          split; [repeat constructor|]. cbn. rewrite E. repeat f_equal.
          destruct IH as (ops & log & F & R & L). pose proof (run3_rm (cf_inflight_client cfg) (cf_max_pending cfg) (cf_inflight_timeout cfg) ops) as Q.
          rewrite R in Q. exact Q.
        * destruct IH as (ops & log & F & R & L). exists [], [EConn (cf_inflight_client cfg)].
          split; [constructor|]. split; [rewrite E; reflexivity|]. eapply lg3_clean; eauto.
  Qed.
End Pkt.
