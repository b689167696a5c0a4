(** The outgoing side of a v5 session run is a run of OutSpec. *)
From Coq Require Import List Bool String NArith Lia.
From Verif Require Import Base BaseLemmas TopicModel MsgModel PendingModel AliasModel OutModel RouteModel RetainModel GlobModel
  Sess5Model Sess3Model ConnModel OutSpec InSpec InProofs InRun LinkSpec.
Import ListNotations.
Local Open Scope N_scope.

Section Entry.
  Context {M W : Type}.
  Lemma sents_app (a b : list (oev M W)) : sents (a ++ b) = (sents a ++ sents b)%list.
  Proof. unfold sents. now rewrite flat_map_app. Qed.
  Lemma entry_app t ack (A : bool -> Prop) o1 o2 (q : M -> Prop) (e1 e2 : list (oev M W)) :
    entry t ack A o1 q e1 -> entry t None (fun _ => True) o2 q e2 -> entry t ack A (o1 ++ o2) q (e1 ++ e2).
  Proof.
    intros (f1 & r1 & -> & H1 & S1 & F1) (f2 & r2 & -> & -> & S2 & F2). exists f1, (r1 ++ r2)%list.
    split; [cbn [app]; now rewrite app_assoc|]. split; [auto|]. split; [now rewrite sents_app, S1, S2, map_app|]. now apply Forall_app.
  Qed.
  Lemma entry_imp t ack (A B : bool -> Prop) o (q q' : M -> Prop) (e : list (oev M W)) :
    (forall m, q m -> q' m) -> (forall ok, A ok -> B ok) -> entry t ack A o q e -> entry t ack B o q' e.
  Proof.
    intros Q AB (f & r & -> & H & S & F). exists f, r. split; auto. split; [|split; auto].
    - destruct ack as [(k, p)|]; auto. destruct H as (ok & -> & H). eauto.
    - eapply Forall_impl; [|exact F]. intros []; intuition.
  Qed.
  Lemma entry_none t (A B : bool -> Prop) o (q : M -> Prop) (e : list (oev M W)) : entry t None A o q e -> entry t None B o q e.
  Proof. intros (f & r & -> & H & S & F). exists f, r. auto. Qed.
  Lemma entry_nil t (q : M -> Prop) : @entry M W t None (fun _ => True) [] q [].
  Proof. exists [], []. repeat split; constructor. Qed.
  Lemma sents_map t (l : list (sent W)) : sents (map (@ESent M W t) l) = map (pair t) l.
  Proof. induction l; cbn; f_equal; auto. Qed.
  Lemma sents_expired t (l : list pid) : sents (map (@EExpired M W t) l) = [].
  Proof. induction l; cbn; auto. Qed.
End Entry.

(** ** Moves of the outgoing side *)
Definition trans5 (o : out5) (ops : list op5) (o' : out5) (evs : list (oev pub5 wpub5)) : Prop :=
  Forall op5_ok ops /\ fold_left run5_step ops (o, []) = (o', evs).

Lemma run5_from ops : forall o log o' evs, fold_left run5_step ops (o, []) = (o', evs) ->
  fold_left run5_step ops (o, log) = (o', (log ++ evs)%list).
Proof.
  induction ops as [|op ops IH]; intros o log o' evs E.
  - cbn in E |- *. injection E as <- <-. now rewrite app_nil_r.
  - cbn [fold_left] in E |- *. unfold run5_step in E at 2. unfold run5_step at 2. destruct (step5 o op) as (o1, e1).
    cbn [app] in E. destruct (fold_left run5_step ops (o1, [])) as (o2, e2) eqn:F.
    rewrite (IH _ _ _ _ F) in E. injection E as <- <-. rewrite (IH _ _ _ _ F). now rewrite app_assoc.
Qed.
Lemma trans5_app o a o1 e1 b o2 e2 : trans5 o a o1 e1 -> trans5 o1 b o2 e2 -> trans5 o (a ++ b) o2 (e1 ++ e2).
Proof.
  intros (F1 & E1) (F2 & E2). split; [now apply Forall_app|]. rewrite fold_left_app, E1. now apply run5_from.
Qed.
Lemma trans5_nil o : trans5 o [] o [].
Proof. split; [constructor|reflexivity]. Qed.
Lemma trans5_one o op o' evs : op5_ok op -> step5 o op = (o', evs) -> trans5 o [op] o' evs.
Proof. intros H E. split; [now repeat constructor|]. cbn. now rewrite E. Qed.

(** The queue moves from [o] to [o'], writing [outs]. *)
Definition moves5 (t : N) (ack : option (ackkind * pid)) (A : bool -> Prop) (q : pub5 -> Prop) (o o' : out5) (outs : list (sent wpub5)) : Prop :=
  exists ops evs, trans5 o ops o' evs /\ entry t ack A outs q evs.
Notation moves := (fun t q => moves5 t None (fun _ => True) q).

Lemma moves_refl t q o : moves t q o o [].
Proof. exists [], []. split; [apply trans5_nil|apply entry_nil]. Qed.
Lemma moves_app t ack A q o o1 o2 a b : moves5 t ack A q o o1 a -> moves t q o1 o2 b -> moves5 t ack A q o o2 (a ++ b).
Proof.
  intros (p1 & e1 & T1 & E1) (p2 & e2 & T2 & E2). exists (p1 ++ p2)%list, (e1 ++ e2)%list.
  split; [eapply trans5_app; eauto|now apply entry_app].
Qed.
Lemma moves_imp t ack (A B : bool -> Prop) (q q' : pub5 -> Prop) o o' a : (forall m, q m -> q' m) -> (forall ok, A ok -> B ok) ->
  moves5 t ack A q o o' a -> moves5 t ack B q' o o' a.
Proof. intros H1 H2 (p & e & T & E). exists p, e. split; auto. eapply entry_imp; eauto. Qed.

Lemma wire_of_sent l : flat_map wire5 (map of_sent5 l) = l.
Proof. induction l as [|[w|p] l IH]; cbn; f_equal; auto. Qed.

Lemma pendings_moves t q s s' out : 0 < t -> pendings5 t s = (s', out) -> moves t q (s_out s) (s_out s') (flat_map wire5 out).
Proof.
  intros T. unfold pendings5. destruct (handle_pendings5 t (s_out s)) as (o, l) eqn:H. intros E. injection E as <- <-.
  exists [O5Flush t], (map (ESent t) l ++ map (EExpired t) (given_up (o5_q (s_out s)) (o5_q o)))%list.
  split; [apply trans5_one; [exact T|cbn; now rewrite H]|].
  exists [], (map (ESent t) l ++ map (EExpired t) (given_up (o5_q (s_out s)) (o5_q o)))%list.
  split; auto. split; auto. split.
  - rewrite sents_app, sents_map, sents_expired, app_nil_r. now rewrite wire_of_sent.
  - apply Forall_app. split; apply Forall_forall; intros e I; apply in_map_iff in I; destruct I as (? & <- & _); reflexivity.
Qed.

(** ** Deliveries *)
Lemma recv_moves t m s s' r : 0 < t -> recv_publish5 t m s = (s', r) ->
  moves t (fun x => p5_topic x = rp_topic m /\ p5_payload x = rp_payload m /\ p5_qos x = qos_min (rp_qos m) (rp_sqos m))
    (s_out s) (s_out s') (flat_map wire5 (match r with Some (_, Some k) => [k] | _ => [] end)) /\
  match r with Some (_, Some k) => exists w, k = KPub w /\ wpid5 w = None | _ => True end.
Proof.
  intros T. unfold recv_publish5.
  destruct (match rp_ids m with Precomputed l => Some l | Lookup f => _ end) as [l|]; [|intros E; injection E as <- <-; split; [apply moves_refl|auto]].
  destruct (negb (qos_eqb _ L0)) eqn:Q.
  - destruct (s_maxpkt s <? rp_len m); [intros E; injection E as <- <-; split; [apply moves_refl|auto]|].
    destruct (out5_push t _ (s_out s)) as (o, full) eqn:P. intros E. injection E as <- <-. split; [|auto]. cbn [s_out with_out flat_map].
    set (x := Pub5 _ _ _ _ _) in *.
    eexists [O5Msg t x], _. split; [apply trans5_one; [|cbn; rewrite P; reflexivity]|].
    + cbn. split; [exact T|]. intros X. rewrite X in Q. discriminate.
    + exists [], [if full then EFull t (o5_next (s_out s)) x else EQueued t (o5_next (s_out s)) x].
      split; [reflexivity|]. split; [reflexivity|]. split; [destruct full; reflexivity|].
      constructor; [|constructor]. destruct full; repeat split.
  - destruct (negb (s_cdisc s) && negb (s_sdisc s)); [|intros E; injection E as <- <-; split; [apply moves_refl|auto]].
    destruct (s_maxpkt s <? _); [intros E; injection E as <- <-; split; [apply moves_refl|auto]|].
    destruct (out5_qos0 _ _ _ _ (s_out s)) as (o, w) eqn:P. intros E. injection E as <- <-. cbn [s_out with_out flat_map wire5 app].
    split.
    + eexists [O5Zero t _ _ _ _], [ESent t (SPub w)]. split; [apply trans5_one; [exact I|cbn; rewrite P; reflexivity]|].
      exists [], [ESent t (SPub w)]. repeat split. repeat constructor.
    + exists w. split; auto. unfold out5_qos0 in P. destruct (apply_alias _ _ _ _) as ((a, b), c). injection P as _ <-. reflexivity.
Qed.

Lemma normal_moves t c m s s' r : 0 < t -> handle_normal5 t c m s = (s', r) ->
  moves t (is_message5 m) (s_out s) (s_out s') (flat_map wire5 (match r with Some (_, Some k) => [k] | _ => [] end)) /\
  match r with Some (_, Some k) => exists w, k = KPub w /\ wpid5 w = None | _ => True end.
Proof.
  intros T. unfold handle_normal5. destruct m as [m|m].
  - destruct (aget _ _); [|intros E; injection E as <- <-; split; [apply moves_refl|auto]]. intros E. exact (recv_moves _ _ _ _ _ T E).
  - destruct (filters_info _ _) as ((has, rap), ids). destruct has; [|intros E; injection E as <- <-; split; [apply moves_refl|auto]].
    intros E. exact (recv_moves _ _ _ _ _ T E).
Qed.

(** ** SUBSCRIBE *)
Lemma retained_moves t f o ms : 0 < t -> forall s s' out pend, send_retained t f o ms s = (s', out, pend) ->
  moves t (fun _ => True) (s_out s) (s_out s') (flat_map wire5 out).
Proof.
  intros T. induction ms as [|m ms IH]; intros s s' out pend E; cbn [send_retained] in E.
  - injection E as <- <- <-. apply moves_refl.
  - destruct (so_no_local o && _); [now apply IH in E|].
    destruct (recv_publish5 _ _ _) as (s1, res) eqn:R. destruct (send_retained t f o ms s1) as ((s2, o2), p2) eqn:E2.
    apply IH in E2. apply recv_moves in R; auto. destruct R as (R & _). apply (moves_imp _ _ _ (fun _ => True) _ (fun _ => True)) in R; auto.
    pose proof (moves_app _ _ _ _ _ _ _ _ _ R E2) as X. rewrite <- flat_map_app in X.
    destruct res as [(q, k)|]; injection E as <- <- <-; [destruct k|]; exact X.
Qed.

Lemma subscribe_one_moves t id f o s g s' g' code out : 0 < t -> subscribe_one t id f o s g = Done (s', g', code, out) ->
  moves t (fun _ => True) (s_out s) (s_out s') (flat_map wire5 out).
Proof.
  intros T. unfold subscribe_one. destruct (max_allowed_qos _); [|discriminate].
  destruct (_ <? 0x80); [|intros E; injection E as <- _ _ <-; apply moves_refl].
  destruct (rt_subscribe _ _ _ _) as (tt0, p). destruct p; [discriminate|].
  destruct (_ && _ && _); [|intros E; injection E as <- _ _ <-; apply moves_refl].
  destruct (ret_get_matches _ _); [|discriminate].
  destruct (send_retained _ _ _ _ _) as ((s2, o2), pend) eqn:R. apply retained_moves in R; auto.
  destruct pend; [|intros E; injection E as <- _ _ <-; exact R].
  destruct (pendings5 t s2) as (s3, o3) eqn:P. apply (pendings_moves _ (fun _ => True)) in P; auto. intros E. injection E as <- _ _ <-.
  rewrite flat_map_app. eapply moves_app; eauto.
Qed.
Lemma subscribe_all_moves t id fs : 0 < t -> forall s g s' g' codes out, subscribe_all t id fs s g = Done (s', g', codes, out) ->
  moves t (fun _ => True) (s_out s) (s_out s') (flat_map wire5 out).
Proof.
  intros T. induction fs as [|(f, o) fs IH]; intros s g s' g' codes out E; cbn [subscribe_all] in E.
  - injection E as <- <- <- <-. apply moves_refl.
  - destruct (subscribe_one _ _ _ _ _ _) as [(((s1, g1), code), o1)|] eqn:S; [|discriminate].
    apply subscribe_one_moves in S; auto.
    destruct (subscribe_all _ _ _ _ _) as [(((s2, g2), cs), o2)|] eqn:A; [|discriminate].
    apply IH in A. injection E as <- _ _ <-. rewrite flat_map_app. eapply moves_app; eauto.
Qed.
Lemma unsubscribe_all_out fs : forall s g s' g' codes, unsubscribe_all fs s g = Done (s', g', codes) -> s_out s' = s_out s.
Proof.
  induction fs as [|f fs IH]; intros s g s' g' codes E; cbn [unsubscribe_all] in E.
  - now injection E as <- _ _.
  - destruct (rt_unsubscribe _ _ _) as (t, p). destruct p; [discriminate|].
    destruct (unsubscribe_all _ _ _) as [((s2, g2), cs)|] eqn:A; [|discriminate]. apply IH in A. injection E as <- _ _. exact A.
Qed.

Definition same_out (s s' : sess5) : Prop := s_out s' = s_out s /\ s_rmax s' = s_rmax s.
Lemma same_out_refl s : same_out s s. Proof. split; reflexivity. Qed.
Lemma publish_out hash pick w s g s' g' out : handle_publish5 hash pick w s g = Done (s', g', out) ->
  same_out s s' /\ flat_map wire5 out = [].
Proof.
  unfold handle_publish5. cbn [error_disconnect].
  destruct (starts_with_dollar _); [intros E; injection E as <- _ <-; split; [try exact R; split; reflexivity|reflexivity]|].
  destruct (_ && _); [intros E; injection E as <- _ <-; split; [try exact R; split; reflexivity|reflexivity]|].
  assert (R : forall s1 r, resolve_topic (cf_alias_max (g_cfg g)) w s = (s1, r) -> same_out s s1).
  { unfold resolve_topic. intros s1 r. destruct (pp_alias _).
    - destruct (_ =? 0); [intros E; injection E as <- _; split; reflexivity|]. destruct (_ <? _); [intros E; injection E as <- _; split; reflexivity|].
      destruct (String.eqb _ _); [|intros E; injection E as <- _; split; reflexivity]. destruct (aget _ _); intros E; injection E as <- _; split; reflexivity.
    - destruct (String.eqb _ _); intros E; injection E as <- _; split; reflexivity. }
  destruct (resolve_topic _ _ _) as (s1, [topic|(code, reason)]) eqn:RT; specialize (R _ _ eq_refl);
    [|intros E; injection E as <- _ <-; split; [try exact R; split; reflexivity|reflexivity]].
  destruct (negb (is_nil _)); [intros E; injection E as <- _ <-; split; [try exact R; split; reflexivity|reflexivity]|].
  assert (C : forall s2 v, check_qos2 hash (cf_inflight_server (g_cfg g)) w s1 = (s2, v) -> same_out s1 s2).
  { unfold check_qos2. intros s2 v. destruct (w5_qp w); try (intros E; injection E as <- _; split; reflexivity). destruct (aget _ _).
    - destruct (negb _); [intros E; injection E as <- _; split; reflexivity|]. destruct (negb _); intros E; injection E as <- _; split; reflexivity.
    - destruct (_ <=? _); intros E; injection E as <- _; split; reflexivity. }
  destruct (check_qos2 _ _ _ _) as (s2, v) eqn:CQ; specialize (C _ _ eq_refl). assert (C2 : same_out s s2) by (destruct R, C; split; congruence).
  destruct v; [|intros E; injection E as <- _ <-; split; [exact C2|auto]..].
  destruct (_ && _).
  - intros E; injection E as <- _ <-. split; [exact C2|]. destruct (w5_qp w); reflexivity.
  - destruct (enc_len5 w); [|discriminate]. destruct (send_publish5 _ _ _ _) as [((s3, g3), n0)|] eqn:SP; [|discriminate].
    intros E; injection E as <- _ <-. split.
    + unfold send_publish5 in SP. destruct (collect_senders _ _ _ _); [|discriminate]. destruct (fold_left _ _ _). injection SP as <- _ _. exact C2.
    + destruct (w5_qp w); reflexivity.
Qed.

(** ** One packet *)
Section Pkt.
  Variables (hash : wpub5 -> N) (cfg : config).

  Lemma after_moves t q s s' out : 0 < t -> after_packet5 t s = (s', out) -> moves t q (s_out s) (s_out s') (flat_map wire5 out).
  Proof.
    intros T. unfold after_packet5. destruct (is_disconnected5 s); [intros E; injection E as <- <-; apply moves_refl|].
    intros E. apply (pendings_moves _ q) in E; auto.
  Qed.

  Lemma disconnect_out code expiry s s' out : handle_disconnect5 code expiry s = (s', out) -> same_out s s' /\ flat_map wire5 out = [].
  Proof.
    unfold handle_disconnect5. destruct expiry as [v|]; [destruct ((0 <? v) && (s_expiry s =? 0))|]; cbn [error_disconnect];
      intros E; injection E as <- <-; destruct (code =? 0); repeat split.
  Qed.
  Lemma subscribe_out t p id fs s g s' g' out : 0 < t -> handle_subscribe5 t p id fs s g = Done (s', g', out) ->
    moves t (fun _ => True) (s_out s) (s_out s') (flat_map wire5 out).
  Proof.
    intros T. unfold handle_subscribe5.
    assert (G : (if negb (cf_subid (g_cfg g)) && match id with Some _ => true | None => false end
        then Done (s, g, [KSuback p (map (fun _ => RC_subid_not_supported) fs)])
        else match subscribe_all t id fs s g with
          | Panic => Panic
          | Done (s', g', codes, out) => Done (s', g', (out ++ [KSuback p codes])%list)
          end) = Done (s', g', out) -> moves t (fun _ => True) (s_out s) (s_out s') (flat_map wire5 out)).
    { destruct (_ && _); [intros E; injection E as <- _ <-; apply moves_refl|].
      destruct (subscribe_all _ _ _ _ _) as [(((s2, g2), cs), o2)|] eqn:A; [|discriminate]. apply subscribe_all_moves in A; auto.
      intros E. injection E as <- _ <-. rewrite flat_map_app. cbn. now rewrite app_nil_r. }
    destruct id as [[|i]|]; [intros E; injection E as <- _ <-; apply moves_refl|exact G..].
  Qed.

  (** What is found about an acknowledgement, and how it is answered. *)
  Definition told5 (t len : N) (x : in5) (s : sess5) (out : list pkt5) (ok : bool) : Prop :=
    answered5 x out ok /\ forall k p, ack5 cfg len x = Some (k, p) -> ok = snd (out5_on_queue (ack_queue k t p) (s_out s)).
  Lemma packet_moves pick t len x s g s' g' out : 0 < t -> g_cfg g = cfg -> packet_step5 hash pick t len x s g = Go s' g' out ->
    moves5 t (ack5 cfg len x) (told5 t len x s out) (fun _ => by_subscribe5 x) (s_out s) (s_out s') (flat_map wire5 (after_answer5 x out)).
  Proof.
    intros T GC. unfold packet_step5, handle_packet5. rewrite GC. unfold told5, ack5.
    assert (AFT : forall s1 g1 o, (let '(s2, out') := after_packet5 t s1 in Go s2 g1 (o ++ out')) = Go s' g' out ->
      exists k, out = (o ++ k)%list /\ forall q, moves t q (s_out s1) (s_out s') (flat_map wire5 k)).
    { intros s1 g1 o. destruct (after_packet5 t s1) as (s2, k) eqn:A. intros E. injection E as <- _ <-. exists k. split; auto.
      intros q. now apply after_moves. }
    assert (PLAIN : forall A s1 o k, s_out s1 = s_out s -> flat_map wire5 o = [] -> out = (o ++ k)%list ->
      (forall q, moves t q (s_out s1) (s_out s') (flat_map wire5 k)) ->
      moves5 t None A (fun _ => by_subscribe5 x) (s_out s) (s_out s') (flat_map wire5 out)).
    { intros A s1 o k E1 E2 -> M. rewrite flat_map_app, E2, <- E1. destruct (M (fun _ => by_subscribe5 x)) as (ops & evs & Tr & En).
      exists ops, evs. split; [exact Tr|exact En]. }
    destruct (cf_packet_server cfg <? len).
    { cbn [error_disconnect]. intros E. apply AFT in E. destruct E as (k & -> & M).
      destruct x; cbn [after_answer5]; (eapply PLAIN; [| | |exact M]; try reflexivity; reflexivity). }
    assert (ACK : forall k p (A : bool -> Prop) o1 ok, out5_on_queue (ack_queue k t p) (s_out s) = (o1, ok) -> A ok ->
      moves5 t (Some (k, p)) A (fun _ => by_subscribe5 x) (s_out s) o1 []).
    { intros k p A o1 ok E HA. exists [O5Ack k t p], [EAcked k t p ok]. split; [apply trans5_one; [exact T|cbn; now rewrite E]|].
      exists [EAcked k t p ok], []. split; [reflexivity|]. split; [eauto|]. split; [reflexivity|constructor]. }
    destruct x as [w|p|p|p|p|p id fs|p fs| |code expiry|]; cbn [after_answer5].
    - destruct (handle_publish5 hash pick w s g) as [((s1, g1), o1)|] eqn:P; [|discriminate]. apply publish_out in P. destruct P as ((P1 & _) & P2).
      intros E. apply AFT in E. destruct E as (k & E & M). eapply PLAIN; eauto.
    - unfold handle_puback5. intros E. apply AFT in E. destruct E as (k & -> & M). cbn [app].
      destruct (out5_on_queue (pend_complete p L1) (s_out s)) as (o1, ok) eqn:Q. change (flat_map wire5 k) with ([] ++ flat_map wire5 k)%list.
      eapply moves_app; [|apply M]. eapply ACK; [exact Q|]. split; [exact I|]. intros ? ? X; injection X as <- <-. exact (eq_sym (f_equal snd Q)).
    - unfold handle_pubrec5. destruct (out5_on_queue (pend_pubrec t p) (s_out s)) as (o1, ok) eqn:Q.
      intros E. apply AFT in E. destruct E as (k & -> & M). cbn [app tl]. change (flat_map wire5 k) with ([] ++ flat_map wire5 k)%list.
      eapply moves_app; [|apply M]. eapply ACK; [exact Q|]. split; [exists k; destruct ok; reflexivity|]. intros ? ? X; injection X as <- <-. exact (eq_sym (f_equal snd Q)).
    - unfold handle_pubrel5. destruct (aget p (s_qos2 s)); intros E; apply AFT in E; destruct E as (k & E & M); (eapply PLAIN; [| |exact E|exact M]); reflexivity.
    - unfold handle_pubcomp5. intros E. apply AFT in E. destruct E as (k & -> & M). cbn [app].
      destruct (out5_on_queue (pend_complete p L2) (s_out s)) as (o1, ok) eqn:Q. change (flat_map wire5 k) with ([] ++ flat_map wire5 k)%list.
      eapply moves_app; [|apply M]. eapply ACK; [exact Q|]. split; [exact I|]. intros ? ? X; injection X as <- <-. exact (eq_sym (f_equal snd Q)).
    - destruct (handle_subscribe5 t p id fs s g) as [((s1, g1), o1)|] eqn:P; [|discriminate]. apply subscribe_out in P; auto.
      intros E. apply AFT in E. destruct E as (k & -> & M). rewrite flat_map_app.
      eapply moves_app; [|apply M]. destruct P as (ops & evs & Tr & En). exists ops, evs. split; auto.
      refine (entry_none _ _ _ _ _ _ (entry_imp _ _ _ (fun _ => True) _ _ _ _ _ (fun _ _ => I) En)).
      intros m _. exists p, id, fs. reflexivity.
    - unfold handle_unsubscribe5. destruct (unsubscribe_all fs s g) as [((s1, g1), cs)|] eqn:P; [|discriminate]. apply unsubscribe_all_out in P.
      intros E. apply AFT in E. destruct E as (k & E & M). eapply PLAIN; eauto; reflexivity.
    - intros E. apply AFT in E. destruct E as (k & E & M). eapply PLAIN; eauto; reflexivity.
    - destruct (handle_disconnect5 code expiry s) as (s1, o1) eqn:P. apply disconnect_out in P. destruct P as ((P1 & _) & P2).
      intros E. apply AFT in E. destruct E as (k & E & M). eapply PLAIN; eauto.
    - discriminate.
  Qed.

  (** ** Runs *)
  Definition linked5 (s : sess5) (l : list (sev5 * list pkt5)) : Prop :=
    exists rm amax ops log, Forall op5_ok ops /\
      run5 rm (cf_max_pending cfg) (cf_inflight_timeout cfg) amax ops = (s_out s, log) /\
      logs5 cfg l log /\ receive_max log = s_rmax s.

  Lemma receive_max_app (log evs : list (oev pub5 wpub5)) : Forall (fun e => match e with EConn _ => False | _ => True end) evs ->
    receive_max (log ++ evs) = receive_max log.
  Proof.
    unfold receive_max. rewrite fold_left_app. generalize (fold_left (fun rm e => match e with EConn rm' => rm' | _ => rm end) log 0).
    induction evs as [|e evs IH]; intros n F; [reflexivity|]. inversion F as [|? ? F1 F2]; subst. cbn [fold_left]. destruct e; auto; contradiction.
  Qed.
  Lemma entry_conn t ack (A : bool -> Prop) o (q : pub5 -> Prop) (e : list (oev pub5 wpub5)) : entry t ack A o q e ->
    Forall (fun e => match e with EConn _ => False | _ => True end) e.
  Proof.
    intros (f & r & -> & H & _ & F). apply Forall_app. split.
    - destruct ack as [(k, p)|]; [destruct H as (ok & -> & _)|subst f]; repeat constructor.
    - eapply Forall_impl; [|exact F]. intros []; intuition.
  Qed.

  Lemma linked_step s l e s' out ops evs : linked5 s l -> trans5 (s_out s) ops (s_out s') evs -> logged5 cfg e out evs ->
    Forall (fun e => match e with EConn _ => False | _ => True end) evs -> s_rmax s' = s_rmax s -> linked5 s' (l ++ [(e, out)]).
  Proof.
    intros (rm & amax & ops0 & log & F & R & L & X) (F1 & E1) LG NC SR.
    exists rm, amax, (ops0 ++ ops)%list, (log ++ evs)%list. split; [now apply Forall_app|]. split.
    - unfold run5 in *. rewrite fold_left_app, R. now apply run5_from.
    - split; [now constructor|]. rewrite receive_max_app by auto. congruence.
  Qed.
  Lemma linked_moves s l e s' out t ack A q outs : linked5 s l -> moves5 t ack A q (s_out s) (s_out s') outs ->
    (forall evs, entry t ack A outs q evs -> logged5 cfg e out evs) -> s_rmax s' = s_rmax s -> linked5 s' (l ++ [(e, out)]).
  Proof.
    intros L (ops & evs & Tr & En) H SR. eapply linked_step; eauto. eapply entry_conn; eauto.
  Qed.

  Lemma packet_rmax pick t len x s g s' g' out : packet_step5 hash pick t len x s g = Go s' g' out -> s_rmax s' = s_rmax s.
  Proof.
    unfold packet_step5, handle_packet5.
    assert (AFT : forall s1 g1 o, s_rmax s1 = s_rmax s -> (let '(s2, out') := after_packet5 t s1 in Go s2 g1 (o ++ out')) = Go s' g' out ->
      s_rmax s' = s_rmax s).
    { intros s1 g1 o R. destruct (after_packet5 t s1) as (s2, k) eqn:A. intros E. injection E as <- _ _. apply after_frame in A.
      destruct A as ((o' & t' & ->) & _). exact R. }
    destruct (_ <? len); [apply AFT; reflexivity|]. destruct x as [w|p|p|p|p|p id fs|p fs| |code expiry|].
    - destruct (handle_publish5 hash pick w s g) as [((s1, g1), o1)|] eqn:P; [|discriminate]. apply publish_out in P. apply AFT, P.
    - apply AFT. reflexivity.
    - unfold handle_pubrec5. destruct (out5_on_queue _ _). apply AFT. reflexivity.
    - unfold handle_pubrel5. destruct (aget p (s_qos2 s)); apply AFT; reflexivity.
    - apply AFT. reflexivity.
    - destruct (handle_subscribe5 t p id fs s g) as [((s1, g1), o1)|] eqn:P; [|discriminate]. apply AFT. unfold handle_subscribe5 in P.
      assert (G : (if negb (cf_subid (g_cfg g)) && match id with Some _ => true | None => false end
        then Done (s, g, [KSuback p (map (fun _ => RC_subid_not_supported) fs)])
        else match subscribe_all t id fs s g with
          | Panic => Panic
          | Done (s', g', codes, out) => Done (s', g', (out ++ [KSuback p codes])%list)
          end) = Done (s1, g1, o1) -> s_rmax s1 = s_rmax s).
      { destruct (_ && _); [intros E; injection E as <- _ <-; reflexivity|].
        destruct (subscribe_all _ _ _ _ _) as [(((s2, g2), cs), o2)|] eqn:A; [|discriminate]. apply subscribe_all_frame in A.
        destruct A as ((? & ? & ->) & _). intros E. injection E as <- _ _. reflexivity. }
      destruct id as [[|i]|]; [injection P as <- _ _; reflexivity|exact (G P)..].
    - unfold handle_unsubscribe5. destruct (unsubscribe_all fs s g) as [((s1, g1), cs)|] eqn:P; [|discriminate]. apply unsubscribe_all_frame in P.
      destruct P as (? & ? & ->). apply AFT. reflexivity.
    - apply AFT. reflexivity.
    - destruct (handle_disconnect5 code expiry s) as (s1, o1) eqn:P. apply disconnect_out in P. apply AFT, P.
    - discriminate.
  Qed.

  Lemma take_out s t0 now uuid p data s' k :
    session_connect5 unit cfg now (RcPresent (snd (build_state5 s))) data (new_conn cfg uuid t0 p) = Some (s', k) ->
    s_rmax s' = rmax5 cfg p /\
    s_out s' = if co_clean p then out5_new (rmax5 cfg p) (cf_max_pending cfg) (cf_inflight_timeout cfg) (opt_or (co_alias p) 0)
               else out5_resume (rmax5 cfg p) (opt_or (co_alias p) 0) (s_out s).
  Proof.
    unfold session_connect5. cbn [cn_s new_conn]. intros E.
    change (s_clean (connect_session cfg uuid p (sess5_new cfg t0))) with (co_clean p) in E.
    destruct (co_clean p); cbn [negb] in E; destruct (max_allowed_qos cfg); try discriminate; injection E as E _;
      subst s'; destruct (_ <? _); match goal with |- context [if ?b then _ else _] => destruct b end; split; reflexivity.
  Qed.

  Lemma run_linked s l : srun5 hash cfg s l -> Forall clocked5 l -> linked5 s l.
  Proof.
    induction 1 as [s H|s l e s' out H IH S]; intros C.
    - destruct H as [t0 now uuid p data id s k E]. unfold session_connect5 in E. cbn [cn_s new_conn] in E.
      destruct (max_allowed_qos cfg); [|discriminate]. injection E as E _.
      exists (rmax5 cfg p), (opt_or (co_alias p) 0), [], [EConn (rmax5 cfg p)]. split; [constructor|].
      split; [|split; [constructor|]]; subst s; destruct (_ <? _); match goal with |- context [if ?b then _ else _] => destruct b end; reflexivity.
    - apply Forall_app in C. destruct C as (C & CE). inversion CE as [|? ? CK _]; subst. specialize (IH C).
      destruct S as [pick s now len x g s' g' out D WF (GC & _) E|s now m s' r E|s b n|s now s' out E|s now m s' r E|s reason s' k E|s conn last w|s t0 now uuid p data s' k E].
      + pose proof (packet_rmax _ _ _ _ _ _ _ _ _ E) as RM. apply packet_moves in E; auto. eapply linked_moves; [exact IH|exact E| |exact RM].
        intros evs En. refine (entry_imp _ _ _ _ _ _ _ _ (fun _ H => H) _ En). intros ok H0. apply H0.
      + pose proof (normal_frame _ _ _ _ _ _ E) as (o & X). apply normal_moves in E; auto. destruct E as (E & _).
        eapply linked_moves; eauto. now subst s'.
      + eapply linked_step; [exact IH|apply trans5_nil|split; reflexivity|constructor|reflexivity].
      + pose proof (pendings_frame _ _ _ _ E) as (o & X). apply (pendings_moves _ (fun _ => False)) in E; auto. eapply linked_moves; eauto. now subst s'.
      + pose proof (normal_frame _ _ _ _ _ _ E) as (o & X). apply normal_moves in E; auto. destruct E as (E & W).
        eapply linked_moves; [exact IH|exact E| |now subst s'].
        intros evs En. split; [reflexivity|]. eexists. split; [|exact En]. destruct r as [(q, [k|])|]; try constructor.
        * destruct W as (w & -> & W). repeat constructor; exact W.
      + injection E as <- <-. eapply linked_step; [exact IH|apply trans5_nil|split; reflexivity|constructor|reflexivity].
      + eapply linked_step; [exact IH|apply trans5_nil|split; reflexivity|constructor|reflexivity].
      + apply take_out in E. destruct E as (RM & E). destruct IH as (rm & amax & ops & log & F & R & L & X).
        destruct (co_clean p) eqn:CL.
        * exists (rmax5 cfg p), (opt_or (co_alias p) 0), [], [EConn (rmax5 cfg p)].
          split; [constructor|]. split; [rewrite E; reflexivity|]. split; [eapply lg_clean; eauto|]. rewrite RM. reflexivity.
        * exists rm, amax, (ops ++ [O5Resume (rmax5 cfg p) (opt_or (co_alias p) 0)])%list, (log ++ [EConn (rmax5 cfg p)])%list.
          split; [apply Forall_app; split; [auto|repeat constructor]|]. split.
          -- unfold run5 in *. rewrite fold_left_app, R. cbn. now rewrite E.
          -- split; [constructor; auto; cbn; auto|]. unfold receive_max. rewrite fold_left_app. now rewrite RM.
  Qed.
End Pkt.
