(** Proofs for AwayProps. *)
From Coq Require Import List Bool NArith String Lia.
From Verif Require Import Base BaseLemmas TopicModel MsgModel PendingModel AliasModel OutModel RouteModel RetainModel GlobModel
  Sess5Model Sess3Model ConnModel InSpec LinkSpec RegModel BrokerModel BrokerSpec LifeSpec RecvProofs RecvSpec RunProofs LifeProofs LifeFacts LifeProps FullSpec FullProofs AwaySpec.
Import ListNotations.
Local Open Scope N_scope.
Local Open Scope list_scope.

Lemma recv_wanted5 now m s s' r : recv_publish5 now m s = (s', r) -> (forall f, rp_ids m = Lookup f -> aget f (s_subs s) <> None) ->
  ((exists q, r = Some (q, None)) <-> qos_min (rp_qos m) (rp_sqos m) <> L0 /\ rp_len m <= s_maxpkt s).
Proof.
  unfold recv_publish5. intros E H.
  match type of E with context [match ?i with Some _ => _ | None => (s, None) end] => destruct i as [ids|] eqn:I end.
  2:{ destruct (rp_ids m) as [f|l0]; [|discriminate]. specialize (H f eq_refl). destruct (aget f (s_subs s)); [discriminate|congruence]. }
  destruct (negb (qos_eqb (qos_min (rp_qos m) (rp_sqos m)) L0)) eqn:Q.
  - assert (Q' : qos_min (rp_qos m) (rp_sqos m) <> L0) by (intros K; rewrite K in Q; discriminate).
    destruct (N.ltb_spec (s_maxpkt s) (rp_len m)) as [L|L]; [injection E as <- <-; split; [intros (q & K); discriminate|intros (_ & K); lia]|].
    destruct (out5_push _ _ _) as [o d]. injection E as <- <-. split; [intros _; auto|eauto].
  - assert (Q' : qos_min (rp_qos m) (rp_sqos m) = L0) by (destruct (qos_min (rp_qos m) (rp_sqos m)); [reflexivity|discriminate|discriminate]).
    split; [|intros (K & _); congruence]. intros (q & ->). exfalso.
    destruct (negb (s_cdisc s) && negb (s_sdisc s)); [|discriminate].
    match type of E with context [if ?b then (s, None) else _] => destruct b end; [discriminate|].
    destruct (out5_qos0 _ _ _ _ _) as [o w]. discriminate.
Qed.
Lemma msg_wanted5 now c m s s' r : handle_normal5 now c m s = (s', r) -> ((exists q, r = Some (q, None)) <-> wanted5 s m).
Proof.
  destruct m as [m|m]; cbn [handle_normal5 wanted5].
  - destruct (aget (n3_filter m) (s_subs s)) as [sub|] eqn:A.
    + intros E. rewrite (recv_wanted5 _ _ _ _ _ E); cbn [rp_qos rp_sqos rp_len rp_ids].
      * split; [intros (? & ?); split; [discriminate|auto]|intros (_ & ?); auto].
      * intros f [= <-]. congruence.
    + intros [= <- <-]. split; [intros (q & K); discriminate|intros (K & _); congruence].
  - destruct (filters_info_spec (s_subs s) (n5_filters m) false false [] (NoDup_nil _)) as (has & rap & ids & FI & H & _).
    change (filters_info (s_subs s) (n5_filters m) = (has, rap, ids)) in FI. rewrite FI.
    assert (H' : has = true <-> exists f, In f (n5_filters m) /\ aget f (s_subs s) <> None).
    { rewrite H. split.
      - intros [K|(f & sub & I & A)]; [discriminate|]. exists f. split; [auto|congruence].
      - intros (f & I & A). right. destruct (aget f (s_subs s)) as [sub|] eqn:K; [eauto|congruence]. }
    destruct has.
    + intros E. rewrite (recv_wanted5 _ _ _ _ _ E); cbn [rp_qos rp_sqos rp_len rp_ids]; [|discriminate]. rewrite <- H'. tauto.
    + intros [= <- <-]. rewrite <- H'. split; [intros (q & K); discriminate|intros (K & _); discriminate].
Qed.

Lemma recv_wanted3 now m s s' r : recv_publish3 now m s = (s', r) ->
  ((exists q, r = Some (q, None)) <-> aget (rp3_filter m) (z_subs s) <> None /\ qos_min (rp3_qos m) (rp3_sqos m) <> L0).
Proof.
  unfold recv_publish3. intros E. destruct (aget _ _) as [sq|]; [|injection E as <- <-; split; [intros (q & K); discriminate|intros (K & _); congruence]].
  destruct (negb (qos_eqb (qos_min (rp3_qos m) (rp3_sqos m)) L0)) eqn:Q.
  - assert (Q' : qos_min (rp3_qos m) (rp3_sqos m) <> L0) by (intros K; rewrite K in Q; discriminate).
    destruct (out3_push _ _ _) as [o d]. injection E as <- <-. split; [intros _; split; [discriminate|auto]|eauto].
  - assert (Q' : qos_min (rp3_qos m) (rp3_sqos m) = L0) by (destruct (qos_min (rp3_qos m) (rp3_sqos m)); [reflexivity|discriminate|discriminate]).
    split; [|intros (_ & K); congruence]. intros (q & ->). destruct (negb (z_disc s)); discriminate.
Qed.
Lemma msg_wanted3 now m s s' r : handle_normal3 now m s = (s', r) -> ((exists q, r = Some (q, None)) <-> wanted3 s m).
Proof.
  destruct m as [m|m]; cbn [handle_normal3 wanted3].
  - intros E. rewrite (recv_wanted3 _ _ _ _ _ E). reflexivity.
  - destruct (n5_filters m) as [|f fs].
    + intros [= <- <-]. split; [intros (q & K); discriminate|intros ((f & r & K & _) & _); discriminate].
    + intros E. rewrite (recv_wanted3 _ _ _ _ _ E). cbn. split.
      * intros (A & B). split; [|auto]. exists f, fs. auto.
      * intros ((g & r0 & [= <- <-] & A) & B). auto.
Qed.

Section Away.
  Variables (hash5 : wpub5 -> N) (hash3 : wpub3 -> N) (pick : draw -> broker -> string -> string -> N).
  Local Notation brun := (brun hash5 hash3 pick).
  Local Notation bstep := (bstep hash5 hash3 pick).
  Variables (c : config) (h : list past) (b : broker) (k : N).
  Hypothesis run : brun c h b.
  Hypothesis pr : forall p, In p h -> proper p.
  Hypothesis late : forall p, In p h -> after_1970 p.

  Lemma away5 s from m rest : aget k (b_tasks b) = Some (TOffline (A5 s)) -> waiting b (s_id s) = (from, m) :: rest ->
    exists b' s', bstep (ENormal k) b = BOk b' [] /\ aget k (b_tasks b') = Some (TOffline (A5 s')) /\ waiting b' (s_id s) = rest /\
      (wanted5 s m -> joins (cf_max_pending c) (seconds b)
         (fun x => p5_topic x = nm_topic m /\ p5_payload x = nm_payload m /\ p5_qos x = qos_min (nm_qos m) (nm_sqos m)) (pq (o5_q (s_out s))) (pq (o5_q (s_out s')))) /\
      (~ wanted5 s m -> pq (o5_q (s_out s')) = pq (o5_q (s_out s))).
  Proof.
    intros T W. destruct (run_glob _ _ _ _ _ _ run) as (CF & _).
    assert (A : sess_at b k = Some (A5 s)) by (unfold sess_at; rewrite T; reflexivity).
    destruct (session_is_a_run5 hash5 hash3 pick c h b k s run (conj pr late) A) as (l & _ & S & C).
    unfold waiting in W. destruct (aget (s_id s) (b_chans b)) as [[cs ms o]|] eqn:CH; [|discriminate]. cbn [ch_norm] in W. subst ms.
    destruct (handle_normal5 (seconds b) (b_cfg b) m s) as [s' r] eqn:E. rewrite CF in E.
    assert (ST : bstep (ENormal k) b = BOk (set_task k (TOffline (A5 s')) (set_chan (s_id s) (Chan cs rest o) b)) []).
    { cbn [BrokerModel.bstep]. unfold do_normal. rewrite T. cbn [a_id]. rewrite CH. cbn [normal snd]. rewrite CF, E. destruct r as [[q p]|]; reflexivity. }
    do 2 eexists. split; [exact ST|]. cbn [b_tasks set_task set_tasks b_chans set_chan set_chans].
    split; [apply aget_aset_eq|]. split; [unfold waiting; cbn [b_chans set_task set_tasks set_chan set_chans]; rewrite aget_aset_eq; reflexivity|].
    destruct (msg_joins5 hash5 c s l S C (seconds b) m s' r E) as (J & N0). pose proof (msg_wanted5 _ _ _ _ _ _ E) as WT. split.
    - intros K. apply WT in K. destruct K as (q & ->). destruct (J q eq_refl) as (<- & _ & J'). exact J'.
    - intros K. apply N0. intros q ->. apply K, WT. eauto.
  Qed.
  Lemma away3 s from m rest : aget k (b_tasks b) = Some (TOffline (A3 s)) -> waiting b (z_id s) = (from, m) :: rest ->
    exists b' s', bstep (ENormal k) b = BOk b' [] /\ aget k (b_tasks b') = Some (TOffline (A3 s')) /\ waiting b' (z_id s) = rest /\
      (wanted3 s m -> joins (cf_max_pending c) (seconds b)
         (fun x => p3_topic x = nm_topic m /\ p3_payload x = nm_payload m /\ p3_qos x = qos_min (nm_qos m) (nm_sqos m)) (pq (o3_q (z_out s))) (pq (o3_q (z_out s')))) /\
      (~ wanted3 s m -> pq (o3_q (z_out s')) = pq (o3_q (z_out s))).
  Proof.
    intros T W.
    assert (A : sess_at b k = Some (A3 s)) by (unfold sess_at; rewrite T; reflexivity).
    destruct (session_is_a_run3 hash5 hash3 pick c h b k s run (conj pr late) A) as (l & _ & S & C).
    unfold waiting in W. destruct (aget (z_id s) (b_chans b)) as [[cs ms o]|] eqn:CH; [|discriminate]. cbn [ch_norm] in W. subst ms.
    destruct (handle_normal3 (seconds b) m s) as [s' r] eqn:E.
    assert (ST : bstep (ENormal k) b = BOk (set_task k (TOffline (A3 s')) (set_chan (z_id s) (Chan cs rest o) b)) []).
    { cbn [BrokerModel.bstep]. unfold do_normal. rewrite T. cbn [a_id]. rewrite CH. cbn [normal snd]. rewrite E. destruct r as [[q p]|]; reflexivity. }
    do 2 eexists. split; [exact ST|]. cbn [b_tasks set_task set_tasks b_chans set_chan set_chans].
    split; [apply aget_aset_eq|]. split; [unfold waiting; cbn [b_chans set_task set_tasks set_chan set_chans]; rewrite aget_aset_eq; reflexivity|].
    destruct (msg_joins3 hash3 c s l S C (seconds b) m s' r E) as (J & N0). pose proof (msg_wanted3 _ _ _ _ _ E) as WT. split.
    - intros K. apply WT in K. destruct K as (q & ->). destruct (J q eq_refl) as (<- & _ & J'). exact J'.
    - intros K. apply N0. intros q ->. apply K, WT. eauto.
  Qed.
End Away.

(** ** All that waits *)
Lemma msg_frame5 now c m s s' r : handle_normal5 now c m s = (s', r) -> s_subs s' = s_subs s /\ s_maxpkt s' = s_maxpkt s /\ s_id s' = s_id s.
Proof.
  assert (K : forall x s' r, recv_publish5 now x s = (s', r) -> s_subs s' = s_subs s /\ s_maxpkt s' = s_maxpkt s /\ s_id s' = s_id s).
  { clear. intros x s' r. unfold recv_publish5. match goal with |- context [match ?i with Some _ => _ | None => (s, None) end] => destruct i end; [|intros [= <- <-]; auto].
    destruct (negb _); [destruct (_ <? _); [intros [= <- <-]; auto|]; destruct (out5_push _ _ _); intros [= <- <-]; auto|].
    destruct (_ && _); [|intros [= <- <-]; auto]. match goal with |- context [if ?b then (s, None) else _] => destruct b end; [intros [= <- <-]; auto|].
    destruct (out5_qos0 _ _ _ _ _). intros [= <- <-]; auto. }
  destruct m as [m|m]; cbn [handle_normal5].
  - destruct (aget _ _); [apply K|intros [= <- <-]; auto].
  - destruct (filters_info _ _) as [[has rap] ids]. destruct has; [apply K|intros [= <- <-]; auto].
Qed.
Lemma msg_frame3 now m s s' r : handle_normal3 now m s = (s', r) -> z_subs s' = z_subs s /\ z_id s' = z_id s.
Proof.
  assert (K : forall x s' r, recv_publish3 now x s = (s', r) -> z_subs s' = z_subs s /\ z_id s' = z_id s).
  { clear. intros x s' r. unfold recv_publish3. destruct (aget _ _); [|intros [= <- <-]; auto].
    destruct (negb _); [destruct (out3_push _ _ _); intros [= <- <-]; auto|]. destruct (negb _); intros [= <- <-]; auto. }
  destruct m as [m|m]; cbn [handle_normal3]; [apply K|]. destruct (n5_filters m); [intros [= <- <-]; auto|apply K].
Qed.
Lemma wanted5_frame s s' m : s_subs s' = s_subs s -> s_maxpkt s' = s_maxpkt s -> (wanted5 s' m <-> wanted5 s m).
Proof. intros A B. destruct m; cbn [wanted5]; rewrite A, B; reflexivity. Qed.
Lemma wanted3_frame s s' m : z_subs s' = z_subs s -> (wanted3 s' m <-> wanted3 s m).
Proof. intros A. destruct m; cbn [wanted3]; rewrite A; reflexivity. Qed.
Lemma filled_frame {P} max now (w w' : nmsg -> Prop) (fits : nmsg -> P -> Prop) ms q q' : (forall m, w m <-> w' m) -> filled max now w fits ms q q' -> filled max now w' fits ms q q'.
Proof. intros E. induction 1; [constructor|eapply fill_take; eauto; now apply E|apply fill_skip; auto; now rewrite <- E]. Qed.

Section All.
  Variables (hash5 : wpub5 -> N) (hash3 : wpub3 -> N) (pick : draw -> broker -> string -> string -> N).
  Local Notation brun := (brun hash5 hash3 pick).
  Local Notation bstep := (bstep hash5 hash3 pick).
  Local Notation exec := (exec hash5 hash3 pick).
  Variables (c : config) (k : N).

  Lemma all5 ms : forall h b s, brun c h b -> (forall p, In p h -> proper p) -> (forall p, In p h -> after_1970 p) -> 1000 <= b_now b ->
    aget k (b_tasks b) = Some (TOffline (A5 s)) -> waiting b (s_id s) = ms ->
    exists b' s', exec (repeat (ENormal k) (List.length ms)) b = Some (b', []) /\ aget k (b_tasks b') = Some (TOffline (A5 s')) /\ waiting b' (s_id s) = [] /\
      filled (cf_max_pending c) (seconds b) (wanted5 s) (fun m x => p5_topic x = nm_topic m /\ p5_payload x = nm_payload m /\ p5_qos x = qos_min (nm_qos m) (nm_sqos m))
        (map snd ms) (pq (o5_q (s_out s))) (pq (o5_q (s_out s'))).
  Proof.
    induction ms as [|[from m] ms IH]; intros h b s R P L NW T W.
    - exists b, s. repeat split; auto. constructor.
    - destruct (run_glob _ _ _ _ _ _ R) as (CF & _).
      assert (A : sess_at b k = Some (A5 s)) by (unfold sess_at; rewrite T; reflexivity).
      destruct (session_is_a_run5 hash5 hash3 pick c h b k s R (conj P L) A) as (l & _ & S & C).
      unfold waiting in W. destruct (aget (s_id s) (b_chans b)) as [[cs ms0 o]|] eqn:CH; [|discriminate]. cbn [ch_norm] in W. subst ms0.
      destruct (handle_normal5 (seconds b) (b_cfg b) m s) as [s1 r] eqn:E. rewrite CF in E.
      set (b1 := set_task k (TOffline (A5 s1)) (set_chan (s_id s) (Chan cs ms o) b)).
      assert (ST : bstep (ENormal k) b = BOk b1 []).
      { cbn [BrokerModel.bstep]. unfold do_normal. rewrite T. cbn [a_id]. rewrite CH. cbn [normal snd]. rewrite CF, E. destruct r as [[q p]|]; reflexivity. }
      destruct (msg_frame5 _ _ _ _ _ _ E) as (F1 & F2 & F3).
      destruct (IH (Past b (ENormal k) [] :: h) b1 s1) as (b' & s' & X & T' & W' & F).
      + econstructor; eauto.
      + intros p [<-|I]; [exact Logic.I|auto].
      + intros p [<-|I]; [exact NW|auto].
      + exact NW.
      + subst b1. cbn [b_tasks set_task set_tasks]. apply aget_aset_eq.
      + subst b1. unfold waiting. cbn [b_chans set_task set_tasks set_chan set_chans]. rewrite F3, aget_aset_eq. reflexivity.
      + exists b', s'. rewrite F3 in W'. split; [cbn [repeat List.length BrokerSpec.exec]; rewrite ST, X; reflexivity|]. split; [exact T'|]. split; [exact W'|].
        destruct (msg_joins5 hash5 c s l S C (seconds b) m s1 r E) as (J & N0). pose proof (msg_wanted5 _ _ _ _ _ _ E) as WT.
        change (seconds b1) with (seconds b) in F. apply (filled_frame _ _ _ (wanted5 s)) in F; [|intros; now apply wanted5_frame]. cbn [map snd].
        assert (D : (exists q, r = Some (q, None)) \/ forall q, r <> Some (q, None)) by (destruct r as [[q [p|]]|]; [right; discriminate|left; eauto|right; discriminate]).
        destruct D as [D|D].
        * pose proof (proj1 WT D) as K. destruct D as (q & ->). destruct (J q eq_refl) as (EQ & _ & J'). rewrite EQ in J'. eapply fill_take; eauto.
        * apply fill_skip; [intros K; apply WT in K; destruct K as (q & K); exact (D q K)|]. rewrite (N0 D) in F. exact F.
  Qed.
  Lemma all3 ms : forall h b s, brun c h b -> (forall p, In p h -> proper p) -> (forall p, In p h -> after_1970 p) -> 1000 <= b_now b ->
    aget k (b_tasks b) = Some (TOffline (A3 s)) -> waiting b (z_id s) = ms ->
    exists b' s', exec (repeat (ENormal k) (List.length ms)) b = Some (b', []) /\ aget k (b_tasks b') = Some (TOffline (A3 s')) /\ waiting b' (z_id s) = [] /\
      filled (cf_max_pending c) (seconds b) (wanted3 s) (fun m x => p3_topic x = nm_topic m /\ p3_payload x = nm_payload m /\ p3_qos x = qos_min (nm_qos m) (nm_sqos m))
        (map snd ms) (pq (o3_q (z_out s))) (pq (o3_q (z_out s'))).
  Proof.
    induction ms as [|[from m] ms IH]; intros h b s R P L NW T W.
    - exists b, s. repeat split; auto. constructor.
    - assert (A : sess_at b k = Some (A3 s)) by (unfold sess_at; rewrite T; reflexivity).
      destruct (session_is_a_run3 hash5 hash3 pick c h b k s R (conj P L) A) as (l & _ & S & C).
      unfold waiting in W. destruct (aget (z_id s) (b_chans b)) as [[cs ms0 o]|] eqn:CH; [|discriminate]. cbn [ch_norm] in W. subst ms0.
      destruct (handle_normal3 (seconds b) m s) as [s1 r] eqn:E.
      set (b1 := set_task k (TOffline (A3 s1)) (set_chan (z_id s) (Chan cs ms o) b)).
      assert (ST : bstep (ENormal k) b = BOk b1 []).
      { cbn [BrokerModel.bstep]. unfold do_normal. rewrite T. cbn [a_id]. rewrite CH. cbn [normal snd]. rewrite E. destruct r as [[q p]|]; reflexivity. }
      destruct (msg_frame3 _ _ _ _ _ E) as (F1 & F3).
      destruct (IH (Past b (ENormal k) [] :: h) b1 s1) as (b' & s' & X & T' & W' & F).
      + econstructor; eauto.
      + intros p [<-|I]; [exact Logic.I|auto].
      + intros p [<-|I]; [exact NW|auto].
      + exact NW.
      + subst b1. cbn [b_tasks set_task set_tasks]. apply aget_aset_eq.
      + subst b1. unfold waiting. cbn [b_chans set_task set_tasks set_chan set_chans]. rewrite F3, aget_aset_eq. reflexivity.
      + exists b', s'. rewrite F3 in W'. split; [cbn [repeat List.length BrokerSpec.exec]; rewrite ST, X; reflexivity|]. split; [exact T'|]. split; [exact W'|].
        destruct (msg_joins3 hash3 c s l S C (seconds b) m s1 r E) as (J & N0). pose proof (msg_wanted3 _ _ _ _ _ E) as WT.
        change (seconds b1) with (seconds b) in F. apply (filled_frame _ _ _ (wanted3 s)) in F; [|intros; now apply wanted3_frame]. cbn [map snd].
        assert (D : (exists q, r = Some (q, None)) \/ forall q, r <> Some (q, None)) by (destruct r as [[q [p|]]|]; [right; discriminate|left; eauto|right; discriminate]).
        destruct D as [D|D].
        * pose proof (proj1 WT D) as K. destruct D as (q & ->). destruct (J q eq_refl) as (EQ & _ & J'). rewrite EQ in J'. eapply fill_take; eauto.
        * apply fill_skip; [intros K; apply WT in K; destruct K as (q & K); exact (D q K)|]. rewrite (N0 D) in F. exact F.
  Qed.
End All.
