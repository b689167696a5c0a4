(** Lemmas for C68: what one session does with messages. *)
From Coq Require Import List Bool String NArith Lia.
From Verif Require Import Base BaseLemmas TopicModel TopicSpec TopicProofs MsgModel PendingModel PendingProofs AliasModel AliasSpec AliasProofs OutModel OutSpec OutFacts
  RouteModel RouteSpec RouteInv RetainModel RetainSpec RetainProofs GlobModel Sess5Model Sess3Model InSpec DelivSpec DelivProofs OriginRoute OriginSpec.
Import ListNotations.
Local Open Scope N_scope.
Local Open Scope list_scope.

(** ** Queues *)
Section Queue.
  Context {M : Type}.
  Variable P : pstatus M -> Prop.
  Hypothesis PD : P PDone.
  Hypothesis PR : forall t p, P (PRec t p).
  Hypothesis PN : forall a l l' p x d d', P (PNew a l p x d) -> P (PNew a l' p x d').

  Lemma all_drop l : Forall P l -> Forall P (drop_done l).
  Proof. induction 1 as [|s l H HF IH]; cbn; [constructor|]. destruct s; auto; now constructor. Qed.
  Lemma all_update n f g l : Forall P l -> (forall s, P (g s)) -> Forall P (fst (update_first n f g l)).
  Proof.
    revert l. induction n as [|n IH]; intros [|x l] HF Hg; cbn; auto. inversion HF; subst.
    destruct (f x); [now constructor|]. specialize (IH l H2 Hg). destruct (update_first n f g l). now constructor.
  Qed.
  Lemma all_complete p qs q : Forall P (pq q) -> Forall P (pq (fst (pend_complete p qs q))).
  Proof.
    intros H. unfold pend_complete. pose proof (all_update (current_inflight q)
      (fun s => match qs with L0 => false | L1 => is_new p s | L2 => is_rec p s end) (fun _ => PDone) (pq q) H (fun _ => PD)) as K.
    destruct (update_first _ _ _ (pq q)). exact K.
  Qed.
  Lemma all_pubrec now p q : Forall P (pq q) -> Forall P (pq (fst (pend_pubrec now p q))).
  Proof.
    intros H. unfold pend_pubrec. pose proof (all_update (current_inflight q) (is_new p) (fun _ => PRec now p) (pq q) H (fun _ => PR now p)) as K.
    destruct (update_first _ _ _ (pq q)). exact K.
  Qed.
  Lemma all_completes e : forall q, Forall P (pq q) -> Forall P (pq (fold_left (fun q p => fst (pend_complete p L1 q)) e q)).
  Proof. induction e as [|p e IH]; intros q H; cbn [fold_left]; auto. apply IH, all_complete, H. Qed.
  Lemma all_push now p x q : Forall P (pq q) -> P (PNew now 0 p x false) -> Forall P (pq (fst (push_back now p x (clean_complete q)))).
  Proof.
    intros H X. unfold push_back. destruct (_ <=? _); cbn; [now apply all_drop|]. apply Forall_app. split; [now apply all_drop|]. constructor; auto.
  Qed.
  Lemma all_reset q : Forall P (pq q) -> Forall P (pq (reset_last_sent q)).
  Proof. intros H. cbn. induction H as [|s l X F IH]; cbn; constructor; auto. destruct s; cbn; eauto. Qed.
End Queue.

Section Origin.
  (** [O]: what was published; [cap]: the server's maximum QoS. *)
  Variable O : string -> string -> string * option N -> qos -> Prop.
  Variable cap : N.

  Definition kept (p : pprops) : string * option N := (pp_other p, pp_expiry p).
  Definition bare : string * option N := (EmptyString, None).
  Definition pr_other (p : option pprops) : string * option N := match p with Some p => kept p | None => bare end.
  Definition no_alias (p : option pprops) : Prop := match p with Some p => pp_alias p = None | None => True end.
  Definition rc_ok (x : rcontent) : Prop :=
    O (rc_topic x) (rc_payload x) (pr_other (rc_props x)) (rc_qos x) /\ no_alias (rc_props x) /\ rc_topic x <> EmptyString.
  Definition nm_ok (m : nmsg) : Prop :=
    match m with
    | NM5 m => O (n5_topic m) (n5_payload m) (kept (n5_props m)) (n5_qos m) /\ pp_alias (n5_props m) = None /\ n5_topic m <> EmptyString /\
               qos_num (n5_sqos m) <= cap /\ Forall (fun f => selects f (n5_topic m)) (n5_filters m)
    | NM3 m => O (n3_topic m) (n3_payload m) bare (n3_qos m) /\ n3_topic m <> EmptyString /\ qos_num (n3_sqos m) <= cap /\ selects (n3_filter m) (n3_topic m)
    end.
  Definition bcast_ok (b : bcast) : Prop := forall d m, In m (queue_of b d) -> nm_ok m.
  Definition glob_ok (g : glob) : Prop :=
    exists ops hr, g_route g = rt_run ops /\ (forall f c q, In (Sub f c q) ops -> qos_num q <= cap) /\
      g_retain g = ret_run hr /\ (forall x, In (RIns x) hr -> rc_ok x).

  (** ** Publishing *)
  Lemma retained_in hr t x : retained hr t = Some x -> In (RIns x) hr.
  Proof.
    unfold retained. induction hr as [|o hr IH] using rev_ind; [discriminate|]. rewrite fold_left_app. cbn. intros H. apply in_or_app.
    destruct o as [y|tp]; destruct (String.eqb _ t); auto; [|discriminate]. injection H as ->. right. left. reflexivity.
  Qed.
  Lemma store_glob r x g : rc_ok x -> glob_ok g -> glob_ok (store_retained r x g).
  Proof.
    intros X (ops & hr & RT & Q & RE & OK). unfold store_retained. destruct r; [|exists ops, hr; auto]. destruct (String.eqb _ _).
    - exists ops, (hr ++ [RDel (rc_topic x)]). cbn [set_retain g_route g_retain]. split; [exact RT|]. split; [exact Q|]. split; [rewrite RE, ret_run_snoc; reflexivity|].
      intros y Y. apply in_app_or in Y. destruct Y as [Y|[Y|[]]]; [auto|discriminate].
    - exists ops, (hr ++ [RIns x]). cbn [set_retain g_route g_retain]. split; [exact RT|]. split; [exact Q|]. split; [rewrite RE, ret_run_snoc; reflexivity|].
      intros y Y. apply in_app_or in Y. destruct Y as [Y|[Y|[]]]; [auto|]. injection Y as <-. exact X.
  Qed.

  Lemma plain_contrib ops topic ct f c q : valid_topic_name topic -> (forall f c q, In (Sub f c q) ops -> qos_num q <= cap) ->
    In ct (rt_get_matches (rt_run ops) topic) -> c_filter ct = Some f -> In (c, q) (c_clients ct) -> selects f topic /\ qos_num q <= cap.
  Proof.
    intros V Q I F C. destruct (proj1 (lookup_char ops topic f ct V) (conj I F)) as (E & _ & M). subst ct. pose proof (rinv_run ops) as RI. split.
    - unfold selects. pose proof (in_aget _ _ _ (ri_cnd _ _ RI (levels f)) C) as A. fold (RouteInv.C (rt_run ops) f) in A. rewrite (ri_clients _ _ RI) in A.
      destruct (shared_info f); [discriminate|exact M].
    - exact (proj1 (table_qall (fun q => qos_num q <= cap) ops Q (levels f)) _ C).
  Qed.
  Lemma shared_contrib ops topic ct f name sh c q n : valid_topic_name topic -> (forall f c q, In (Sub f c q) ops -> qos_num q <= cap) ->
    In ct (rt_get_matches (rt_run ops) topic) -> c_filter ct = Some f -> In (name, sh) (c_groups ct) -> sh_get_by_number sh n = Some (c, q) ->
    selects (share_filter name f) topic /\ qos_num q <= cap.
  Proof.
    intros V Q I F G N. destruct (proj1 (lookup_char ops topic f ct V) (conj I F)) as (E & _ & M). subst ct. pose proof (rinv_run ops) as RI. split.
    - pose proof (in_aget _ _ _ (ri_gnd _ _ RI (levels f)) G) as A. destruct (rt_group_name _ _ _ _ A) as (f' & i & S & L). apply levels_inj in L. subst i.
      rewrite <- (shared_info_share_filter _ _ _ S). unfold selects. rewrite S. exact M.
    - assert (X : In (c, q) (sh_items sh)).
      { unfold sh_get_by_number in N. destruct (sh_items sh); [discriminate|]. eapply nth_error_In; eauto. }
      exact (proj2 (table_qall (fun q => qos_num q <= cap) ops Q (levels f)) _ _ _ G X).
  Qed.

  Definition sends_ok (topic : string) (l : senders) : Prop := forall c fs q, In (c, (fs, q)) l -> Forall (fun f => selects f topic) fs /\ qos_num q <= cap.
  Lemma add_sends topic c f q l : selects f topic -> qos_num q <= cap -> sends_ok topic l -> sends_ok topic (add_sender c f q l).
  Proof.
    intros S Q A. unfold add_sender. destruct (aget c l) as [[fs mq]|] eqn:G; intros d fs' q' H.
    - apply in_aset_or in H. destruct H as [[= -> -> ->]|H]; [|eauto]. apply aget_Some_in in G. destruct (A _ _ _ G) as (A1 & A2). split; [apply Forall_app; auto|].
      unfold qos_max. destruct (qos_leb mq q); auto.
    - apply in_app_or in H. destruct H as [H|[[= <- <- <-]|[]]]; eauto.
  Qed.
  Lemma fold_sends topic k : (forall c f q, In (c, (f, q)) k -> selects f topic /\ qos_num q <= cap) -> forall l, sends_ok topic l -> sends_ok topic (fold_left addc k l).
  Proof.
    induction k as [|[c [f q]] k IH]; intros A l L; cbn [fold_left]; auto. apply IH; [intros; apply (A c0 f0 q0); right; auto|].
    destruct (A c f q (or_introl eq_refl)). now apply add_sends.
  Qed.

  Variable hash5 : wpub5 -> N.
  Variable hash3 : wpub3 -> N.
  Variable pick : string -> string -> N.

  Lemma send5_ok m s g s' g' n : glob_ok g -> bcast_ok (s_bcast s) ->
    O (sp_topic m) (sp_payload m) (kept (sp_props m)) (sp_qos m) -> pp_alias (sp_props m) = None -> sp_topic m <> EmptyString -> valid_topic_name (sp_topic m) ->
    send_publish5 pick m s g = Done (s', g', n) -> glob_ok g' /\ bcast_ok (s_bcast s') /\ s' = with_bcast (s_bcast s') (s_bcnt s') s.
  Proof.
    intros G B OM AL NE V E. unfold send_publish5 in E. cbv zeta in E.
    set (g1 := store_retained _ _ g) in E. assert (G1 : glob_ok g1) by (apply store_glob; [split; [|split]; cbn; auto|exact G]).
    destruct (collect_senders pick s _ []) as [l|] eqn:C; [|discriminate].
    destruct (fold_left _ l _) as [b cnt'] eqn:F. injection E as <- <- <-. split; [exact G1|]. cbn [with_bcast s_bcast s_bcnt]. split; [|reflexivity].
    destruct G1 as (ops & hr & RT & Q & _ & _). rewrite RT in C. rewrite collect_ctr in C.
    destruct (ctr pick s _) as [k|] eqn:K; [|discriminate]. injection C as C.
    assert (L : sends_ok (sp_topic m) l).
    { rewrite <- C. apply fold_sends; [|intros ? ? ? []]. intros c f q H. apply (ctr_in _ _ _ _ _ _ _ K) in H.
      destruct H as (ct & f0 & I & Fc & [(-> & X & _)|(name & sh & X & Y & ->)]); [eapply plain_contrib; eauto|eapply shared_contrib; eauto]. }
    pose proof (queue_fold g1 (fun e => NM5 (NMsg5 (sp_retain m) (sp_qos m) (sp_topic m) (sp_payload m) (fst e) (snd e) (sp_props m) (sp_len m))) l _ _ _ _ F) as (QF & _).
    intros d x X. rewrite QF in X. apply in_app_or in X. destruct X as [X|X]; [eauto|]. destruct (reach_b g1 (s_bcast s) d); [|destruct X].
    apply in_map_iff in X. destruct X as ([fs q] & <- & X). apply entries_in in X. destruct (L _ _ _ X) as (L1 & L2). cbn. auto.
  Qed.

  Lemma collect3_in cts : forall l c f q, collect3 cts = Some l -> In (c, (f, q)) l -> exists ct, In ct cts /\ c_filter ct = Some f /\ In (c, q) (c_clients ct).
  Proof.
    induction cts as [|ct cts IH]; intros l c f q E H; cbn in E; [injection E as <-; destruct H|]. destruct (c_filter ct) as [f0|] eqn:F; [|discriminate].
    destruct (collect3 cts) as [l0|] eqn:C; [|discriminate]. injection E as <-. apply in_app_or in H. destruct H as [H|H].
    - apply in_map_iff in H. destruct H as ([c1 q1] & X & Y). cbn in X. injection X as -> <- ->. exists ct. split; [left; auto|auto].
    - destruct (IH _ _ _ _ eq_refl H) as (ct' & X & Y). exists ct'. split; [right; auto|auto].
  Qed.
  Lemma send3_ok m s g s' g' : glob_ok g -> bcast_ok (z_bcast s) ->
    O (sp3_topic m) (sp3_payload m) bare (sp3_qos m) -> sp3_topic m <> EmptyString -> valid_topic_name (sp3_topic m) ->
    send_publish3 m s g = Done (s', g') -> glob_ok g' /\ bcast_ok (z_bcast s') /\ s' = zwith_bcast (z_bcast s') (z_bcnt s') s.
  Proof.
    intros G B OM NE V E. unfold send_publish3 in E. cbv zeta in E.
    set (g1 := store_retained _ _ g) in E. assert (G1 : glob_ok g1) by (apply store_glob; [split; [|split]; cbn; auto|exact G]).
    destruct (collect3 _) as [l|] eqn:C; [|discriminate].
    destruct (fold_left _ l _) as [b cnt'] eqn:F. injection E as <- <-. split; [exact G1|]. cbn [zwith_bcast z_bcast z_bcnt]. split; [|reflexivity].
    destruct G1 as (ops & hr & RT & Q & _ & _). rewrite RT in C.
    pose proof (queue_fold g1 (fun e => NM3 (NMsg3 (sp3_retain m) (sp3_qos m) (sp3_topic m) (sp3_payload m) (fst e) (snd e) (sp3_len m))) l _ _ _ _ F) as (QF & _).
    intros d x X. rewrite QF in X. apply in_app_or in X. destruct X as [X|X]; [eauto|]. destruct (reach_b g1 (z_bcast s) d); [|destruct X].
    apply in_map_iff in X. destruct X as ([f q] & <- & X). apply entries_in in X. destruct (collect3_in _ _ _ _ _ C X) as (ct & I & Fc & Y).
    destruct (plain_contrib _ _ _ _ _ _ V Q I Fc Y). cbn. auto.
  Qed.
End Origin.
