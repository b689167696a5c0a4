(** Lemmas for C68: one packet of an MQTT 5 client. *)
From Coq Require Import List Bool String NArith Lia.
From Verif Require Import Base BaseLemmas TopicModel TopicSpec TopicProofs MsgModel PendingModel PendingProofs AliasModel AliasSpec AliasProofs OutModel OutSpec OutFacts
  RouteModel RouteSpec RouteInv RetainModel RetainSpec RetainProofs GlobModel Sess5Model Sess3Model InSpec DelivSpec DelivProofs OfferProofs OriginRoute OriginSpec OriginSess OriginOut.
Import ListNotations.
Local Open Scope N_scope.
Local Open Scope list_scope.

(** [w] was accepted: the counterpart of [taken5] on the packets of one connection. *)
Definition ptaken (w : wpub5) (out : list pkt5) : Prop :=
  (forall code r, ~ In (KDisconnect code r) out) /\
  match w5_qp w with
  | Q0 => True
  | Q1 i => exists code, code < 0x80 /\ In (KPuback i code) out
  | Q2 i => exists code, code < 0x80 /\ In (KPubrec i code) out
  end.
Lemma ptaken_more w out l : ptaken w out -> ptaken w (out ++ map of_sent5 l).
Proof.
  intros (H1 & H2). split.
  - intros code r X. apply in_app_or in X. destruct X as [X|X]; [exact (H1 _ _ X)|]. apply in_map_iff in X. destruct X as ([y|y] & X & _); discriminate.
  - destruct (w5_qp w); auto; destruct H2 as (code & L & X); exists code; (split; [exact L|apply in_or_app; auto]).
Qed.
Lemma ack_taken w n : ptaken w (publish_ack (w5_qp w) n).
Proof.
  split.
  - intros code r. unfold publish_ack. destruct (w5_qp w); cbn; [tauto| |]; intros [X|[]]; discriminate.
  - unfold publish_ack. destruct (w5_qp w); [exact Logic.I| |]; (eexists; split; [|left; reflexivity]); destruct n; reflexivity.
Qed.
Lemma resolve_read amax w s :
  match resolve_topic amax w s with
  | (s1, inl t) => client_read amax (s_alias s) w = (Some t, s_alias s1) /\ s1 = with_alias (s_alias s1) s
  | (s1, inr _) => s1 = s
  end.
Proof.
  unfold resolve_topic, client_read. assert (E : s = with_alias (s_alias s) s) by now destruct s. destruct (pp_alias _) as [a|].
  - destruct (a =? 0); [reflexivity|]. cbn [orb]. destruct (amax <? a); [reflexivity|]. destruct (String.eqb _ _).
    + destruct (aget a (s_alias s)); [|reflexivity]. auto.
    + auto.
  - destruct (String.eqb _ _); auto.
Qed.

Section Client.
  Variable O : string -> string -> string * option N -> qos -> Prop.
  Variable cap : N.
  Variable A : string -> Prop.
  Variable hash5 : wpub5 -> N.
  Variable pick : string -> string -> N.
  Notation rc_ok := (rc_ok O). Notation nm_ok := (nm_ok O cap). Notation bcast_ok := (bcast_ok O cap). Notation glob_ok := (glob_ok O cap).
  Notation otr := (otr O cap A). Notation subs_ok := (subs_ok A). Notation step5ok := (step5ok O cap A).

  Lemma glob_sub f id q t p g : qos_num q <= cap -> rt_subscribe (g_route g) f id q = (t, p) -> glob_ok g -> glob_ok (set_route t g).
  Proof.
    intros Q E (ops & hr & RT & H1 & RE & H2). exists (ops ++ [Sub f id q]), hr. cbn [set_route g_route g_retain]. split; [|split; [|split; [exact RE|exact H2]]].
    - rewrite rt_run_snoc. cbn [rt_step]. now rewrite <- RT, E.
    - intros f' c' q' X. apply in_app_or in X. destruct X as [X|[X|[]]]; [eauto|]. injection X as _ _ <-. exact Q.
  Qed.
  Lemma glob_unsub f id t p g : rt_unsubscribe (g_route g) f id = (t, p) -> glob_ok g -> glob_ok (set_route t g).
  Proof.
    intros E (ops & hr & RT & H1 & RE & H2). exists (ops ++ [Unsub f id]), hr. cbn [set_route g_route g_retain]. split; [|split; [|split; [exact RE|exact H2]]].
    - rewrite rt_run_snoc. cbn [rt_step]. now rewrite <- RT, E.
    - intros f' c' q' X. apply in_app_or in X. destruct X as [X|[X|[]]]; [eauto|discriminate].
  Qed.
  Lemma glob_ret f g ms : valid_filter f -> glob_ok g -> ret_get_matches (g_retain g) f = Some ms -> forall m, In m ms -> rc_ok m /\ topic_matches f (rc_topic m).
  Proof.
    intros V (ops & hr & RT & H1 & RE & H2) E m M. destruct (retained_lookup_lemma hr f V) as (l & L & _ & H). rewrite RE, L in E. injection E as ->.
    apply H in M. destruct M as (M1 & M2). split; [|apply M2]. apply H2. eapply retained_in, M1.
  Qed.

  Lemma retained_ok now f o : A f -> is_shared f = false -> qos_num (so_qos o) <= cap -> forall ms s s' out pend,
    (forall m, In m ms -> rc_ok m /\ topic_matches f (rc_topic m)) -> send_retained now f o ms s = (s', out, pend) -> step5ok s out s'.
  Proof.
    intros HA SH Q. induction ms as [|m ms IH]; intros s s' out pend HM E; cbn [send_retained] in E.
    - injection E as <- <- <-. apply k_refl. constructor.
    - destruct (so_no_local o && _). { eapply IH; [|exact E]. intros; apply HM; now right. }
      destruct (recv_publish5 _ _ _) as [s1 res] eqn:R. destruct (send_retained now f o ms s1) as [[s2 out2] p2] eqn:S2.
      destruct (HM m (or_introl eq_refl)) as ((M1 & M2 & M3) & M4).
      destruct (fun X Y Z => recv_ok O cap A now _ _ _ _ f X Y Z R) as (K & _); [split; [exact M1|split; [exact M2|split; [exact M3|exact Q]]]|exact HA| |].
      { unfold selects. unfold is_shared in SH. destruct (shared_info f); [discriminate|]. exact M4. }
      assert (K2 : step5ok s1 out2 s2) by (eapply IH; [intros; apply HM; now right|exact S2]).
      destruct res as [[q k]|]; injection E as <- <- <-.
      + destruct k as [k|]; exact (k_trans O cap A _ _ _ _ _ K K2).
      + exact (k_trans O cap A _ _ _ _ _ K K2).
  Qed.

  Lemma sub_one_ok now id f o s g s' g' code out : cf_max_qos (g_cfg g) = cap -> glob_ok g -> valid_filter f -> (code <= 2 -> A f) ->
    subscribe_one now id f o s g = Done (s', g', code, out) -> step5ok s out s' /\ glob_ok g' /\ g_cfg g' = g_cfg g.
  Proof.
    intros CQ G V HA E. unfold subscribe_one in E. destruct (max_allowed_qos (g_cfg g)) as [mq|] eqn:MQ; [|discriminate]. apply max_num in MQ.
    set (cd := sub_code _ _ _) in *. set (gr := qos_min (so_qos o) mq) in *. assert (GQ : qos_num gr <= cap) by (pose proof (min_le (so_qos o) mq); subst gr; lia).
    destruct (N.ltb_spec cd 0x80) as [LT|GE].
    2:{ injection E as <- <- <- <-. split; [apply k_refl; constructor|auto]. }
    assert (CD : cd <= 2).
    { clear -LT. subst cd. revert LT. unfold sub_code. destruct (negb (cf_shared (g_cfg g)) && is_shared f); [intros X; vm_compute in X; discriminate X|].
      destruct (negb (cf_wildcard (g_cfg g)) && has_wildcard f); [intros X; vm_compute in X; discriminate X|]. intros _. destruct gr; vm_compute; discriminate. }
    destruct (rt_subscribe _ _ _ _) as (t, p) eqn:R. destruct p; [discriminate|]. pose proof (glob_sub _ _ _ _ _ _ GQ R G) as G1.
    set (o1 := SubOpts gr _ _ _) in *. set (s1 := with_subs _ s) in *.
    assert (HF : code = cd -> step5ok s [] s1).
    { intros ->. constructor; auto; [apply otr_refl|]. intros HS f' X. cbn [s1 with_subs s_subs] in X. apply in_keys_aset in X. destruct X as [->|X]; auto. }
    destruct (cf_retain (g_cfg g) && negb (is_shared f) && _) eqn:SD.
    - destruct (ret_get_matches (g_retain g) f) as [ms|] eqn:RM; [|discriminate]. destruct (send_retained now f o1 ms s1) as [[s2 out2] pend] eqn:SR.
      assert (NS : is_shared f = false) by (apply andb_true_iff in SD; destruct SD as (SD & _); apply andb_true_iff in SD; destruct SD as (_ & SD); now apply negb_true_iff in SD).
      assert (K2 : code = cd -> step5ok s out2 s2).
      { intros X. change out2 with ([] ++ out2). eapply k_trans; [exact (HF X)|]. refine (retained_ok now f o1 _ NS GQ _ _ _ _ _ _ SR); [apply HA; lia|]. eapply glob_ret; eauto. }
      destruct pend.
      + pose proof (k_pendings O cap A now s2) as KP. destruct (pendings5 now s2) as [s3 out3]. injection E as <- <- <- <-. split; [|split; [exact G1|reflexivity]].
        eapply k_trans; [exact (K2 eq_refl)|exact KP].
      + injection E as <- <- <- <-. split; [exact (K2 eq_refl)|split; [exact G1|reflexivity]].
    - injection E as <- <- <- <-. split; [exact (HF eq_refl)|split; [exact G1|reflexivity]].
  Qed.
  Lemma sub_all_ok now id : forall fs s g s' g' codes out, cf_max_qos (g_cfg g) = cap -> glob_ok g -> Forall (fun e => valid_filter (fst e)) fs ->
    (forall n f o code, nth_error fs n = Some (f, o) -> nth_error codes n = Some code -> code <= 2 -> A f) ->
    subscribe_all now id fs s g = Done (s', g', codes, out) -> step5ok s out s' /\ glob_ok g' /\ g_cfg g' = g_cfg g.
  Proof.
    induction fs as [|[f o] fs IH]; intros s g s' g' codes out CQ G V HA E; cbn [subscribe_all] in E.
    - injection E as <- <- <- <-. split; [apply k_refl; constructor|auto].
    - destruct (subscribe_one now id f o s g) as [(((s1, g1), code), out1)|] eqn:E1; [|discriminate].
      destruct (subscribe_all now id fs s1 g1) as [(((s2, g2), codes2), out2)|] eqn:E2; [|discriminate]. injection E as <- <- <- <-. pose proof (Forall_inv V) as V1. pose proof (Forall_inv_tail V) as V2. cbn [fst] in V1.
      destruct (sub_one_ok _ _ _ _ _ _ _ _ _ _ CQ G V1 (HA 0%nat _ _ _ eq_refl eq_refl) E1) as (K1 & G1 & C1).
      destruct (IH s1 g1 s2 g2 codes2 out2) as (K2 & G2 & C2); auto; [congruence|intros n; exact (HA (Datatypes.S n))|].
      split; [eapply k_trans; eauto|split; [exact G2|congruence]].
  Qed.
  Lemma unsub_all_ok : forall fs s g s' g' codes, glob_ok g -> unsubscribe_all fs s g = Done (s', g', codes) -> step5ok s [] s' /\ glob_ok g' /\ g_cfg g' = g_cfg g.
  Proof.
    induction fs as [|f fs IH]; intros s g s' g' codes G E; cbn [unsubscribe_all] in E.
    - injection E as <- <- <-. split; [apply k_refl; constructor|auto].
    - destruct (rt_unsubscribe _ _ _) as (t, p) eqn:R. destruct p; [discriminate|].
      destruct (unsubscribe_all fs _ _) as [((s1, g1), codes1)|] eqn:E1; [|discriminate]. injection E as <- <- <-.
      destruct (IH _ _ _ _ _ (glob_unsub _ _ _ _ _ R G) E1) as (K & G1 & C1). split; [|split; [exact G1|exact C1]].
      change (@nil pkt5) with (@nil pkt5 ++ []). eapply k_trans; [|exact K]. constructor; auto; [apply otr_refl|].
      intros HS f' X. apply HS. cbn [with_subs s_subs] in X. eapply in_keys_adel_sub; eauto.
  Qed.

  (** What a packet does to the session. *)
  Definition after5 (amax : N) (x : in5) (s s' : sess5) : Prop :=
    is_disconnected5 s' = false -> s_alias s' = match x with IPub w => snd (client_read amax (s_alias s) w) | _ => s_alias s end.
  Lemma publish_ok w s g s' g' out : valid_topic_name (w5_topic w) -> glob_ok g -> bcast_ok (s_bcast s) ->
    (forall a t, aget a (s_alias s) = Some t -> valid_topic_name t /\ t <> EmptyString) ->
    (forall t, ptaken w out -> fst (client_read (cf_alias_max (g_cfg g)) (s_alias s) w) = Some t -> starts_with_dollar (w5_topic w) = false ->
       w5_dup w = false \/ (exists i, w5_qp w = Q1 i) -> O t (w5_payload w) (kept (w5_props w)) (qp_qos (w5_qp w))) ->
    handle_publish5 hash5 pick w s g = Done (s', g', out) ->
    s_out s' = s_out s /\ s_subs s' = s_subs s /\ Forall no_pub out /\ bcast_ok (s_bcast s') /\ glob_ok g' /\ after5 (cf_alias_max (g_cfg g)) (IPub w) s s'.
  Proof.
    intros V G B AL HO E. unfold handle_publish5 in E. cbv zeta in E.
    assert (RF : forall code reason q, s_bcast q = s_bcast s -> s_out q = s_out s -> s_subs q = s_subs s ->
       (let '(s1, k) := error_disconnect code reason q in Done (s1, g, [k])) = Done (s', g', out) ->
       s_out s' = s_out s /\ s_subs s' = s_subs s /\ Forall no_pub out /\ bcast_ok (s_bcast s') /\ glob_ok g' /\ after5 (cf_alias_max (g_cfg g)) (IPub w) s s').
    { intros code reason q Q1 Q2 Q3 X. injection X as <- <- <-. cbn. rewrite Q1, Q2, Q3. split; [reflexivity|]. split; [reflexivity|].
      split; [repeat constructor|]. split; [exact B|]. split; [exact G|]. intros X. unfold is_disconnected5 in X. cbn in X. rewrite orb_true_r in X. discriminate. }
    destruct (starts_with_dollar (w5_topic w)) eqn:SD; [eapply RF; [..|exact E]; auto|].
    destruct (is_q0 (w5_qp w) && w5_dup w) eqn:Q0; [eapply RF; [..|exact E]; auto|].
    pose proof (resolve_read (cf_alias_max (g_cfg g)) w s) as RR. destruct (resolve_topic _ w s) as [s1 [t|(code, reason)]].
    2:{ subst s1. eapply RF; [..|exact E]; auto. }
    destruct RR as (RD & S1).
    assert (T : valid_topic_name t /\ t <> EmptyString).
    { unfold client_read in RD. destruct (pp_alias _) as [a|].
      - destruct (_ || _); [discriminate|]. destruct (String.eqb_spec (w5_topic w) "").
        + apply (AL a). injection RD as RD _. exact RD.
        + injection RD as <- _. auto.
      - destruct (String.eqb_spec (w5_topic w) ""); [discriminate|]. injection RD as <- _. auto. }
    assert (F1 : s_bcast s1 = s_bcast s /\ s_out s1 = s_out s /\ s_subs s1 = s_subs s) by (rewrite S1; auto). destruct F1 as (F1 & F2 & F3).
    destruct (negb (is_nil _)); [eapply RF; [..|exact E]; auto|].
    assert (CQ : exists q, fst (check_qos2 hash5 (cf_inflight_server (g_cfg g)) w s1) = with_qos2 q s1).
    { unfold check_qos2. assert (X : s1 = with_qos2 (s_qos2 s1) s1) by now destruct s1. destruct (w5_qp w); [eexists; exact X..|].
      destruct (aget _ _); [destruct (negb _); [|destruct (negb _)]|destruct (_ <=? _)]; cbn [fst]; try (eexists; exact X). eexists. reflexivity. }
    destruct CQ as (q & CQ). destruct (check_qos2 _ _ w s1) as [s2 v] eqn:CK. cbn [fst] in CQ.
    assert (F4 : s_bcast s2 = s_bcast s /\ s_out s2 = s_out s /\ s_subs s2 = s_subs s /\ s_alias s2 = s_alias s1) by (subst s2; auto).
    destruct F4 as (F4 & F5 & F6 & F7).
    destruct v as [| |code reason].
    - destruct (w5_dup w && is_q2 (w5_qp w)) eqn:DQ.
      + injection E as <- <- <-. rewrite F4. split; [exact F5|]. split; [exact F6|]. split; [destruct (w5_qp w); repeat constructor|]. split; [exact B|]. split; [exact G|].
        intros _. rewrite F7, RD. reflexivity.
      + destruct (enc_len5 w) as [len|]; [|discriminate]. destruct (send_publish5 _ _ _ _) as [((s3, g3), n)|] eqn:SP; [|discriminate]. injection E as <- <- <-.
        assert (DP : w5_dup w = false \/ (exists i, w5_qp w = Q1 i)) by (destruct (w5_qp w) as [|i|i], (w5_dup w); try discriminate Q0; try discriminate DQ; eauto).
        rewrite <- F4 in B. destruct (send5_ok O cap pick (SendPub t (w5_retain w) (qp_qos (w5_qp w)) (w5_payload w) (set_alias None (w5_props w)) len) _ _ _ _ _ G B
          (HO t (ack_taken w n) (f_equal fst RD) eq_refl DP) eq_refl (proj2 T) (proj1 T) SP) as (G3 & B3 & E3).
        rewrite E3. cbn [with_bcast s_out s_subs s_bcast s_alias]. split; [exact F5|]. split; [exact F6|]. split; [unfold publish_ack; destruct (w5_qp w); repeat constructor|].
        split; [exact B3|]. split; [exact G3|]. intros _. cbn [with_bcast s_alias]. rewrite F7, RD. reflexivity.
    - injection E as <- <- <-. rewrite F4. split; [exact F5|]. split; [exact F6|]. split; [repeat constructor|]. split; [exact B|]. split; [exact G|].
      intros _. rewrite F7, RD. reflexivity.
    - eapply RF; [..|exact E]; auto.
  Qed.

  Definition asked5 (len : N) (x : in5) (s : sess5) (g : glob) (out : list pkt5) : Prop :=
    match x with
    | IPub w => len <= cf_packet_server (g_cfg g) -> ptaken w out -> forall t, fst (client_read (cf_alias_max (g_cfg g)) (s_alias s) w) = Some t -> starts_with_dollar (w5_topic w) = false ->
       w5_dup w = false \/ (exists i, w5_qp w = Q1 i) -> O t (w5_payload w) (kept (w5_props w)) (qp_qos (w5_qp w))
    | ISub pid _ fs => forall codes n f o code, In (KSuback pid codes) out -> nth_error fs n = Some (f, o) -> nth_error codes n = Some code -> code <= 2 -> A f
    | _ => True
    end.
  Record pkt5ok (amax : N) (x : in5) (s : sess5) (out : list pkt5) (s' : sess5) (g' : glob) : Prop := {
    j_out : otr (s_out s) out (s_out s');
    j_subs : subs_ok s -> subs_ok s';
    j_bcast : bcast_ok (s_bcast s');
    j_glob : glob_ok g';
    j_alias : after5 amax x s s'
  }.
  Lemma of_step x amax s out s' g' : match x with IPub _ => is_disconnected5 s' = true | _ => True end -> step5ok s out s' -> glob_ok g' -> bcast_ok (s_bcast s) -> pkt5ok amax x s out s' g'.
  Proof.
    intros X [K1 K2 K3 K4] G B. constructor; auto. intros H. destruct x; try (apply K4; exact H). congruence.
  Qed.
  Lemma handle_ok now len x s g s' g' out more : wf_in5 x -> cf_max_qos (g_cfg g) = cap -> glob_ok g -> bcast_ok (s_bcast s) ->
    (forall a t, aget a (s_alias s) = Some t -> valid_topic_name t /\ t <> EmptyString) -> asked5 len x s g (out ++ map of_sent5 more) ->
    handle_packet5 hash5 pick now len x s g = Go s' g' out -> pkt5ok (cf_alias_max (g_cfg g)) x s out s' g'.
  Proof.
    intros W CQ G B AL HA E. unfold handle_packet5 in E. destruct (N.ltb_spec (cf_packet_server (g_cfg g)) len) as [LT|LE].
    { destruct (error_disconnect _ _ s) as [s1 k] eqn:ED. injection E as <- <- <-. destruct (k_refuse O cap A _ _ _ _ _ ED) as (K & DI). apply of_step; auto. destruct x; auto. }
    destruct x as [w|p|p|p|p|p id fs|p fs| |code ex|].
    - destruct (handle_publish5 _ _ _ _ _) as [((s1, g1), out1)|] eqn:HP; [|discriminate]. injection E as <- <- <-.
      assert (HO : forall t, ptaken w out1 -> fst (client_read (cf_alias_max (g_cfg g)) (s_alias s) w) = Some t -> starts_with_dollar (w5_topic w) = false ->
       w5_dup w = false \/ (exists i, w5_qp w = Q1 i) -> O t (w5_payload w) (kept (w5_props w)) (qp_qos (w5_qp w))).
      { intros t T. apply HA; [exact LE|]. now apply ptaken_more. }
      destruct (publish_ok w s g s1 g1 out1 (proj1 W) G B AL HO HP) as (X1 & X2 & X3 & X4 & X5 & X6).
      constructor; auto; [rewrite X1; now apply otr_other|]. unfold OriginOut.subs_ok. now rewrite X2.
    - injection E as <- <- <-. apply of_step; auto. apply k_with_out, otr_queue. intros q H. now apply all_complete.
    - unfold handle_pubrec5 in E. pose proof (otr_queue O cap A (pend_pubrec now p) (s_out s)) as H. destruct (out5_on_queue _ _) as [o ok]. injection E as <- <- <-. apply of_step; auto.
      apply k_with_out. change [KPubrel p (if ok then RC_success else RC_pid_not_found)] with ([] ++ [KPubrel p (if ok then RC_success else RC_pid_not_found)]).
      eapply otr_trans; [apply H|apply otr_other; repeat constructor]. intros q Q. now apply all_pubrec.
    - unfold handle_pubrel5 in E. destruct (aget p (s_qos2 s)); injection E as <- <- <-; (apply of_step; auto); [|apply k_refl; repeat constructor].
      constructor; auto. apply otr_other; repeat constructor.
    - injection E as <- <- <-. apply of_step; auto. apply k_with_out, otr_queue. intros q H. now apply all_complete.
    - unfold handle_subscribe5 in E.
      assert (X : (if negb (cf_subid (g_cfg g)) && match id with Some _ => true | None => false end
        then Done (s, g, [KSuback p (map (fun _ => RC_subid_not_supported) fs)])
        else match subscribe_all now id fs s g with Panic => Panic | Done (s', g', codes, out) => Done (s', g', (out ++ [KSuback p codes])%list) end) = Done (s', g', out) ->
        pkt5ok (cf_alias_max (g_cfg g)) (ISub p id fs) s out s' g').
      { destruct (_ && _).
        - intros X. injection X as <- <- <-. apply of_step; auto. apply k_refl; repeat constructor.
        - destruct (subscribe_all now id fs s g) as [(((s1, g1), codes), out1)|] eqn:SA; [|discriminate]. intros X. injection X as <- <- <-.
          destruct (sub_all_ok _ _ _ _ _ _ _ _ _ CQ G W (fun n f o code => HA codes n f o code ltac:(apply in_or_app; left; apply in_or_app; right; left; reflexivity)) SA) as (K & G1 & _).
          apply of_step; auto. eapply k_trans; [exact K|]. apply k_refl; repeat constructor. }
      destruct id as [[|i]|].
      + destruct (error_disconnect _ _ s) as [s1 k] eqn:ED. injection E as <- <- <-. destruct (k_refuse O cap A _ _ _ _ _ ED) as (K & _). apply of_step; auto.
      + apply X. destruct (if negb _ && _ then _ else _) as [((a, b), l)|]; [|discriminate]. injection E as <- <- <-. reflexivity.
      + apply X. destruct (if negb _ && _ then _ else _) as [((a, b), l)|]; [|discriminate]. injection E as <- <- <-. reflexivity.
    - unfold handle_unsubscribe5 in E. destruct (unsubscribe_all fs s g) as [((s1, g1), codes)|] eqn:UA; [|discriminate]. injection E as <- <- <-.
      destruct (unsub_all_ok _ _ _ _ _ _ G UA) as (K & G1 & _). apply of_step; auto. change [KUnsuback p codes] with ([] ++ [KUnsuback p codes]).
      eapply k_trans; [exact K|]. apply k_refl; repeat constructor.
    - injection E as <- <- <-. apply of_step; auto. apply k_refl; repeat constructor.
    - unfold handle_disconnect5 in E. destruct (match ex with Some v => _ | None => _ end) as [s1|] eqn:CH.
      + injection E as <- <- <-.
        assert (F : s_out s1 = s_out s /\ s_subs s1 = s_subs s /\ s_bcast s1 = s_bcast s).
        { destruct ex as [v|]; [destruct (_ && _); [discriminate|]|]; injection CH as <-; auto. }
        destruct F as (F1 & F2 & F3). apply of_step; auto. constructor.
        * destruct (code =? 0); cbn; rewrite F1; apply otr_refl.
        * unfold OriginOut.subs_ok. destruct (code =? 0); cbn; rewrite F2; auto.
        * destruct (code =? 0); cbn; rewrite F3; auto.
        * intros D. destruct (code =? 0); discriminate D.
      + destruct (error_disconnect _ _ s) as [s1 k] eqn:ED. injection E as <- <- <-. destruct (k_refuse O cap A _ _ _ _ _ ED) as (K & _). apply of_step; auto.
    - discriminate.
  Qed.
  Lemma packet_ok now len x s g s' g' out : wf_in5 x -> cf_max_qos (g_cfg g) = cap -> glob_ok g -> bcast_ok (s_bcast s) ->
    (forall a t, aget a (s_alias s) = Some t -> valid_topic_name t /\ t <> EmptyString) -> asked5 len x s g out ->
    packet_step5 hash5 pick now len x s g = Go s' g' out -> pkt5ok (cf_alias_max (g_cfg g)) x s out s' g'.
  Proof.
    intros W CQ G B AL HA E. unfold packet_step5 in E. destruct (handle_packet5 _ _ now len x s g) as [s1 g1 out1| |] eqn:HP; [|discriminate..].
    unfold after_packet5 in E. destruct (is_disconnected5 s1) eqn:DI.
    - injection E as <- <- <-. rewrite app_nil_r in *. eapply (handle_ok _ _ _ _ _ _ _ _ []); eauto. cbn. rewrite app_nil_r. exact HA.
    - pose proof (k_pendings O cap A now (with_last now s1)) as K. unfold pendings5 in *. cbn [with_last s_out] in *. destruct (handle_pendings5 now (s_out s1)) as [o l]. cbn [fst snd] in K.
      injection E as <- <- <-. destruct (handle_ok now len x s g s1 g1 out1 l W CQ G B AL HA HP) as [K1 K2 K3 K4 K5]. destruct K as [L1 L2 L3 L4].
      constructor; [eapply otr_trans; [exact K1|exact L1]|intros H; apply L2, K2, H|apply L3, K3|exact K4|intros _; exact (K5 DI)].
  Qed.
End Client.
