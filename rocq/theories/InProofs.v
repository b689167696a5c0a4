(** What the packet handlers do to a session: frame lemmas, the cases of a
    PUBLISH, and the invariant of runs. *)
From Coq Require Import List Bool String NArith Lia.
From Verif Require Import Base BaseLemmas TopicModel TopicSpec MsgModel RouteModel RouteSpec RouteInv RetainModel
  PendingModel AliasModel OutModel GlobModel Sess5Model Sess3Model ConnModel DelivSpec DelivProofs DelivFacts InSpec.
Import ListNotations.
Local Open Scope N_scope.

(** Only the sending side and the subscriptions differ. *)
Definition outsubs (s s' : sess5) : Prop := exists o m, s' = with_subs m (with_out o s).

Lemma outsubs_refl s : outsubs s s.
Proof. exists (s_out s), (s_subs s). now destruct s. Qed.
Lemma outsubs_trans a b c : outsubs a b -> outsubs b c -> outsubs a c.
Proof. intros (o & m & ->) (o' & m' & ->). exists o', m'. now destruct a. Qed.
Lemma outsubs_out o s : outsubs s (with_out o s).
Proof. exists o, (s_subs s). now destruct s. Qed.
Lemma outsubs_subs m s : outsubs s (with_subs m s).
Proof. exists (s_out s), m. now destruct s. Qed.

Lemma outsubs_same s s' : outsubs s s' ->
  s_alias s' = s_alias s /\ s_qos2 s' = s_qos2 s /\ s_id s' = s_id s /\ s_ident s' = s_ident s /\
  s_bcast s' = s_bcast s /\ s_bcnt s' = s_bcnt s /\ s_sdisc s' = s_sdisc s /\ s_cdisc s' = s_cdisc s /\
  s_maxpkt s' = s_maxpkt s /\ s_will s' = s_will s /\ s_expiry s' = s_expiry s.
Proof. intros (o & m & ->). repeat split. Qed.

Lemma recv_frame now m s s' r : recv_publish5 now m s = (s', r) -> exists o, s' = with_out o s.
Proof.
  unfold recv_publish5. intros E.
  assert (Hs : exists o, s = with_out o s) by (exists (s_out s); now destruct s).
  destruct (match rp_ids m with Precomputed l => Some l | Lookup f => _ end); [|injection E as <- _; auto].
  destruct (negb (qos_eqb _ L0)).
  - destruct (s_maxpkt s <? rp_len m); [injection E as <- _; auto|].
    destruct (out5_push _ _ _). injection E as <- _. eauto.
  - destruct (negb (s_cdisc s) && negb (s_sdisc s)); [|injection E as <- _; auto].
    destruct (s_maxpkt s <? _); [injection E as <- _; auto|].
    destruct (out5_qos0 _ _ _ _ _). injection E as <- _. eauto.
Qed.

Lemma normal_frame now c m s s' r : handle_normal5 now c m s = (s', r) -> exists o, s' = with_out o s.
Proof.
  assert (Hs : exists o, s = with_out o s) by (exists (s_out s); now destruct s).
  unfold handle_normal5. destruct m as [m|m].
  - destruct (aget _ _); [apply recv_frame|]. intros E; injection E as <- _; auto.
  - destruct (filters_info _ _) as ((has, rap), ids). destruct has; [apply recv_frame|].
    intros E; injection E as <- _; auto.
Qed.

Lemma pendings_frame now s s' out : pendings5 now s = (s', out) -> exists o, s' = with_out o s.
Proof. unfold pendings5. destruct (handle_pendings5 _ _). intros E. injection E as <- _. eauto. Qed.

(** Packets sent by the sending side itself: PUBLISH and PUBREL. *)
Definition own_kind (k : pkt5) : Prop := match k with KPub _ | KPubrel _ _ => True | _ => False end.

Lemma pendings_kind now s s' out : pendings5 now s = (s', out) -> Forall own_kind out.
Proof.
  unfold pendings5. destruct (handle_pendings5 _ _) as (o, l). intros E. injection E as _ <-.
  apply Forall_forall. intros k H. apply in_map_iff in H. destruct H as (x & <- & _). destruct x; exact I.
Qed.

Lemma recv_kind now m s s' r : recv_publish5 now m s = (s', r) -> match r with Some (_, Some k) => own_kind k | _ => True end.
Proof.
  unfold recv_publish5. intros E.
  destruct (match rp_ids m with Precomputed l => Some l | Lookup f => _ end); [|injection E as _ <-; exact I].
  destruct (negb (qos_eqb _ L0)).
  - destruct (s_maxpkt s <? rp_len m); [injection E as _ <-; exact I|].
    destruct (out5_push _ _ _). injection E as _ <-. exact I.
  - destruct (negb (s_cdisc s) && negb (s_sdisc s)); [|injection E as _ <-; exact I].
    destruct (s_maxpkt s <? _); [injection E as _ <-; exact I|].
    destruct (out5_qos0 _ _ _ _ _). injection E as _ <-. exact I.
Qed.

Lemma retained_frame now f o ms : forall s s' out pend, send_retained now f o ms s = (s', out, pend) ->
  (exists x, s' = with_out x s) /\ Forall own_kind out.
Proof.
  induction ms as [|m ms IH]; intros s s' out pend E; cbn [send_retained] in E.
  - injection E as <- <- <-. split; [exists (s_out s); now destruct s|constructor].
  - destruct (so_no_local o && _); [now apply IH in E|].
    destruct (recv_publish5 _ _ _) as (s1, res) eqn:R.
    destruct (send_retained _ _ _ _ s1) as ((s2, o2), p2) eqn:S. apply IH in S. destruct S as ((x2 & ->) & Hk).
    pose proof (recv_frame _ _ _ _ _ R) as (x1 & ->). pose proof (recv_kind _ _ _ _ _ R) as Hr.
    assert (Hx : exists x, with_out x2 (with_out x1 s) = with_out x s) by (exists x2; now destruct s).
    destruct res as [(q, k)|]; injection E as <- <- <-; split; auto.
    destruct k; cbn [opt_list app]; auto.
Qed.

Lemma subscribe_one_frame now id f o s g s' g' code out :
  subscribe_one now id f o s g = Done (s', g', code, out) ->
  outsubs s s' /\ Forall own_kind out /\
  (g' = g \/ exists q, g' = set_route (fst (rt_subscribe (g_route g) f (s_id s) q)) g).
Proof.
  unfold subscribe_one. destruct (max_allowed_qos _); [|discriminate].
  destruct (_ <? 0x80).
  2:{ intros E. injection E as <- <- <- <-. repeat split; auto using outsubs_refl. }
  destruct (rt_subscribe _ _ _ _) as (t, p) eqn:R. destruct p; [discriminate|].
  assert (G : exists q, set_route t g = set_route (fst (rt_subscribe (g_route g) f (s_id s) q)) g)
    by (eexists; now rewrite R).
  destruct (_ && _).
  2:{ intros E. injection E as <- <- <- <-. repeat split; auto using outsubs_subs. }
  destruct (ret_get_matches _ _); [|discriminate].
  destruct (send_retained _ _ _ _ _) as ((s2, o2), pend) eqn:S. apply retained_frame in S.
  destruct S as ((x & ->) & Hk). destruct pend.
  - destruct (pendings5 _ _) as (s3, o3) eqn:P. pose proof (pendings_frame _ _ _ _ P) as (y & ->).
    apply pendings_kind in P. intros E. injection E as <- <- <- <-. split; [|split]; auto.
    + eapply outsubs_trans; [eapply outsubs_trans; [apply outsubs_subs|apply outsubs_out]|apply outsubs_out].
    + apply Forall_app. auto.
  - intros E. injection E as <- <- <- <-. split; [|split]; auto.
    eapply outsubs_trans; [apply outsubs_subs|apply outsubs_out].
Qed.

Lemma subscribe_all_frame now id fs : forall s g s' g' codes out,
  subscribe_all now id fs s g = Done (s', g', codes, out) -> outsubs s s' /\ Forall own_kind out.
Proof.
  induction fs as [|(f, o) fs IH]; intros s g s' g' codes out E; cbn [subscribe_all] in E.
  - injection E as <- <- <- <-. split; [apply outsubs_refl|constructor].
  - destruct (subscribe_one _ _ _ _ _ _) as [(((s1, g1), code), o1)|] eqn:S; [|discriminate].
    apply subscribe_one_frame in S. destruct S as (S1 & S2 & _).
    destruct (subscribe_all _ _ _ _ _) as [(((s2, g2), cs), o2)|] eqn:A; [|discriminate].
    injection E as <- <- <- <-. apply IH in A. destruct A as (A1 & A2). split.
    + eapply outsubs_trans; eauto.
    + apply Forall_app. auto.
Qed.

Lemma unsubscribe_all_frame fs : forall s g s' g' codes,
  unsubscribe_all fs s g = Done (s', g', codes) -> outsubs s s'.
Proof.
  induction fs as [|f fs IH]; intros s g s' g' codes E; cbn [unsubscribe_all] in E.
  - injection E as <- <- <-. apply outsubs_refl.
  - destruct (rt_unsubscribe _ _ _) as (t, p). destruct p; [discriminate|].
    destruct (unsubscribe_all _ _ _) as [((s2, g2), cs)|] eqn:A; [|discriminate].
    injection E as <- <- <-. apply IH in A. eapply outsubs_trans; [apply outsubs_subs|exact A].
Qed.

Section Publish.
  Variable hash : wpub5 -> N.
  Variable pick : string -> string -> N.

  (** A topic name accepted from a client or bound to an alias. *)
  Definition good_topic (t : string) : Prop :=
    valid_topic_name t /\ t <> EmptyString /\ starts_with_dollar t = false.
  Definition good_aliases (s : sess5) : Prop := forall a t, aget a (s_alias s) = Some t -> good_topic t.

  (** The topic of a PUBLISH, from the alias table. *)
  Definition topic_of (amax : N) (w : wpub5) (s : sess5) : option string :=
    match pp_alias (w5_props w) with
    | Some a => if (1 <=? a) && (a <=? amax)
                then if String.eqb (w5_topic w) "" then aget a (s_alias s) else Some (w5_topic w)
                else None
    | None => if String.eqb (w5_topic w) "" then None else Some (w5_topic w)
    end.

  Definition alias_after (amax : N) (w : wpub5) (s : sess5) : list (N * string) :=
    match pp_alias (w5_props w) with
    | Some a => if (1 <=? a) && (a <=? amax) && negb (String.eqb (w5_topic w) "")
                then aset a (w5_topic w) (s_alias s) else s_alias s
    | None => s_alias s
    end.

  Lemma resolve_spec amax w s :
    match resolve_topic amax w s with
    | (s1, inl t) => topic_of amax w s = Some t /\ s1 = with_alias (alias_after amax w s) s
    | (s1, inr (code, _)) => topic_of amax w s = None /\ s1 = s /\
        (code = RC_topic_alias_invalid \/ code = RC_protocol_error) /\
        (forall a, pp_alias (w5_props w) = Some a ->
           (code = RC_topic_alias_invalid <-> a = 0 \/ amax < a))
    end.
  Proof.
    assert (Hs : s = with_alias (s_alias s) s) by now destruct s.
    unfold resolve_topic, topic_of, alias_after. destruct (pp_alias (w5_props w)) as [a|].
    - destruct (N.eqb_spec a 0) as [->|Ha].
      { refine (conj eq_refl (conj eq_refl (conj _ _))); auto. intros a' E. injection E as <-. tauto. }
      destruct (N.ltb_spec amax a) as [Hl|Hl].
      { replace ((1 <=? a) && (a <=? amax)) with false
          by (symmetry; apply andb_false_iff; right; apply N.leb_gt; lia).
        refine (conj eq_refl (conj eq_refl (conj _ _))); auto. intros a' E. injection E as <-. tauto. }
      replace ((1 <=? a) && (a <=? amax)) with true
        by (symmetry; apply andb_true_iff; rewrite !N.leb_le; lia).
      destruct (String.eqb_spec (w5_topic w) "") as [Ht|Ht]; cbn [negb andb].
      + destruct (aget a (s_alias s)) eqn:E; [auto|].
        refine (conj eq_refl (conj eq_refl (conj _ _))); auto. intros a' E'; injection E' as <-.
        split; [intros X; discriminate X|lia].
      + auto.
    - destruct (String.eqb (w5_topic w) "").
      + refine (conj eq_refl (conj eq_refl (conj _ _))); auto. discriminate.
      + auto.
  Qed.

  (** What became of the open identifiers. *)
  Definition qos2_after (w : wpub5) (s : sess5) : list (pid * N) :=
    match w5_qp w with
    | Q2 p => match aget p (s_qos2 s) with Some _ => s_qos2 s | None => aset p (hash w) (s_qos2 s) end
    | _ => s_qos2 s
    end.

  Definition room (w : wpub5) (s : sess5) (g : glob) (p : pid) : Prop :=
    N.of_nat (List.length (s_qos2 s)) < cf_inflight_server (g_cfg g).

  (** Nothing makes the server refuse the PUBLISH before the QoS 2 check. *)
  Definition acceptable (w : wpub5) (s : sess5) (g : glob) (T : string) : Prop :=
    starts_with_dollar (w5_topic w) = false /\ ~ (w5_qp w = Q0 /\ w5_dup w = true) /\
    topic_of (cf_alias_max (g_cfg g)) w s = Some T /\ good_topic T /\ pp_subids (w5_props w) = [].

  Inductive refusal (w : wpub5) (s : sess5) (g : glob) : N -> Prop :=
  | rf_dollar : starts_with_dollar (w5_topic w) = true -> refusal w s g RC_topic_name_invalid
  | rf_dup : w5_qp w = Q0 -> w5_dup w = true -> refusal w s g RC_protocol_error
  | rf_topic code : starts_with_dollar (w5_topic w) = false -> ~ (w5_qp w = Q0 /\ w5_dup w = true) ->
      topic_of (cf_alias_max (g_cfg g)) w s = None ->
      (code = RC_topic_alias_invalid \/ code = RC_protocol_error) ->
      (forall a, pp_alias (w5_props w) = Some a ->
         (code = RC_topic_alias_invalid <-> a = 0 \/ cf_alias_max (g_cfg g) < a)) -> refusal w s g code
  | rf_subids T : topic_of (cf_alias_max (g_cfg g)) w s = Some T -> pp_subids (w5_props w) <> [] -> refusal w s g RC_protocol_error
  | rf_nodup T p : acceptable w s g T -> w5_qp w = Q2 p -> aget p (s_qos2 s) = Some (hash w) -> w5_dup w = false ->
      refusal w s g RC_protocol_error
  | rf_full T p : acceptable w s g T -> w5_qp w = Q2 p -> aget p (s_qos2 s) = None -> ~ room w s g p ->
      refusal w s g RC_receive_max_exceeded.

  Inductive pub_result (h : list rop) (w : wpub5) (s s' : sess5) (g g' : glob) (out : list pkt5) : Prop :=
  | pr_refused code : refusal w s g code -> refused5 code s s' g g' out -> s_qos2 s' = s_qos2 s ->
      pub_result h w s s' g g' out
  | pr_in_use T p hh : acceptable w s g T -> w5_qp w = Q2 p -> aget p (s_qos2 s) = Some hh -> hh <> hash w ->
      out = [KPubrec p RC_pid_in_use] -> not_forwarded5 s s' g g' -> s_sdisc s' = s_sdisc s ->
      s_qos2 s' = s_qos2 s ->
      pub_result h w s s' g g' out
  | pr_again T p : acceptable w s g T -> w5_qp w = Q2 p -> w5_dup w = true ->
      (aget p (s_qos2 s) = Some (hash w) \/ aget p (s_qos2 s) = None /\ room w s g p) ->
      out = [KPubrec p RC_success] -> not_forwarded5 s s' g g' -> s_sdisc s' = s_sdisc s ->
      s_qos2 s' = qos2_after w s ->
      pub_result h w s s' g g' out
  | pr_forwarded T len : acceptable w s g T ->
      enc_len5 w = Some len ->
      (forall p, w5_qp w = Q2 p -> aget p (s_qos2 s) = None /\ w5_dup w = false /\ room w s g p) ->
      forwarded5 pick h (PubMsg T (w5_payload w) (qp_qos (w5_qp w)) (w5_retain w)
                           (Some (set_alias None (w5_props w)))) len s s' g g' ->
      out = ack_of (w5_qp w) (match rt_get_matches (rt_run h) T with
                              | [] => RC_no_matching_subscribers | _ => RC_success end) ->
      s_sdisc s' = s_sdisc s -> s_qos2 s' = qos2_after w s ->
      (NoDup (keys (s_bcast s)) -> NoDup (keys (s_bcast s'))) ->
      (s_bcnt s = total (s_bcast s) -> s_bcnt s' = total (s_bcast s')) ->
      pub_result h w s s' g g' out.

  (** Fields a PUBLISH never touches. *)
  Definition pub_same (s s' : sess5) : Prop :=
    s_id s' = s_id s /\ s_ident s' = s_ident s /\ s_out s' = s_out s /\ s_subs s' = s_subs s /\
    s_cdisc s' = s_cdisc s /\ s_will s' = s_will s /\ s_expiry s' = s_expiry s /\ s_maxpkt s' = s_maxpkt s /\
    s_problem s' = s_problem s /\ s_connected s' = s_connected s /\ s_ctime s' = s_ctime s.

  Lemma forwarded5_core h m len s s2 s' g g' :
    s_bcast s2 = s_bcast s -> s_id s2 = s_id s -> s_ident s2 = s_ident s -> s_subs s2 = s_subs s ->
    forwarded5 pick h m len s2 s' g g' -> forwarded5 pick h m len s s' g g'.
  Proof.
    intros E1 E2 E3 E4 (A & B). split; [|now rewrite <- E3]. intros c.
    assert (T : forall f q, through pick h s2 (pm_topic m) c f q <-> through pick h s (pm_topic m) c f q)
      by (intros; unfold through, wanted; now rewrite E2, E4).
    destruct (A c) as (fs & F1 & F2 & F3 & F4). exists fs. rewrite E1 in F3, F4. refine (conj F1 (conj _ (conj F3 _))).
    - intros f. rewrite F2. split; intros (q & H); exists q; now apply T.
    - intros Hf Hr. destruct (F4 Hf Hr) as (sq & (f & G1) & G2 & G3). exists sq. refine (conj _ (conj _ G3)).
      + exists f. now apply T.
      + intros f' q H. apply (G2 f'). now apply T.
  Qed.

  Lemma topic_of_good amax w s T : valid_topic_name (w5_topic w) -> starts_with_dollar (w5_topic w) = false ->
    good_aliases s -> topic_of amax w s = Some T -> good_topic T.
  Proof.
    unfold topic_of. intros V D G E. destruct (pp_alias _) as [a|].
    - destruct (_ && _); [|discriminate]. destruct (String.eqb_spec (w5_topic w) "").
      + eapply G; eauto.
      + injection E as <-. exact (conj V (conj n D)).
    - destruct (String.eqb_spec (w5_topic w) ""); [discriminate|]. injection E as <-. exact (conj V (conj n D)).
  Qed.

  Lemma alias_after_good amax w s : valid_topic_name (w5_topic w) -> starts_with_dollar (w5_topic w) = false ->
    good_aliases s -> forall a t, aget a (alias_after amax w s) = Some t -> good_topic t.
  Proof.
    intros V D G a t. unfold alias_after. destruct (pp_alias _) as [b|]; [|apply G].
    destruct (_ && _) eqn:E; [|apply G]. apply andb_true_iff in E. destruct E as (_ & E).
    apply negb_true_iff, String.eqb_neq in E. rewrite aget_aset. destruct (eqb a b); [|apply G].
    intros X. injection X as <-. exact (conj V (conj E D)).
  Qed.

  Lemma publish_cases h w s g : g_route g = rt_run h -> wf_in5 (IPub w) -> good_aliases s -> s_sdisc s = false ->
    exists s' g' out, handle_publish5 hash pick w s g = Done (s', g', out) /\
      pub_result h w s s' g g' out /\ pub_same s s' /\
      (s_sdisc s' = false -> s_alias s' = alias_after (cf_alias_max (g_cfg g)) w s) /\
      good_aliases s' /\
      g_cfg g' = g_cfg g.
  Proof.
    intros Hr (Hv & Hlen) Hg Hd. unfold handle_publish5.
    set (refuse := fun code reason s => let '(s', k) := error_disconnect code reason s in Done (s', g, [k])).
    assert (RF : forall code reason s1 al q, s1 = with_qos2 q (with_alias al s) -> q = s_qos2 s ->
        (forall a t, aget a al = Some t -> good_topic t) -> refusal w s g code ->
        exists s' g' out, refuse code reason s1 = Done (s', g', out) /\
          pub_result h w s s' g g' out /\ pub_same s s' /\
          (s_sdisc s' = false -> s_alias s' = alias_after (cf_alias_max (g_cfg g)) w s) /\
          good_aliases s' /\ g_cfg g' = g_cfg g).
    { intros code reason s1 al q -> -> Ha R. do 3 eexists. refine (conj eq_refl (conj _ (conj _ (conj _ (conj _ eq_refl))))).
      - eapply pr_refused; [exact R| |reflexivity].
        refine (conj (ex_intro _ _ eq_refl) (conj eq_refl _)). repeat split; auto.
      - repeat split.
      - discriminate.
      - exact Ha. }
    assert (Hs0 : s = with_qos2 (s_qos2 s) (with_alias (s_alias s) s)) by now destruct s.
    destruct (starts_with_dollar (w5_topic w)) eqn:D.
    { eapply RF; eauto. now constructor. }
    destruct (is_q0 (w5_qp w) && w5_dup w) eqn:D0.
    { eapply RF; eauto. apply andb_true_iff in D0. destruct D0 as (D0 & D1).
      apply rf_dup; auto. destruct (w5_qp w); (reflexivity || discriminate). }
    assert (D0' : ~ (w5_qp w = Q0 /\ w5_dup w = true)).
    { intros (X & Y). rewrite X, Y in D0. discriminate. }
    pose proof (resolve_spec (cf_alias_max (g_cfg g)) w s) as RS.
    destruct (resolve_topic _ w s) as (s1, [T|(code, reason)]).
    2:{ destruct RS as (R1 & -> & R2 & R3). eapply RF; eauto. eapply rf_topic; eauto. }
    destruct RS as (R1 & R2). pose proof (topic_of_good _ _ _ _ Hv D Hg R1) as HT.
    pose proof (alias_after_good (cf_alias_max (g_cfg g)) w s Hv D Hg) as HA.
    set (al := alias_after (cf_alias_max (g_cfg g)) w s) in *.
    destruct (is_nil (pp_subids (w5_props w))) eqn:Hn; cbn [negb].
    2:{ eapply (RF _ _ _ al (s_qos2 s)); eauto. eapply rf_subids; eauto. now apply is_nil_false. }
    apply is_nil_true in Hn.
    assert (HAcc : acceptable w s g T) by exact (conj D (conj D0' (conj R1 (conj HT Hn)))).
    (* the session after the identifier check *)
    assert (GO : forall s2, s2 = with_qos2 (qos2_after w s) s1 ->
       (forall p, w5_qp w = Q2 p -> aget p (s_qos2 s) = Some (hash w) /\ w5_dup w = true \/
                                   aget p (s_qos2 s) = None /\ room w s g p) ->
       exists s' g' out,
         (if w5_dup w && is_q2 (w5_qp w) then Done (s2, g, publish_ack (w5_qp w) 1)
          else match enc_len5 w with
               | None => Panic
               | Some len =>
                   match send_publish5 pick (SendPub T (w5_retain w) (qp_qos (w5_qp w)) (w5_payload w)
                                              (set_alias None (w5_props w)) len) s2 g with
                   | Panic => Panic
                   | Done (s3, g', n) => Done (s3, g', publish_ack (w5_qp w) n)
                   end
               end) = Done (s', g', out) /\
          pub_result h w s s' g g' out /\ pub_same s s' /\
          (s_sdisc s' = false -> s_alias s' = al) /\
          good_aliases s' /\ g_cfg g' = g_cfg g).
    { intros s2 E2 HQ. rewrite R2 in E2. destruct (w5_dup w && is_q2 (w5_qp w)) eqn:DD.
      - apply andb_true_iff in DD. destruct DD as (D1 & D2).
        destruct (w5_qp w) as [| |p] eqn:EQ; try discriminate D2.
        do 3 eexists. refine (conj eq_refl (conj _ (conj _ (conj _ (conj _ eq_refl))))).
        + eapply (pr_again _ _ _ _ _ _ _ T p); auto.
          * destruct (HQ p eq_refl) as [(A & _)|A]; auto.
          * subst s2. repeat split.
          * now subst s2.
          * now subst s2.
        + subst s2. repeat split.
        + subst s2. reflexivity.
        + subst s2. exact HA.
      - destruct (enc_len5 w) as [len|] eqn:EL; [|now destruct Hlen].
        destruct (send_publish5_forwards pick h T (w5_retain w) (qp_qos (w5_qp w)) (w5_payload w)
                    (set_alias None (w5_props w)) len s2 g Hr (proj1 HT))
          as (s3 & g3 & E & F & (b & n & E3) & B1 & B2).
        rewrite E. do 3 eexists. refine (conj eq_refl (conj _ (conj _ (conj _ (conj _ _))))).
        + eapply (pr_forwarded _ _ _ _ _ _ _ T len); auto.
          * intros p EQ. rewrite EQ in DD. cbn [is_q2] in DD. rewrite andb_true_r in DD.
            destruct (HQ p EQ) as [(A & B)|(A & B)]; [congruence|auto].
          * eapply forwarded5_core; [..|exact F]; now subst s2.
          * unfold publish_ack, ack_of. destruct (rt_get_matches (rt_run h) T); reflexivity.
          * now subst s3 s2.
          * now subst s3 s2.
          * subst s3 s2. exact B1.
          * subst s3 s2. exact B2.
        + subst s3 s2. repeat split.
        + subst s3 s2. reflexivity.
        + subst s3 s2. exact HA.
        + exact (proj1 (proj2 F)). }
    assert (Hq1 : s_qos2 s1 = s_qos2 s) by now rewrite R2.
    unfold check_qos2. destruct (w5_qp w) as [| |p] eqn:EQ.
    - apply GO; [|discriminate]. unfold qos2_after. rewrite EQ, <- Hq1. now destruct s1.
    - apply GO; [|discriminate]. unfold qos2_after. rewrite EQ, <- Hq1. now destruct s1.
    - rewrite Hq1. destruct (aget p (s_qos2 s)) as [h'|] eqn:EA.
      + destruct (N.eqb_spec (hash w) h') as [<-|Hne]; cbn [negb].
        * destruct (w5_dup w) eqn:ED; cbn [negb].
          -- apply GO.
             ++ unfold qos2_after. rewrite EQ, EA, <- Hq1. now destruct s1.
             ++ intros p' X. injection X as <-. auto.
          -- eapply (RF _ _ _ al (s_qos2 s)); eauto. eapply rf_nodup; eauto.
        * do 3 eexists. refine (conj eq_refl (conj _ (conj _ (conj _ (conj _ eq_refl))))).
          -- eapply (pr_in_use _ _ _ _ _ _ _ T p h'); auto; subst s1; repeat split.
          -- subst s1. repeat split.
          -- now subst s1.
          -- subst s1. exact HA.
      + destruct (N.leb_spec (cf_inflight_server (g_cfg g)) (N.of_nat (List.length (s_qos2 s)))) as [HL|HL].
        * eapply (RF _ _ _ al (s_qos2 s)); eauto. eapply rf_full; eauto. unfold room. lia.
        * apply GO.
          -- unfold qos2_after. rewrite EQ, EA. now rewrite <- Hq1.
          -- intros p' X. injection X as <-. auto.
  Qed.
End Publish.
