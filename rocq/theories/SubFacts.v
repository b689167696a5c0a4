(** SUBSCRIBE, UNSUBSCRIBE and panics at the level of one packet; messages handed
    over at the level of one PUBLISH (C20 - C25, C46, C49, C50). *)
From Coq Require Import List Bool String NArith Lia.
From Verif Require Import Base BaseLemmas TopicModel TopicSpec MsgModel RouteModel RouteSpec RouteInv RetainModel RetainSpec RetainProofs
  PendingModel AliasModel OutModel OutSpec GlobModel Sess5Model Sess3Model ConnModel DelivSpec DelivProofs DelivFacts
  InSpec InProofs InRun InRun3 InFacts RecvSpec RecvProofs SubProofs.
Import ListNotations.
Local Open Scope N_scope.

Section V5.
  Variable hash : wpub5 -> N.
  Variable pick : string -> string -> N.
  Variable cfg : config.

  (** ** Frames of PUBLISH and DISCONNECT *)
  Definition same_subs (s s' : sess5) : Prop :=
    s_id s' = s_id s /\ s_ident s' = s_ident s /\ s_subs s' = s_subs s.
  Definition same_route (g g' : glob) : Prop :=
    g_route g' = g_route g /\ g_cfg g' = g_cfg g /\ g_live g' = g_live g.

  Lemma store_same_route r c g : same_route g (store_retained r c g).
  Proof. unfold store_retained. destruct r; [|now repeat split]. destruct (String.eqb _ _); now repeat split. Qed.

  Lemma send_publish5_frame m s g s' g' n : send_publish5 pick m s g = Done (s', g', n) ->
    (exists b k, s' = with_bcast b k s) /\ same_route g g'.
  Proof.
    unfold send_publish5. destruct (collect_senders _ _ _); [|discriminate].
    destruct (fold_left _ _ _) as (b, k). intros E. injection E as <- <- _.
    split; [eauto|apply store_same_route].
  Qed.

  Lemma publish5_frame w s g s' g' out : handle_publish5 hash pick w s g = Done (s', g', out) ->
    same_subs s s' /\ same_route g g' /\ s_out s' = s_out s.
  Proof.
    unfold handle_publish5, error_disconnect.
    destruct (starts_with_dollar _); [intros E; injection E as <- <- _; now repeat split|].
    destruct (is_q0 _ && _); [intros E; injection E as <- <- _; now repeat split|].
    assert (R : forall s1 x, resolve_topic (cf_alias_max (g_cfg g)) w s = (s1, x) -> exists al, s1 = with_alias al s).
    { intros s1 x. unfold resolve_topic.
      destruct (pp_alias _) as [a|]; [destruct (a =? 0); [|destruct (_ <? a); [|destruct (String.eqb _ _); [destruct (aget a _)|]]]
        |destruct (String.eqb _ _)]; intros E; injection E as <- _; try (exists (s_alias s); now destruct s); eauto. }
    destruct (resolve_topic _ w s) as (s1, x) eqn:RT. destruct (R s1 x eq_refl) as (al & ->). clear R RT.
    destruct x as [T|(code, r)]; [|intros E; injection E as <- <- _; now repeat split].
    destruct (negb _); [intros E; injection E as <- <- _; now repeat split|].
    assert (Q : forall s2 v, check_qos2 hash (cf_inflight_server (g_cfg g)) w (with_alias al s) = (s2, v) ->
      exists q, s2 = with_qos2 q (with_alias al s)).
    { intros s2 v. unfold check_qos2. destruct (w5_qp w); try (intros E; injection E as <- _; eexists; reflexivity).
      destruct (aget _ _); [destruct (negb _); [|destruct (negb _)]|destruct (_ <=? _)];
        intros E; injection E as <- _; eexists; reflexivity. }
    destruct (check_qos2 hash _ w _) as (s2, v) eqn:CQ. destruct (Q s2 v eq_refl) as (q & ->). clear Q CQ.
    destruct v as [| |code r]; try (intros E; injection E as <- <- _; now repeat split).
    destruct (_ && _); [intros E; injection E as <- <- _; now repeat split|].
    destruct (enc_len5 w); [|discriminate].
    destruct (send_publish5 pick _ _ g) as [((s3, g3), n3)|] eqn:SP; [|discriminate].
    apply send_publish5_frame in SP. destruct SP as ((b & k & ->) & SR). intros E. injection E as <- <- _.
    split; [now repeat split|]. split; [exact SR|reflexivity].
  Qed.

  Lemma disconnect5_frame code e s s' out : handle_disconnect5 code e s = (s', out) ->
    same_subs s s' /\ s_out s' = s_out s.
  Proof.
    unfold handle_disconnect5, error_disconnect.
    destruct e as [v|]; [destruct ((0 <? v) && (s_expiry s =? 0))|]; intros E; injection E as <- _;
      destruct (code =? 0); now repeat split.
  Qed.

  (** ** The routing table after one packet *)

  (** The calls made for a packet with the reason codes it got. *)
  Definition calls5 (c : client_id) (x : in5) (out : list pkt5) : list rop :=
    match x, answers out with
    | ISub _ _ fs, [KSuback _ codes] => granted_ops c fs codes
    | IUnsub _ fs, [KUnsuback _ _] => map (fun f => Unsub f c) fs
    | _, _ => []
    end.

  Lemma calls5_nil c x out : match x with ISub _ _ _ | IUnsub _ _ => False | _ => True end -> calls5 c x out = [].
  Proof. destruct x; cbn; tauto. Qed.

  Lemma packet5_calls now len x s g s' g' out h hr : cf_max_qos cfg <= 2 ->
    g_cfg g = cfg -> g_route g = rt_run h -> g_retain g = ret_run hr -> is_disconnected5 s = false -> wf_in5 x ->
    NoDup (keys (s_subs s)) ->
    packet_step5 hash pick now len x s g = Go s' g' out ->
    s_id s' = s_id s /\ s_ident s' = s_ident s /\ g_cfg g' = g_cfg g /\ g_live g' = g_live g /\
    NoDup (keys (s_subs s')) /\ g_route g' = rt_run (h ++ calls5 (s_id s) x out) /\
    (agree5 h s -> agree5 (h ++ calls5 (s_id s) x out) s').
  Proof.
    intros Hm Hc Hh Hr Hd Hw ND E. unfold packet_step5 in E.
    destruct (handle_packet5 hash pick now len x s g) as [s1 g1 o1| |] eqn:H; try discriminate.
    destruct (after_packet5 now s1) as (s2, o2) eqn:A. injection E as <- <- <-.
    apply after_frame in A. destruct A as ((oo & tt & ->) & K).
    cbn [s_id s_ident s_subs with_out with_last].
    assert (Hout : answers (o1 ++ o2) = answers o1) by (rewrite answers_app, (answers_own o2 K); apply app_nil_r).
    assert (Hc5 : calls5 (s_id s) x (o1 ++ o2) = calls5 (s_id s) x o1) by (unfold calls5; now rewrite Hout).
    rewrite Hc5. clear Hc5 Hout.
    assert (SAME : same_subs s s1 -> same_route g g1 -> calls5 (s_id s) x o1 = [] ->
      s_id s1 = s_id s /\ s_ident s1 = s_ident s /\ g_cfg g1 = g_cfg g /\ g_live g1 = g_live g /\
      NoDup (keys (s_subs s1)) /\ g_route g1 = rt_run (h ++ calls5 (s_id s) x o1) /\
      (agree5 h s -> agree5 (h ++ calls5 (s_id s) x o1) (with_out oo (with_last tt s1)))).
    { intros (A1 & A2 & A3) (B1 & B2 & B3) ->. rewrite app_nil_r, A3, B1. refine (conj A1 (conj A2 (conj B2 (conj B3 (conj ND (conj Hh _)))))).
      intros Ag f. cbn [s_id s_subs with_out with_last]. rewrite A1, A3. apply Ag. }
    unfold handle_packet5 in H. destruct (_ <? len).
    { cbn [error_disconnect] in H. injection H as <- <- <-. apply SAME; [now repeat split|now repeat split|now destruct x]. }
    destruct x.
    - destruct (handle_publish5 hash pick w s g) as [((s3, g3), o3)|] eqn:P; [|discriminate]. injection H as <- <- <-.
      apply publish5_frame in P. destruct P as (P1 & P2 & _). apply SAME; auto.
    - injection H as <- <- <-. apply SAME; now repeat split.
    - destruct (handle_pubrec5 now p s) as (s3, k) eqn:P. injection H as <- <- <-. unfold handle_pubrec5 in P.
      destruct (out5_on_queue _ _). injection P as <- _. apply SAME; now repeat split.
    - destruct (handle_pubrel5 p s) as (s3, k) eqn:P. injection H as <- <- <-. unfold handle_pubrel5 in P.
      destruct (aget p _); injection P as <- _; apply SAME; now repeat split.
    - injection H as <- <- <-. apply SAME; now repeat split.
    - destruct (handle_subscribe5 now p id fs s g) as [((s3, g3), o3)|] eqn:P; [|discriminate]. injection H as <- <- <-.
      apply up_is_up in Hd.
      destruct (handle_subscribe5_spec cfg hr h now p id fs s g s3 g3 o3 Hm Hc Hr Hh Hd Hw P)
        as [(-> & ((r & ->) & _ & -> & _) & Es)|(_ & mq & k & codes & _ & -> & OS & _ & _ & S3 & S4 & S5 & S6 & Hk)].
      + cbn in P. injection P as <- _. apply SAME; now repeat split.
      + apply outsubs_same in OS. 
        assert (EC : calls5 (s_id s) (ISub p id fs) (k ++ [KSuback p codes]) = granted_ops (s_id s) fs codes).
        { unfold calls5. rewrite answers_app, (answers_own k Hk). reflexivity. }
        rewrite EC. destruct OS as (_ & _ & O1 & O2 & _). 
        refine (conj O1 (conj O2 (conj _ (conj _ (conj (S6 ND) (conj S3 _)))))); [now rewrite S4|now rewrite S4|].
        intros Ag. apply S5 in Ag. exact Ag.
    - destruct (handle_unsubscribe5 p fs s g) as [((s3, g3), o3)|] eqn:P; [|discriminate]. injection H as <- <- <-.
      unfold handle_unsubscribe5 in P. destruct (unsubscribe_all fs s g) as [((s4, g4), codes)|] eqn:U; [|discriminate].
      injection P as <- <- <-. pose proof (unsubscribe_all_frame _ _ _ _ _ _ U) as OS.
      assert (HB : forall f, In f (keys (s_subs s)) <-> In f (keys (s_subs s)) /\ ~ In f []) by (intros f; cbn; tauto).
      destruct (unsubscribe_all_spec fs [] (keys (s_subs s)) h s g s4 g4 codes Hh ND HB U)
        as (_ & U2 & U3 & U4 & U5 & _).
      cbn [calls5 answers filter].
      assert (OS1 : s_id s4 = s_id s /\ s_ident s4 = s_ident s).
      { destruct OS as (oo' & m & ->). split; reflexivity. }
      destruct OS1 as (O1 & O2).
      refine (conj O1 (conj O2 (conj _ (conj _ (conj U5 (conj U2 _)))))); [now rewrite U3|now rewrite U3|].
      intros Ag. apply U4 in Ag. exact Ag.
    - injection H as <- <- <-. apply SAME; now repeat split.
    - destruct (handle_disconnect5 code expiry s) as (s3, o3) eqn:P. injection H as <- <- <-.
      apply disconnect5_frame in P. destruct P as (P1 & _). apply SAME; [exact P1|now repeat split|reflexivity].
    - discriminate.
  Qed.

  Lemma subscribe_one_nodup now id f o s g s' g' code out : subscribe_one now id f o s g = Done (s', g', code, out) ->
    NoDup (keys (s_subs s)) -> NoDup (keys (s_subs s')).
  Proof.
    unfold subscribe_one. destruct (max_allowed_qos _); [|discriminate]. destruct (_ <? 0x80).
    2:{ intros E. now injection E as <- _ _ _. }
    destruct (rt_subscribe _ _ _ _) as (t, p). destruct p; [discriminate|]. destruct (_ && _).
    2:{ intros E. injection E as <- _ _ _. cbn. apply NoDup_aset. }
    destruct (ret_get_matches _ _); [|discriminate].
    destruct (send_retained _ _ _ _ _) as ((s2, k), pe) eqn:S. apply retained_frame in S. destruct S as ((oo & ->) & _).
    destruct pe.
    - destruct (pendings5 now _) as (s3, k2) eqn:Q. apply pendings_frame in Q. destruct Q as (oo2 & ->).
      intros E. injection E as <- _ _ _. cbn. apply NoDup_aset.
    - intros E. injection E as <- _ _ _. cbn. apply NoDup_aset.
  Qed.
  Lemma subscribe_all_nodup now id fs : forall s g s' g' codes out, subscribe_all now id fs s g = Done (s', g', codes, out) ->
    NoDup (keys (s_subs s)) -> NoDup (keys (s_subs s')).
  Proof.
    induction fs as [|(f, o) fs IH]; intros s g s' g' codes out; cbn [subscribe_all]; [intros E; now injection E as <- _ _ _|].
    destruct (subscribe_one now id f o s g) as [(((s1, g1), c1), k1)|] eqn:S1; [|discriminate].
    destruct (subscribe_all now id fs s1 g1) as [(((s2, g2), c2), k2)|] eqn:S2; [|discriminate].
    intros E ND. injection E as <- _ _ _. eapply IH; [exact S2|]. eapply subscribe_one_nodup; eauto.
  Qed.
  Lemma unsubscribe_all_nodup fs : forall s g s' g' codes, unsubscribe_all fs s g = Done (s', g', codes) ->
    NoDup (keys (s_subs s)) -> NoDup (keys (s_subs s')).
  Proof.
    induction fs as [|f fs IH]; intros s g s' g' codes; cbn [unsubscribe_all]; [intros E; now injection E as <- _ _|].
    destruct (rt_unsubscribe _ _ _) as (t, p). destruct p; [discriminate|].
    destruct (unsubscribe_all fs _ _) as [((s2, g2), c2)|] eqn:S2; [|discriminate].
    intros E ND. injection E as <- _ _. eapply IH; [exact S2|]. now apply NoDup_adel.
  Qed.

  Lemma packet_subs_nodup now len x s g s' g' out : packet_step5 hash pick now len x s g = Go s' g' out ->
    NoDup (keys (s_subs s)) -> NoDup (keys (s_subs s')).
  Proof.
    unfold packet_step5. destruct (handle_packet5 hash pick now len x s g) as [s1 g1 o1| |] eqn:H; try discriminate.
    destruct (after_packet5 now s1) as (s2, o2) eqn:A. intros E ND. injection E as <- _ _.
    apply after_frame in A. destruct A as ((oo & tt & ->) & _). cbn [s_subs with_out with_last].
    unfold handle_packet5 in H. destruct (_ <? len); [cbn in H; now injection H as <- _ _|]. destruct x.
    - destruct (handle_publish5 hash pick w s g) as [((s3, g3), o3)|] eqn:P; [|discriminate]. injection H as <- _ _.
      apply publish5_frame in P. destruct P as ((_ & _ & ->) & _). exact ND.
    - now injection H as <- _ _.
    - unfold handle_pubrec5 in H. destruct (out5_on_queue _ _). now injection H as <- _ _.
    - unfold handle_pubrel5 in H. destruct (aget p _); now injection H as <- _ _.
    - now injection H as <- _ _.
    - destruct (handle_subscribe5 now p id fs s g) as [((s3, g3), o3)|] eqn:P; [|discriminate]. injection H as <- _ _.
      unfold handle_subscribe5 in P.
      assert (Q : s_subs s3 = s_subs s \/ exists g codes out g', subscribe_all now id fs s g = Done (s3, g', codes, out)).
      { assert (C : forall P0, (if negb (cf_subid (g_cfg g)) && P0
           then Done (s, g, [KSuback p (map (fun _ => RC_subid_not_supported) fs)])
           else match subscribe_all now id fs s g with
                | Done (s', g', codes, out) => Done (s', g', (out ++ [KSuback p codes])%list)
                | Panic => Panic end) = Done (s3, g3, o3) -> s_subs s3 = s_subs s \/ exists g codes out g', subscribe_all now id fs s g = Done (s3, g', codes, out)).
        { intros P0. destruct (negb (cf_subid (g_cfg g)) && P0); [intros X; injection X as <- _ _; now left|].
          destruct (subscribe_all now id fs s g) as [(((s4, g4), c4), k4)|] eqn:S; [|discriminate].
          intros X; injection X as <- _ _. right. eauto 6. }
        destruct id as [[|i]|]; [cbn in P; injection P as <- _ _; now left|now apply C in P|now apply C in P]. }
      destruct Q as [->|(a & b & c & d & Q)]; [exact ND|]. eapply subscribe_all_nodup; eauto.
    - unfold handle_unsubscribe5 in H. destruct (unsubscribe_all fs s g) as [((s3, g3), c3)|] eqn:U; [|discriminate].
      injection H as <- _ _. eapply unsubscribe_all_nodup; eauto.
    - now injection H as <- _ _.
    - destruct (handle_disconnect5 code expiry s) as (s3, o3) eqn:P. injection H as <- _ _.
      apply disconnect5_frame in P. destruct P as ((_ & _ & ->) & _). exact ND.
    - discriminate.
  Qed.

End V5.

Section V5Run.
  Variable hash : wpub5 -> N.
  Variable pick : string -> string -> N.
  Variable cfg : config.

  Lemma run_subs_nodup s l : srun5 hash cfg s l -> NoDup (keys (s_subs s)).
  Proof.
    induction 1 as [s H|s l e s' out H IH S].
    - destruct H as [t0 now uuid p data id s k E]. unfold session_connect5 in E. cbn [cn_s new_conn] in E.
      destruct (max_allowed_qos cfg); [|discriminate]. injection E as <- _.
      replace (s_subs _) with (@nil (string * subdata)); [constructor|].
      destruct (_ =? _); destruct (cf_max_expiry cfg <? _); reflexivity.
    - destruct S as [pk s now len x g s' g' out D WF _ E|s now m s' r E|s b n|s now s' out E|s now m s' r E|s reason s' k E|s conn last w|s t0 now uuid p data s' k E].
      + eapply packet_subs_nodup; eauto.
      + apply normal_frame in E. destruct E as (o & ->). exact IH.
      + exact IH.
      + apply pendings_frame in E. destruct E as (o & ->). exact IH.
      + apply normal_frame in E. destruct E as (o & ->). exact IH.
      + injection E as <- <-. exact IH.
      + exact IH.
      + apply take_fields in E. destruct E as (_ & _ & _ & _ & ->). destruct (co_clean p); [constructor|exact IH].
  Qed.

  (** ** C24, C25 *)
  Lemma c25_subscribe s l now len p id fs g h hr s' g' out : cf_max_qos cfg <= 2 ->
    srun5 hash cfg s l -> is_disconnected5 s = false -> g_cfg g = cfg -> g_route g = rt_run h -> g_retain g = ret_run hr ->
    len <= cf_packet_server cfg -> Forall (fun e => valid_filter (fst e)) fs ->
    packet_step5 hash pick now len (ISub p id fs) s g = Go s' g' out ->
    (id = Some 0 /\ refused5 RC_protocol_error s s' g g' (answers out) /\ s_subs s' = s_subs s) \/
    (id <> Some 0 /\ exists codes, answers out = [KSuback p codes] /\ Forall2 (answer5 cfg id) fs codes /\
       g_route g' = rt_run (h ++ granted_ops (s_id s) fs codes) /\ g' = set_route (g_route g') g /\
       (agree5 h s -> agree5 (h ++ granted_ops (s_id s) fs codes) s') /\
       exists mq o k1 k2, max_allowed_qos cfg = Some mq /\ out = (k1 ++ KSuback p codes :: k2)%list /\
         serves5 cfg id hr (s_ident s) (s_maxpkt s) now mq (keys (s_subs s)) fs (s_out s) o k1 /\
         flushed5 now o (s_out s') k2).
  Proof.
    intros Hm HR Hd Hc Hh Hr Hlen Hv E. unfold packet_step5, handle_packet5 in E. rewrite Hc in E.
    replace (cf_packet_server cfg <? len) with false in E by (symmetry; now apply N.ltb_ge).
    destruct (handle_subscribe5 now p id fs s g) as [((s3, g3), o3)|] eqn:P; [|discriminate].
    pose proof (proj1 (up_is_up s) Hd) as U.
    destruct (after_packet5 now s3) as (s4, k2) eqn:A. injection E as <- <- <-.
    destruct (handle_subscribe5_spec cfg hr h now p id fs s g s3 g3 o3 Hm Hc Hr Hh U Hv P)
      as [(-> & ((r & ->) & R2 & -> & R3) & Es)|(N0 & mq & k & codes & Hmq & -> & OS & S1 & S2 & S3 & S4 & S5 & S6 & Hk)].
    - left. split; [reflexivity|]. unfold after_packet5 in A.
      assert (D3 : is_disconnected5 s3 = true) by (unfold is_disconnected5; rewrite R2; apply orb_true_r).
      rewrite D3 in A. injection A as <- <-. split; [|exact Es].
      refine (conj (ex_intro _ _ eq_refl) (conj R2 (conj eq_refl R3))).
    - right. split; [exact N0|]. exists codes. apply outsubs_same in OS.
      assert (D3 : is_disconnected5 s3 = false).
      { unfold is_disconnected5 in *. destruct OS as (_ & _ & _ & _ & _ & _ & -> & -> & _). exact Hd. }
      unfold after_packet5 in A. rewrite D3 in A. pose proof (pendings_kind _ _ _ _ A) as Kk.
      apply pendings_flush in A. destruct A as (A1 & A2).
      split; [rewrite !answers_app, (answers_own k Hk), (answers_own k2 Kk); reflexivity|].
      split; [exact S2|]. split; [exact S3|]. split; [exact S4|].
      split. { intros Ag. apply S5 in Ag. rewrite A2. exact Ag. }
      exists mq, (s_out s3), k, k2. split; [exact Hmq|]. split; [rewrite <- app_assoc; reflexivity|]. split; [exact S1|exact A1].
  Qed.

  Lemma c25_unsubscribe s l now len p fs g h s' g' out :
    srun5 hash cfg s l -> is_disconnected5 s = false -> g_cfg g = cfg -> g_route g = rt_run h ->
    len <= cf_packet_server cfg ->
    packet_step5 hash pick now len (IUnsub p fs) s g = Go s' g' out ->
    exists codes, answers out = [KUnsuback p codes] /\ unsub_codes (keys (s_subs s)) [] fs codes /\
      g_route g' = rt_run (h ++ map (fun f => Unsub f (s_id s)) fs) /\ g' = set_route (g_route g') g /\
      (agree5 h s -> agree5 (h ++ map (fun f => Unsub f (s_id s)) fs) s') /\
      (forall f, aget f (s_subs s') = if existsb (String.eqb f) fs then None else aget f (s_subs s)).
  Proof.
    intros HR Hd Hc Hh Hlen E. unfold packet_step5, handle_packet5 in E. rewrite Hc in E.
    replace (cf_packet_server cfg <? len) with false in E by (symmetry; now apply N.ltb_ge).
    unfold handle_unsubscribe5 in E. destruct (unsubscribe_all fs s g) as [((s3, g3), codes)|] eqn:U; [|discriminate].
    destruct (after_packet5 now s3) as (s4, k2) eqn:A. injection E as <- <- <-.
    apply after_frame in A. destruct A as ((oo & tt & ->) & K).
    assert (HB : forall f, In f (keys (s_subs s)) <-> In f (keys (s_subs s)) /\ ~ In f []) by (intros f; cbn; tauto).
    destruct (unsubscribe_all_spec fs [] (keys (s_subs s)) h s g s3 g3 codes Hh (run_subs_nodup s l HR) HB U)
      as (U1 & U2 & U3 & U4 & U5 & _ & U6).
    exists codes. split; [change (KUnsuback p codes :: answers k2 = [KUnsuback p codes]); now rewrite (answers_own k2 K)|].
    refine (conj U1 (conj U2 (conj U3 (conj _ _)))); [|exact U6]. intros Ag. apply U4 in Ag. exact Ag.
  Qed.

  (** ** C50 *)
  Lemma c50_no_panic s l now len x g h hr : cf_max_qos cfg <= 2 ->
    srun5 hash cfg s l -> is_disconnected5 s = false -> g_cfg g = cfg -> g_route g = rt_run h -> g_retain g = ret_run hr ->
    wf_in5 x -> safe_calls h (filters5 x) (leaving5 (s_id s) x) ->
    packet_step5 hash pick now len x s g <> Crash.
  Proof.
    intros Hm HR Hd Hc Hh Hr Hw Hs. unfold packet_step5, handle_packet5. rewrite Hc.
    assert (FIN : forall s1 g1 o1, (let '(s2, out') := after_packet5 now s1 in Go s2 g1 (o1 ++ out')%list) <> Crash).
    { intros s1 g1 o1. destruct (after_packet5 now s1). discriminate. }
    destruct (cf_packet_server cfg <? len); [cbn [error_disconnect]; apply FIN|].
    destruct x; cbn [filters5 leaving5] in Hs; try apply FIN; try discriminate.
    - destruct Hw as (W1 & W2).
      destruct (publish_cases hash pick h w s g Hh (conj W1 W2) (i_good _ _ _ _ (run_inv hash cfg s l HR))
                  (proj2 (proj1 (up_is_up s) Hd))) as (s3 & g3 & o3 & -> & _). apply FIN.
    - destruct (handle_pubrec5 now p s). apply FIN.
    - destruct (handle_pubrel5 p s). apply FIN.
    - assert (A : subscribe_all now id fs s g <> Panic).
      { apply (subscribe_all_total hr now id fs Hw h s g Hr Hh); [now rewrite Hc|].
        destruct Hs as [Hs|Hs]; [auto|]. right. now rewrite app_nil_r in Hs. }
      assert (HS : handle_subscribe5 now p id fs s g <> Panic).
      { unfold handle_subscribe5. destruct id as [[|i]|]; [discriminate| |];
          (destruct (_ && _); [discriminate|]; destruct (subscribe_all _ _ _ _ _) as [(((?, ?), ?), ?)|]; [discriminate|congruence]). }
      destruct (handle_subscribe5 now p id fs s g) as [((s3, g3), o3)|]; [apply FIN|congruence].
    - assert (A : unsubscribe_all fs s g <> Panic) by now apply (unsubscribe_all_total fs h).
      unfold handle_unsubscribe5. destruct (unsubscribe_all fs s g) as [((s3, g3), c3)|]; [apply FIN|congruence].
    - destruct (handle_disconnect5 code expiry s). apply FIN.
  Qed.

  (** ** What one PUBLISH hands over *)
  Lemma published_cases h l w s s' g out c xs :
    published5 hash pick cfg h l w s s' g out -> handed (s_bcast s) (s_bcast s') c xs ->
    xs = [] \/
    exists T n fs sq, topic_for (cf_alias_max cfg) l w = Some T /\ enc_len5 w = Some n /\
      xs = [NM5 (NMsg5 (w5_retain w) (qp_qos (w5_qp w)) T (w5_payload w) fs sq (set_alias None (w5_props w)) n)] /\
      NoDup fs /\ (forall f, In f fs <-> exists q, through pick h s T c f q) /\
      (exists f, through pick h s T c f sq) /\
      (forall f q, through pick h s T c f q -> qos_leb q sq = true) /\
      valid_topic_name T /\ pp_subids (w5_props w) = [].
  Proof.
    intros (now & len & g' & HR & Hd & Hin & E) Hh.
    destruct (incoming_result hash pick cfg s l now len w g h HR Hd Hin) as (s1 & g1 & o1 & E1 & PR & _ & TO & _).
    rewrite E in E1. injection E1 as <- <- <-.
    assert (NF : not_forwarded5 s s' g g' -> xs = []).
    { intros (_ & B & _). unfold handed in Hh. rewrite B in Hh. rewrite <- (app_nil_r (queue_of (s_bcast s) c)) in Hh at 1.
      now apply app_inv_head in Hh. }
    destruct PR as [code _ (_ & _ & R) _|T p hh _ _ _ _ _ R _ _|T p _ _ _ _ _ R _ _|T n AC EL _ (FW & _) _ _ _ _ _]; auto.
    destruct (FW c) as (fs & ND & HI & H1 & H2). destruct fs as [|f0 fr] eqn:EF.
    { left. specialize (H1 (or_introl eq_refl)). unfold handed in *. rewrite H1 in Hh. now apply app_inv_head in Hh. }
    assert (DR : reachable g (s_bcast s) c \/ ~ reachable g (s_bcast s) c).
    { unfold reachable. destruct (in_dec N.eq_dec c (g_live g)); [auto|]. destruct (in_dec N.eq_dec c (keys (s_bcast s))); [auto|].
      right. tauto. }
    destruct DR as [DR|DR].
    2:{ left. specialize (H1 (or_intror DR)). unfold handed in *. rewrite H1 in Hh. now apply app_inv_head in Hh. }
    right. destruct (H2 ltac:(discriminate) DR) as (sq & A1 & A2 & A3).
    exists T, n, (f0 :: fr), sq. destruct AC as (_ & _ & HT & (GT & _) & HS). rewrite <- TO. destruct Hin as (_ & _ & GC & _). rewrite GC in HT.
    split; [exact HT|]. split; [exact EL|]. split.
    { unfold handed in *. rewrite A3 in Hh. apply app_inv_head in Hh. symmetry. exact Hh. }
    auto 10.
  Qed.

  (** An accepted PUBLISH that is not a QoS 2 repetition. *)
  Lemma published_forwarded h l w s s' g out :
    published5 hash pick cfg h l w s s' g out -> is_disconnected5 s' = false ->
    (forall p, w5_qp w = Q2 p -> opener l p = None /\ w5_dup w = false) ->
    exists T n g', topic_for (cf_alias_max cfg) l w = Some T /\ enc_len5 w = Some n /\
      forwarded5 pick h (message5 T w) n s s' g g'.
  Proof.
    intros (now & len & g' & HR & Hd & Hin & E) Hd' HQ.
    destruct (c17_accepted hash pick cfg s l now len w g h HR Hd Hin) as (s1 & g1 & o1 & E1 & C).
    rewrite E in E1. injection E1 as <- <- <-. destruct (C Hd') as (T & HT & [(n & EL & FW)|(_ & p & Q & [O|O])]).
    - eauto 6.
    - destruct (HQ p Q) as (X & _). contradiction.
    - destruct (HQ p Q) as (_ & X). congruence.
  Qed.
End V5Run.

Section V3.
  Variable hash : wpub3 -> N.
  Variable cfg : config.

  Lemma subscribe_one3_nodup now f q s g s' g' code out : subscribe_one3 now f q s g = Ok3 (s', g', code, out) ->
    NoDup (keys (z_subs s)) -> NoDup (keys (z_subs s')).
  Proof.
    unfold subscribe_one3. destruct (is_shared f); [discriminate|]. destruct (max_allowed_qos _); [|discriminate].
    destruct (rt_subscribe _ _ _ _) as (t, p). destruct p; [discriminate|].
    destruct (ret_get_matches _ _); [|discriminate].
    destruct (send_retained3 _ _ _ _ _) as ((s2, k), pe) eqn:S. apply retained3_frame in S. destruct S as ((oo & ->) & _).
    destruct pe.
    - destruct (pendings3 now _) as (s3, k2) eqn:Q. apply pendings3_frame in Q. destruct Q as ((oo2 & ->) & _).
      intros E. injection E as <- _ _ _. cbn. apply NoDup_aset.
    - intros E. injection E as <- _ _ _. cbn. apply NoDup_aset.
  Qed.
  Lemma subscribe_all3_nodup now fs : forall s g s' g' r, subscribe_all3 now fs s g = (s', g', r) ->
    NoDup (keys (z_subs s)) -> NoDup (keys (z_subs s')).
  Proof.
    induction fs as [|(f, q) fs IH]; intros s g s' g' r; cbn [subscribe_all3]; [intros E; now injection E as <- _ _|].
    destruct (subscribe_one3 now f q s g) as [(((s1, g1), c1), k1)| |] eqn:S1; try (intros E; now injection E as <- _ _).
    destruct (subscribe_all3 now fs s1 g1) as ((s2, g2), r2) eqn:S2.
    intros E ND. assert (s' = s2) as -> by (destruct r2 as [(?, ?)| |]; now injection E).
    eapply IH; [exact S2|]. eapply subscribe_one3_nodup; eauto.
  Qed.
  Lemma unsubscribe_all3_nodup fs : forall s g s' g', unsubscribe_all3 fs s g = Done (s', g') ->
    NoDup (keys (z_subs s)) -> NoDup (keys (z_subs s')).
  Proof.
    induction fs as [|f fs IH]; intros s g s' g'; cbn [unsubscribe_all3]; [intros E; now injection E as <- _|].
    destruct (rt_unsubscribe _ _ _) as (t, p). destruct p; [discriminate|].
    intros E ND. eapply IH; [exact E|]. now apply NoDup_adel.
  Qed.

  Definition same_subs3 (s s' : sess3) : Prop :=
    z_id s' = z_id s /\ z_ident s' = z_ident s /\ z_subs s' = z_subs s.

  Lemma send_publish3_frame m s g s' g' : send_publish3 m s g = Done (s', g') ->
    (exists b k, s' = zwith_bcast b k s) /\ same_route g g'.
  Proof.
    unfold send_publish3. destruct (collect3 _); [|discriminate].
    destruct (fold_left _ _ _) as (b, k). intros E. injection E as <- <-.
    split; [eauto|apply store_same_route].
  Qed.

  Lemma publish3_frame w s g s' g' out : handle_publish3 hash w s g = Ok3 (s', g', out) ->
    same_subs3 s s' /\ same_route g g' /\ z_out s' = z_out s.
  Proof.
    unfold handle_publish3. destruct (String.eqb _ _); [discriminate|]. destruct (starts_with_dollar _); [discriminate|].
    destruct (is_q0 _ && _); [discriminate|].
    set (check := match w3_qp w with Q2 p => _ | _ => _ end).
    assert (Q : forall s1, check = Some s1 -> exists q, s1 = zwith_qos2 q s).
    { intros s1. unfold check. destruct (w3_qp w); try (intros E; injection E as <-; exists (z_qos2 s); now destruct s).
      destruct (aget _ _).
      - destruct (negb _); [discriminate|]. destruct (negb _); [discriminate|]. intros E; injection E as <-. exists (z_qos2 s). now destruct s.
      - intros E; injection E as <-. eauto. }
    destruct check as [s1|]; [|discriminate]. destruct (Q s1 eq_refl) as (q & ->).
    destruct (_ && _); [intros E; injection E as <- <- _; now repeat split|].
    destruct (enc_len3 w); [|discriminate].
    destruct (send_publish3 _ _ g) as [(s3, g3)|] eqn:SP; [|discriminate].
    apply send_publish3_frame in SP. destruct SP as ((b & k & ->) & SR). intros E. injection E as <- <- _.
    split; [now repeat split|]. split; [exact SR|reflexivity].
  Qed.

  (** The state after a packet, whether the connection goes on or is closed. *)
  Definition res3 (r : hres3) (s' : sess3) (g' : glob) (out : list pkt3) : Prop :=
    r = Go3 s' g' out \/ (r = Stop3 s' g' /\ out = []).

  Lemma after3_frame now s s' out : after_packet3 now s = (s', out) ->
    (exists o t, s' = zwith_out o (zwith_last t s)) /\ Forall own_kind3 out.
  Proof.
    unfold after_packet3. intros E. apply pendings3_frame in E. destruct E as ((o & ->) & K). eauto.
  Qed.

  Lemma handle_packet3_subs now len x s g s' g' out : res3 (handle_packet3 hash now len x s g) s' g' out ->
    NoDup (keys (z_subs s)) -> NoDup (keys (z_subs s')).
  Proof.
    intros H ND. unfold res3, handle_packet3 in H. destruct (_ <? len); [destruct H as [H|(H & _)]; [discriminate|now injection H as <- _]|]. destruct x.
    - destruct (handle_publish3 hash w s g) as [((s3, g3), o3)| |] eqn:P.
      + destruct H as [H|(H & _)]; [|discriminate]. injection H as <- _ _. apply publish3_frame in P. destruct P as ((_ & _ & ->) & _). exact ND.
      + destruct H as [H|(H & _)]; [discriminate|]. now injection H as <- _.
      + destruct H as [H|(H & _)]; discriminate.
    - destruct H as [H|(H & _)]; [|discriminate]. now injection H as <- _ _.
    - destruct H as [H|(H & _)]; [|discriminate]. now injection H as <- _ _.
    - destruct (handle_pubrel3 p s) as [(s3, k)|] eqn:P; destruct H as [H|(H & _)]; try discriminate.
      + injection H as <- _ _. unfold handle_pubrel3 in P. destruct (aget p _); [|discriminate]. now injection P as <- _.
      + now injection H as <- _.
    - destruct H as [H|(H & _)]; [|discriminate]. now injection H as <- _ _.
    - unfold handle_subscribe3 in H. destruct (subscribe_all3 now fs s g) as ((s3, g3), r) eqn:S.
      pose proof (subscribe_all3_nodup _ _ _ _ _ _ _ S ND) as N3.
      destruct r as [(codes, k)| |]; destruct H as [H|(H & _)]; try discriminate; [now injection H as <- _ _|now injection H as <- _].
    - unfold handle_unsubscribe3 in H. destruct (unsubscribe_all3 fs s g) as [(s3, g3)|] eqn:U; destruct H as [H|(H & _)]; try discriminate.
      injection H as <- _ _. eapply unsubscribe_all3_nodup; eauto.
    - destruct H as [H|(H & _)]; [|discriminate]. now injection H as <- _ _.
    - destruct H as [H|(H & _)]; [|discriminate]. now injection H as <- _ _.
    - destruct H as [H|(H & _)]; [discriminate|]. now injection H as <- _.
  Qed.

  Lemma run3_subs_nodup s l : srun3 hash cfg s l -> NoDup (keys (z_subs s)).
  Proof.
    induction 1 as [s H|s l e s' out H IH S].
    - destruct H as [now s0 id s k PR E]. apply prepared_empty in PR. destruct PR as (_ & P1 & _).
      unfold session_connect3 in E. injection E as <- _. cbn [z_subs]. rewrite P1. constructor.
    - destruct S as [s now len x g s' g' out D WF _ E|s now len x g s' g' D WF _ E
                    |s now m s' r E|s b n|s now s' out E|s now m s' r E|s conn last w|s now s0 s' present code PR E].
      + unfold packet_step3 in E. destruct (handle_packet3 hash now len x s g) as [s1 g1 o1| |] eqn:P; try discriminate.
        destruct (after_packet3 now s1) as (s2, o2) eqn:A. injection E as <- _ _. apply after3_frame in A.
        destruct A as ((o & t & ->) & _). cbn [z_subs zwith_out zwith_last]. eapply handle_packet3_subs; [left; exact P|exact IH].
      + unfold packet_step3 in E. destruct (handle_packet3 hash now len x s g) as [s1 g1 o1| |] eqn:P; try discriminate.
        * destruct (after_packet3 now s1). discriminate.
        * injection E as <- _. cbn [z_subs zwith_disc]. eapply handle_packet3_subs; [right; split; [exact P|reflexivity]|exact IH].
      + apply normal3_frame in E. destruct E as (o & ->). exact IH.
      + exact IH.
      + apply pendings3_frame in E. destruct E as ((o & ->) & _). exact IH.
      + apply normal3_frame in E. destruct E as (o & ->). exact IH.
      + exact IH.
      + apply prepared_empty in PR. destruct PR as (_ & P1 & _). unfold session_connect3, build_state3 in E.
        cbn [snd st3_v310 st3_subs] in E. destruct (_ && _); injection E as <- _ _; cbn [z_subs]; [exact IH|rewrite P1; constructor].
  Qed.

  (** ** C24, C25 *)
  Lemma c25_v3_subscribe s l now len p fs g h hr s' g' out : cf_max_qos cfg <= 2 ->
    srun3 hash cfg s l -> z_disc s = false -> g_cfg g = cfg -> g_route g = rt_run h -> g_retain g = ret_run hr ->
    Forall (fun e => valid_filter (fst e)) fs ->
    packet_step3 hash now len (YSub p fs) s g = Go3 s' g' out ->
    exists codes, answers3 out = [JSuback p codes] /\
      Forall (fun e => plain (fst e)) fs /\
      Forall2 (fun e q => qos_num q = N.min (qos_num (snd e)) (cf_max_qos cfg)) fs codes /\
      g_route g' = rt_run (h ++ granted_ops (z_id s) fs (map qos_num codes)) /\ g' = set_route (g_route g') g /\
      (agree3 h s -> agree3 (h ++ granted_ops (z_id s) fs (map qos_num codes)) s') /\
      exists mq o k1 k2, max_allowed_qos cfg = Some mq /\ out = (k1 ++ JSuback p codes :: k2)%list /\
         serves3 hr now mq fs (z_out s) o k1 /\ flushed3 now o (z_out s') k2.
  Proof.
    intros Hm HR Hd Hc Hh Hr Hv E. unfold packet_step3, handle_packet3 in E. rewrite Hc in E.
    destruct (cf_packet_server cfg <? len); [discriminate|]. unfold handle_subscribe3 in E.
    destruct (max_qos_ok cfg Hm) as (mq & Hmq & Nq).
    destruct (subscribe_all3 now fs s g) as ((s3, g3), r) eqn:S.
    pose proof (subscribe_all3_frame _ _ _ _ _ _ _ S) as (_ & K1).
    destruct (subscribe_all3_spec cfg hr now mq fs Hmq Hv h s g s3 g3 r Hc Hr Hh Hd S)
      as (done & rest & Efs & S1 & S2 & S3 & _ & S4).
    destruct r as [(codes, k)| |]; try discriminate.
    destruct (after_packet3 now s3) as (s4, k2) eqn:A. injection E as <- <- <-.
    destruct S4 as (-> & -> & S5 & S6). rewrite app_nil_r in Efs. subst done.
    unfold after_packet3 in A. pose proof (pendings3_frame _ _ _ _ A) as (_ & K2). apply pendings3_flush in A. destruct A as (A1 & A2).
    assert (EO : map (fun e : string * qos => Sub (fst e) (z_id s) (qos_min (snd e) mq)) fs =
                 granted_ops (z_id s) fs (map qos_num (map (fun e => qos_min (snd e) mq) fs))).
    { clear. induction fs as [|(f, q) fs IH]; [reflexivity|]. cbn [map]. rewrite IH, granted_cons. cbn [fst snd].
      rewrite granted_qos. reflexivity. }
    rewrite EO in S1, S3.
    exists (map (fun e => qos_min (snd e) mq) fs). split.
    { rewrite !answers3_app, (answers3_own k K1), (answers3_own k2 K2). reflexivity. }
    split; [exact S6|]. split.
    { clear - Nq. induction fs as [|(f, q) fs IH]; [constructor|]. cbn [map]. constructor; [|exact IH].
      cbn [snd]. rewrite qos_min_num. now rewrite Nq. }
    split; [exact S1|]. split; [exact S2|].
    split. { intros Ag. apply S3 in Ag. rewrite A2. exact Ag. }
    exists mq, (z_out s3), k, k2. split; [exact Hmq|]. split; [rewrite <- app_assoc; reflexivity|]. split; [exact S5|exact A1].
  Qed.

  (** A shared filter closes the connection. *)
  Lemma c25_v3_shared s now len p fs g f q : In (f, q) fs -> ~ plain f ->
    forall s' g' out, packet_step3 hash now len (YSub p fs) s g <> Go3 s' g' out.
  Proof.
    intros HI HP s' g' out E. unfold packet_step3, handle_packet3 in E. destruct (_ <? len); [discriminate|].
    unfold handle_subscribe3 in E. destruct (subscribe_all3 now fs s g) as ((s3, g3), r) eqn:S.
    assert (X : match r with Ok3 _ => False | _ => True end).
    { clear E. revert s g s3 g3 r S HI. induction fs as [|(f', q') fs IH]; intros s g s3 g3 r S HI; [destruct HI|].
      cbn [subscribe_all3] in S. destruct HI as [HI|HI].
      - injection HI as -> ->. unfold subscribe_one3 in S.
        apply is_shared_iff in HP. rewrite HP in S. now injection S as _ _ <-.
      - destruct (subscribe_one3 now f' q' s g) as [(((s1, g1), c1), k1)| |]; try (now injection S as _ _ <-).
        destruct (subscribe_all3 now fs s1 g1) as ((s2, g2), r2) eqn:S2. specialize (IH _ _ _ _ _ S2 HI).
        destruct r2 as [(?, ?)| |]; [destruct IH| |]; now injection S as _ _ <-. }
    destruct r as [(codes, k)| |]; [destruct X|discriminate|discriminate].
  Qed.

  Lemma c25_v3_unsubscribe s l now len p fs g h s' g' out :
    srun3 hash cfg s l -> g_cfg g = cfg -> g_route g = rt_run h ->
    packet_step3 hash now len (YUnsub p fs) s g = Go3 s' g' out ->
    answers3 out = [JUnsuback p] /\
      g_route g' = rt_run (h ++ map (fun f => Unsub f (z_id s)) fs) /\ g' = set_route (g_route g') g /\
      (agree3 h s -> agree3 (h ++ map (fun f => Unsub f (z_id s)) fs) s') /\
      (forall f, aget f (z_subs s') = if existsb (String.eqb f) fs then None else aget f (z_subs s)).
  Proof.
    intros HR Hc Hh E. unfold packet_step3, handle_packet3 in E. destruct (_ <? len); [discriminate|].
    unfold handle_unsubscribe3 in E. destruct (unsubscribe_all3 fs s g) as [(s3, g3)|] eqn:U; [|discriminate].
    destruct (after_packet3 now s3) as (s4, k2) eqn:A. injection E as <- <- <-.
    apply after3_frame in A. destruct A as ((oo & tt & ->) & K).
    destruct (unsubscribe_all3_spec fs h s g s3 g3 Hh (run3_subs_nodup s l HR) U) as (U2 & U3 & U4 & U5 & _ & U6).
    split; [change (JUnsuback p :: answers3 k2 = [JUnsuback p]); now rewrite (answers3_own k2 K)|].
    refine (conj U2 (conj U3 (conj _ _))); [|exact U6]. intros Ag. apply U4 in Ag. exact Ag.
  Qed.

  (** ** C50 *)
  Lemma c50_v3_no_panic s l now len x g h hr : cf_max_qos cfg <= 2 ->
    srun3 hash cfg s l -> z_disc s = false -> g_cfg g = cfg -> g_route g = rt_run h -> g_retain g = ret_run hr ->
    wf_in3 x -> safe_calls h (filters3 x) (leaving3 (z_id s) x) ->
    packet_step3 hash now len x s g <> Crash3.
  Proof.
    intros Hm HR Hd Hc Hh Hr Hw Hs. unfold packet_step3, handle_packet3. rewrite Hc.
    assert (FIN : forall s1 g1 o1, (let '(s2, out') := after_packet3 now s1 in Go3 s2 g1 (o1 ++ out')%list) <> Crash3).
    { intros s1 g1 o1. destruct (after_packet3 now s1). discriminate. }
    destruct (cf_packet_server cfg <? len); [discriminate|].
    destruct x; cbn [filters3 leaving3] in Hs; try apply FIN; try discriminate.
    - pose proof (publish_cases3 hash h w s g Hh Hw) as PC.
      destruct (handle_publish3 hash w s g) as [((s3, g3), o3)| |]; [apply FIN|discriminate|inversion PC].
    - destruct (handle_pubrel3 p s) as [(s3, k)|]; [apply FIN|discriminate].
    - unfold handle_subscribe3. destruct (max_qos_ok cfg Hm) as (mq & Hmq & _).
      destruct (subscribe_all3 now fs s g) as ((s3, g3), r) eqn:S.
      destruct (subscribe_all3_spec cfg hr now mq fs Hmq Hw h s g s3 g3 r Hc Hr Hh Hd S)
        as (done & rest & Efs & S1 & _ & _ & _ & S4).
      destruct r as [(codes, k)| |]; [apply FIN|discriminate|]. exfalso.
      destruct S4 as (f & q & rr & -> & Hp & P). rewrite S1 in P.
      rewrite safe_step in P by (left; exact Hp). discriminate.
    - assert (A : unsubscribe_all3 fs s g <> Panic) by now apply (unsubscribe_all3_total fs h).
      unfold handle_unsubscribe3. destruct (unsubscribe_all3 fs s g) as [(s3, g3)|]; [apply FIN|congruence].
  Qed.

  (** ** What one PUBLISH hands over *)
  Lemma published3_cases h l w s s' g out c xs :
    published3 hash cfg h l w s s' g out -> handed (z_bcast s) (z_bcast s') c xs ->
    xs = [] \/
    exists n es, enc_len3 w = Some n /\
      xs = map (fun e => NM3 (NMsg3 (w3_retain w) (qp_qos (w3_qp w)) (w3_topic w) (w3_payload w) (fst e) (snd e) n)) es /\
      NoDup (map fst es) /\ (forall f q, In (f, q) es <-> plain_sub h (w3_topic w) c f q).
  Proof.
    intros (now & len & g' & HR & Hd & Hin & E) Hh.
    destruct (incoming_result3 hash cfg s l now len w g h HR Hd Hin) as (_ & [(E1 & _)|(s1 & g1 & o1 & E1 & PR)]);
      rewrite E in E1; [discriminate|]. injection E1 as <- <- <-.
    assert (NF : not_forwarded3 s s' g g' -> xs = []).
    { intros (_ & B & _). unfold handed in Hh. rewrite B in Hh. rewrite <- (app_nil_r (queue_of (z_bcast s) c)) in Hh at 1.
      now apply app_inv_head in Hh. }
    inversion PR as [|s2 p _ _ _ _ _ R _ _ E2|s2 g2 n _ _ EL _ (FW & _) _ _ E2]; subst; auto.
    destruct (FW c) as (es & ND & HI & H1 & H2).
    assert (DR : reachable g (z_bcast s) c \/ ~ reachable g (z_bcast s) c).
    { unfold reachable. destruct (in_dec N.eq_dec c (g_live g)); [auto|]. destruct (in_dec N.eq_dec c (keys (z_bcast s))); [auto|].
      right. tauto. }
    destruct DR as [DR|DR].
    2:{ left. specialize (H1 DR). unfold handed in *. rewrite H1 in Hh. now apply app_inv_head in Hh. }
    right. exists n, es. split; [exact EL|]. split; [|auto].
    specialize (H2 DR). unfold handed in *. rewrite H2 in Hh. apply app_inv_head in Hh. symmetry. exact Hh.
  Qed.

  Lemma published3_forwarded h l w s s' g out :
    published3 hash cfg h l w s s' g out -> (forall p, w3_qp w = Q2 p -> w3_dup w = false) ->
    exists n g', forwarded3 h (message3 w) n s s' g g'.
  Proof.
    intros (now & len & g' & HR & Hd & Hin & E) HQ.
    destruct (c48_v3 hash cfg s l now len w g h HR Hd Hin) as [E1|(s1 & g1 & o1 & E1 & _ & C)];
      rewrite E in E1; [discriminate|]. injection E1 as <- <- <-.
    destruct C as [(n & C)|(_ & D & p & Q)]; [eauto|]. specialize (HQ p Q). congruence.
  Qed.
End V3.

(** ** Sizes (C46) *)
Lemma var_len_mono a b : a <= b -> var_len a <= var_len b.
Proof.
  intros H. unfold var_len.
  destruct (N.ltb_spec a 128), (N.ltb_spec b 128); try lia;
  destruct (N.ltb_spec a 16384), (N.ltb_spec b 16384); try lia;
  destruct (N.ltb_spec a 2097152), (N.ltb_spec b 2097152); lia.
Qed.

Lemma carries_len p w props : carries p w -> props_len (set_alias None (p5_props p)) = props_len props ->
  rem_len5 (qp_qos (w5_qp w)) (w5_topic w) (w5_payload w) (w5_props w) = rem_len5 (p5_qos p) (p5_topic p) (p5_payload p) props.
Proof.
  intros (-> & -> & -> & e & -> & X) E. unfold rem_len5.
  assert (Y : props_len (set_expiry e (set_alias None (p5_props p))) = props_len props).
  { rewrite <- E. unfold props_len, set_expiry, set_alias. cbn [pp_expiry pp_alias pp_subids pp_other].
    destruct e, (pp_expiry (p5_props p)); try lia; destruct X as (X1 & X2); exfalso; [discriminate X2|discriminate X1]; reflexivity. }
  now rewrite Y.
Qed.

Lemma total_some r n : total_len r = Some n -> r <= 268435455 /\ n = 1 + var_len r + r.
Proof. unfold total_len. destruct (N.ltb_spec 268435455 r); [discriminate|]. intros E. injection E as <-. auto. Qed.
Lemma total_ok r : r <= 268435455 -> total_len r = Some (1 + var_len r + r).
Proof. intros H. unfold total_len. destruct (N.ltb_spec 268435455 r); [lia|reflexivity]. Qed.

(** Lowering the QoS to 0 saves the identifier. *)
Lemma rem_lower q q' T pay props : rem_len5 (qos_min q q') T pay props =
  rem_len5 q T pay props - (if negb (qos_eqb q L0) && qos_eqb (qos_min q q') L0 then 2 else 0) /\
  2 <= rem_len5 q T pay props.
Proof.
  unfold rem_len5, pid_len. generalize (slen T), (var_len (props_len props)), (props_len props), (slen pay). intros a b c d.
  destruct q, q'; match goal with |- context [if ?x then _ else _] => let y := eval compute in x in change x with y end;
    cbv match beta; try match goal with |- context [qos_min ?x ?y] => let z := eval compute in (qos_min x y) in change (qos_min x y) with z end;
    cbv match beta; lia.
Qed.

Lemma checked_fits q q' T pay props n max : total_len (rem_len5 q T pay props) = Some n ->
  checked_size q (qos_min q q') n <= max ->
  exists m, total_len (rem_len5 (qos_min q q') T pay props) = Some m /\ m <= max.
Proof.
  intros E H. apply total_some in E. destruct E as (E1 & ->). destruct (rem_lower q q' T pay props) as (R1 & R2).
  unfold checked_size in H. destruct (negb (qos_eqb q L0) && qos_eqb (qos_min q q') L0).
  - exists (1 + var_len (rem_len5 (qos_min q q') T pay props) + rem_len5 (qos_min q q') T pay props).
    split; [apply total_ok; lia|]. assert (var_len (rem_len5 (qos_min q q') T pay props) <= var_len (rem_len5 q T pay props))
      by (apply var_len_mono; lia). lia.
  - rewrite N.sub_0_r in R1. rewrite R1. eexists. split; [now apply total_ok|exact H].
Qed.

Section Sizes.
  Variable hash : wpub5 -> N.
  Variable hash3 : wpub3 -> N.
  Variable pick : string -> string -> N.
  Variable cfg : config.

  Lemma c46_v5 h l w s s' g out c y now r : published5 hash pick cfg h l w s s' g out ->
    handed (s_bcast s) (s_bcast s') c [y] -> pp_alias (w5_props w) = None ->
    (forall f sub, In f (nm_filters y) -> aget f (s_subs r) = Some sub -> sd_id sub = None) ->
    exists r' o, passes5 now cfg y r r' o /\
      forall p w', o = Some p -> carries p w' -> fits (s_maxpkt r) w'.
  Proof.
    intros HP HH HA HI.
    destruct (published_cases hash pick cfg h l w s s' g out c [y] HP HH) as [?|(T & n & fs & sq & HT & EL & EX & _ & _ & _ & _ & _ & HS)]; [discriminate|].
    injection EX as ->. cbn [nm_filters n5_filters] in HI.
    destruct (normal5_spec now cfg (NMsg5 (w5_retain w) (qp_qos (w5_qp w)) T (w5_payload w) fs sq (set_alias None (w5_props w)) n) r)
      as (r' & o & P & HN & HSome). cbn [n5_filters n5_qos n5_sqos n5_len n5_topic n5_payload n5_props] in *.
    exists r', o. split; [exact P|]. intros p w' Ep C. destruct (HSome p Ep) as (S1 & S2 & S3 & _ & ids & S5 & _ & S6).
    assert (Eids : ids = []).
    { destruct ids as [|i ids]; [reflexivity|]. destruct (proj1 (S6 i) (or_introl eq_refl)) as (f & sub & F1 & F2 & F3).
      rewrite (HI f sub F1 F2) in F3. discriminate. }
    subst ids. unfold fits, enc_len5.
    assert (EP : props_len (set_alias None (p5_props p)) = props_len (w5_props w)).
    { rewrite S5. destruct (w5_props w) as [e a si ot]. cbn in HA, HS. subst a si. reflexivity. }
    rewrite (carries_len p w' (w5_props w) C EP), S1, S2, S3.
    assert (ET : T = w5_topic w).
    { unfold topic_for in HT. rewrite HA in HT. destruct (String.eqb _ _); [discriminate|]. now injection HT. }
    rewrite ET. apply (checked_fits _ _ _ _ _ n); [exact EL|].
    apply N.le_ngt. intros X. assert (o = None) by (apply HN; auto). congruence.
  Qed.

  Lemma c46_v3 h l w s s' g out c y ys now r : published3 hash3 cfg h l w s s' g out ->
    handed (z_bcast s) (z_bcast s') c ys -> In y ys ->
    (forall f sub, In f (nm_filters y) -> aget f (s_subs r) = Some sub -> sd_id sub = None) ->
    (forall q, var_len (rem_len3 q (w3_topic w) (w3_payload w) + 1) = var_len (rem_len3 q (w3_topic w) (w3_payload w))) ->
    rem_len3 (qp_qos (w3_qp w)) (w3_topic w) (w3_payload w) < 268435455 ->
    exists r' o, passes5 now cfg y r r' o /\
      forall p w', o = Some p -> carries p w' -> fits (s_maxpkt r) w'.
  Proof.
    intros HP HH HY HI HV HB.
    destruct (published3_cases hash3 cfg h l w s s' g out c ys HP HH) as [->|(n & es & EL & -> & _)]; [destruct HY|].
    apply in_map_iff in HY. destruct HY as ((f, sq) & <- & _). cbn [fst snd nm_filters n3_filter] in *.
    destruct (normal5_spec3 now cfg (NMsg3 (w3_retain w) (qp_qos (w3_qp w)) (w3_topic w) (w3_payload w) f sq n) r)
      as (r' & o & P & HN & HSome). cbn [n3_filter n3_qos n3_sqos n3_len n3_topic n3_payload] in *.
    exists r', o. split; [exact P|]. intros p w' Ep C. destruct (HSome p Ep) as (S1 & S2 & S3 & sub & S4 & _ & S5).
    rewrite (HI f sub (or_introl eq_refl) S4) in S5. unfold fits, enc_len5.
    assert (EP : props_len (set_alias None (p5_props p)) = props_len pprops_default) by (rewrite S5; reflexivity).
    rewrite (carries_len p w' pprops_default C EP), S1, S2, S3.
    assert (R5 : rem_len5 (qp_qos (w3_qp w)) (w3_topic w) (w3_payload w) pprops_default =
                 rem_len3 (qp_qos (w3_qp w)) (w3_topic w) (w3_payload w) + 1).
    { unfold rem_len5, rem_len3. change (var_len (props_len pprops_default)) with 1. change (props_len pprops_default) with 0. lia. }
    apply (checked_fits _ _ _ _ _ (n + 1)).
    - unfold enc_len3 in EL. apply total_some in EL. destruct EL as (E1 & ->). rewrite R5, total_ok by lia. f_equal.
      rewrite HV. lia.
    - apply N.le_ngt. intros X. assert (o = None) by (apply HN; auto). congruence.
  Qed.
End Sizes.
