(** The invariant of the runs of a v5 session, and the facts behind C17, C18,
    C19 and C48. *)
From Coq Require Import List Bool String NArith Lia.
From Verif Require Import Base BaseLemmas TopicModel TopicSpec MsgModel RouteModel RouteSpec RouteInv RetainModel
  PendingModel AliasModel OutModel GlobModel Sess5Model Sess3Model ConnModel DelivSpec DelivProofs DelivFacts
  InSpec InProofs.
Import ListNotations.
Local Open Scope N_scope.

Lemma answers_app a b : answers (a ++ b) = (answers a ++ answers b)%list.
Proof. apply filter_app. Qed.
Lemma answers_own l : Forall own_kind l -> answers l = [].
Proof.
  induction 1 as [|k l H _ IH]; [reflexivity|]. unfold answers in *. cbn [filter].
  destruct k; try now destruct H. all: exact IH.
Qed.

Lemma answers_disc code r l : Forall own_kind l -> answers (KDisconnect code r :: l) = [KDisconnect code r].
Proof. intros H. change (KDisconnect code r :: answers l = [KDisconnect code r]). now rewrite answers_own. Qed.

(** The reaction after the handler: only the sending side and the clock. *)
Lemma after_frame now s s' out : after_packet5 now s = (s', out) ->
  (exists o t, s' = with_out o (with_last t s)) /\ Forall own_kind out.
Proof.
  unfold after_packet5. destruct (is_disconnected5 s).
  - intros E. injection E as <- <-. split; [exists (s_out s), (s_last s); now destruct s|constructor].
  - intros E. pose proof (pendings_frame _ _ _ _ E) as (o & ->). apply pendings_kind in E. split; eauto.
Qed.

Section Run.
  Variable hash : wpub5 -> N.
  Variable cfg : config.

  Record inv5 (s : sess5) (l : list (sev5 * list pkt5)) : Prop := Inv5 {
    i_alias : is_disconnected5 s = false -> forall a, aget a (s_alias s) = bound l a;
    i_good : good_aliases s;
    i_open : forall p, aget p (s_qos2 s) = option_map hash (opener l p);
    i_nodup : NoDup (keys (s_qos2 s));
    i_max : N.of_nat (List.length (s_qos2 s)) <= cf_inflight_server cfg
  }.

  Lemma bound_snoc l e a : bound (l ++ [e]) a = bind_step a (bound l a) (fst e).
  Proof. unfold bound. rewrite map_app, fold_left_app. reflexivity. Qed.
  Lemma opener_snoc l e p : opener (l ++ [e]) p = open_step p (opener l p) e.
  Proof. unfold opener. rewrite fold_left_app. reflexivity. Qed.

  (** An event that touches neither the aliases nor the identifiers. *)
  Lemma inv_frame s s' l e out : inv5 s l ->
    s_alias s' = s_alias s -> s_qos2 s' = s_qos2 s -> (is_disconnected5 s' = false -> is_disconnected5 s = false) ->
    (is_disconnected5 s' = false -> forall a, bind_step a (bound l a) e = bound l a) ->
    (forall p, open_step p (opener l p) (e, out) = opener l p) ->
    inv5 s' (l ++ [(e, out)]).
  Proof.
    intros [I1 I2 I3 I4 I5] E1 E2 ED B O. constructor.
    - intros D a. rewrite E1, bound_snoc. cbn [fst]. rewrite B; auto.
    - unfold good_aliases. rewrite E1. exact I2.
    - intros p. rewrite E2, opener_snoc, O. apply I3.
    - now rewrite E2.
    - now rewrite E2.
  Qed.

  Lemma sinit_inv s : sinit5 cfg s -> inv5 s [].
  Proof.
    intros [t0 now uuid p data id s1 k E]. unfold session_connect5 in E. cbn [cn_s new_conn] in E.
    destruct (max_allowed_qos cfg); [|discriminate]. injection E as E _.
    assert (A : s_alias s1 = [] /\ s_qos2 s1 = []).
    { subst s1. destruct (_ <? _); match goal with |- context [if ?b then _ else _] => destruct b end; split; reflexivity. }
    destruct A as (A1 & A2). constructor.
    - intros _ a. rewrite A1. reflexivity.
    - unfold good_aliases. rewrite A1. discriminate.
    - intros p'. rewrite A2. reflexivity.
    - rewrite A2. constructor.
    - rewrite A2. cbn. lia.
  Qed.

  Lemma take_fields t0 now s data uuid p s' k :
    session_connect5 unit cfg now (RcPresent (snd (build_state5 s))) data (new_conn cfg uuid t0 p) = Some (s', k) ->
    s_alias s' = [] /\ s_qos2 s' = (if co_clean p then [] else s_qos2 s) /\ is_disconnected5 s' = false /\
    s_id s' = s_id s /\ s_subs s' = (if co_clean p then [] else s_subs s).
  Proof.
    unfold session_connect5. cbn [cn_s new_conn]. intros E.
    change (s_clean (connect_session cfg uuid p (sess5_new cfg t0))) with (co_clean p) in E.
    destruct (co_clean p); cbn [negb] in E; destruct (max_allowed_qos cfg); try discriminate; injection E as E _;
      subst s'; destruct (_ <? _); match goal with |- context [if ?b then _ else _] => destruct b end;
      repeat split; reflexivity.
  Qed.

  (** One PUBLISH of the client. *)
  Lemma pub_step pick s l now len w g h : inv5 s l -> is_disconnected5 s = false -> wf_in5 (IPub w) ->
    g_cfg g = cfg -> g_route g = rt_run h -> len <= cf_packet_server cfg ->
    exists s' g' out0 out, packet_step5 hash pick now len (IPub w) s g = Go s' g' out /\
      pub_result hash pick h w s s' g g' out0 /\ answers out = out0 /\ Forall own_kind (skipn (List.length out0) out) /\
      (is_disconnected5 s' = false -> s_alias s' = alias_after (cf_alias_max cfg) w s) /\
      good_aliases s' /\ s_cdisc s' = false /\ g_cfg g' = g_cfg g /\ g_route g' = g_route g /\
      s_id s' = s_id s /\ s_subs s' = s_subs s.
  Proof.
    intros I D WF GC GR HL.
    assert (D2 : s_cdisc s = false /\ s_sdisc s = false)
      by (unfold is_disconnected5 in D; now apply orb_false_iff in D).
    destruct (publish_cases hash pick h w s g GR WF (i_good _ _ I) (proj2 D2))
      as (s1 & g1 & out0 & E & PR & PS & PA & PG & PC).
    unfold packet_step5, handle_packet5.
    replace (cf_packet_server (g_cfg g) <? len) with false by (symmetry; apply N.ltb_ge; rewrite GC; lia).
    rewrite E. destruct (after_packet5 now s1) as (s2, out') eqn:EA. apply after_frame in EA.
    destruct EA as ((o & t & ->) & K). exists (with_out o (with_last t s1)), g1, out0, (out0 ++ out')%list.
    destruct PS as (PS1 & _ & _ & PS4 & PS5 & _).
    refine (conj eq_refl (conj _ (conj _ (conj _ (conj _ (conj PG (conj _ (conj PC (conj _ (conj PS1 PS4)))))))))).
    - destruct PR as [code R1 R2 R3|T p hh A1 A2 A3 A4 A5 A6 A7 A8|T p A1 A2 A3 A4 A5 A6 A7 A8|T ln A1 A2 A3 A4 A5 A6 A7 A8 A9].
      + eapply pr_refused; eauto.
      + eapply pr_in_use; eauto.
      + eapply pr_again; eauto.
      + eapply pr_forwarded; eauto.
    - rewrite answers_app, (answers_own out') by exact K. rewrite app_nil_r.
      destruct PR as [code R1 ((rs & ->) & _) R3|T p hh A1 A2 A3 A4 -> A6 A7 A8|T p A1 A2 A3 A4 -> A6 A7 A8|T ln A1 A2 A3 A4 -> A6 A7 A8 A9];
        try reflexivity. destruct (w5_qp w); reflexivity.
    - rewrite skipn_app, PeanoNat.Nat.sub_diag, skipn_all. exact K.
    - intros X. rewrite <- GC. apply PA. unfold is_disconnected5 in X. apply orb_false_iff in X. apply X.
    - change (s_cdisc s1 = false). rewrite PS5. apply D2.
    - destruct PR as [code R1 (_ & _ & -> & _) R3|T p hh A1 A2 A3 A4 A5 (-> & _) A7 A8|T p A1 A2 A3 A4 A5 (-> & _) A7 A8|T ln A1 A2 A3 A4 A5 A6 A7 A8 A9];
        try reflexivity. apply A4.
  Qed.

  Lemma pubrec_answers p out : pubrec_for p out = pubrec_for p (answers out).
  Proof.
    unfold pubrec_for, answers. induction out as [|k out IH]; [reflexivity|]. cbn [existsb filter].
    rewrite IH. destruct k; reflexivity.
  Qed.
  Lemma pubcomp_answers p out : pubcomp_for p out = pubcomp_for p (answers out).
  Proof.
    unfold pubcomp_for, answers. induction out as [|k out IH]; [reflexivity|]. cbn [existsb filter].
    rewrite IH. destruct k; reflexivity.
  Qed.

  Lemma topic_of_bound s l w : (forall a, aget a (s_alias s) = bound l a) ->
    topic_of (cf_alias_max cfg) w s = topic_for (cf_alias_max cfg) l w.
  Proof. intros H. unfold topic_of, topic_for. destruct (pp_alias _); auto. rewrite H. reflexivity. Qed.

  Lemma nodup_qos2 w s : NoDup (keys (s_qos2 s)) -> NoDup (keys (qos2_after hash w s)).
  Proof.
    unfold qos2_after. intros H. destruct (w5_qp w); auto. destruct (aget _ _); auto. now apply NoDup_aset.
  Qed.

  (** What [opener] says after a PUBLISH, against the session's table. *)
  Lemma open_after s s' l now len w g out T :
    (forall p, aget p (s_qos2 s) = option_map hash (opener l p)) ->
    s_qos2 s' = qos2_after hash w s ->
    (forall p, w5_qp w = Q2 p -> pubrec_for p out = true) ->
    acceptable w s g T ->
    forall p, aget p (s_qos2 s') = option_map hash (open_step p (opener l p) (VPkt now len (IPub w) g, out)).
  Proof.
    intros I E R _ p. rewrite E. unfold qos2_after. cbn [open_step fst snd].
    destruct (w5_qp w) as [| |p']; [destruct (opener l p) eqn:X; rewrite I, X; reflexivity..|].
    destruct (aget p' (s_qos2 s)) as [h'|] eqn:A.
    - rewrite I. destruct (opener l p) as [w0|] eqn:X; [reflexivity|]. cbn [option_map].
      destruct (N.eqb_spec p' p) as [->|]; [|reflexivity]. rewrite I, X in A. discriminate.
    - rewrite aget_aset. change (@eqb pid _ p p') with (N.eqb p p').
      destruct (N.eqb_spec p p') as [<-|Hne].
      + rewrite I in A. destruct (opener l p); [discriminate|]. rewrite N.eqb_refl, (R p eq_refl). reflexivity.
      + rewrite I. destruct (opener l p) as [w0|]; [reflexivity|].
        destruct (N.eqb_spec p' p); [congruence|reflexivity].
  Qed.

  Lemma open_same s s' l now len w g out :
    (forall p, aget p (s_qos2 s) = option_map hash (opener l p)) ->
    s_qos2 s' = s_qos2 s ->
    (forall p, w5_qp w = Q2 p -> pubrec_for p out = true -> opener l p <> None) ->
    forall p, aget p (s_qos2 s') = option_map hash (open_step p (opener l p) (VPkt now len (IPub w) g, out)).
  Proof.
    intros I E R p. rewrite E, I. cbn [open_step fst snd].
    destruct (w5_qp w) as [| |p']; try reflexivity. destruct (opener l p) eqn:X; [reflexivity|].
    destruct (N.eqb_spec p' p) as [->|]; [|reflexivity]. cbn [andb].
    destruct (pubrec_for p out) eqn:Y; [|reflexivity]. exfalso. now apply (R p eq_refl Y).
  Qed.

  Lemma bind_after s l now len w g T : (forall a, aget a (s_alias s) = bound l a) ->
    topic_of (cf_alias_max cfg) w s = Some T ->
    forall a, aget a (alias_after (cf_alias_max cfg) w s) = bind_step a (bound l a) (VPkt now len (IPub w) g).
  Proof.
    intros I H a. unfold alias_after, topic_of in *. cbn [bind_step]. destruct (pp_alias _) as [b|]; [|apply I].
    destruct ((1 <=? b) && (b <=? cf_alias_max cfg)); [|discriminate]. cbn [andb].
    destruct (negb (String.eqb (w5_topic w) "")).
    - rewrite aget_aset. change (@eqb N _ a b) with (N.eqb a b). rewrite N.eqb_sym.
      destruct (b =? a); [reflexivity|]. cbn [andb]. apply I.
    - rewrite andb_false_r. apply I.
  Qed.

  Lemma len_aset_new p x (m : list (pid * N)) : aget p m = None ->
    List.length (aset p x m) = S (List.length m).
  Proof. intros H. apply aget_None_notin in H. rewrite aset_notin by exact H. rewrite app_length. cbn. lia. Qed.

  Lemma len_adel p (m : list (pid * N)) : (List.length (adel p m) <= List.length m)%nat.
  Proof. induction m as [|(k, v) m IH]; cbn [adel List.length]; [lia|]. destruct (eqb p k); cbn [List.length]; lia. Qed.

  Lemma step_inv s l e s' out : inv5 s l -> sstep5 hash cfg s e s' out -> inv5 s' (l ++ [(e, out)]).
  Proof.
    intros I S. destruct S as [pick s now len x g s' g' out D WF (GC & h & GR) E|s now m s' r E|s b n|s now s' out E|s now m s' r E|s reason s' k E|s conn last w|s t0 now uuid p data s' k E].
    - destruct (N.ltb_spec (cf_packet_server cfg) len) as [HL|HL].
      { (* too large *)
        unfold packet_step5, handle_packet5 in E. rewrite GC in E.
        replace (cf_packet_server cfg <? len) with true in E by (symmetry; now apply N.ltb_lt).
        cbn [error_disconnect] in E. destruct (after_packet5 _ _) as (s2, o2) eqn:EA. injection E as <- <- <-.
        apply after_frame in EA. destruct EA as ((o & t & ->) & K).
        eapply inv_frame; eauto; try reflexivity.
        1: rewrite (orb_true_r (s_cdisc s) : is_disconnected5 (with_out o (with_last t (with_disc (s_cdisc s) true s))) = true); discriminate.
        intros p. cbn [open_step fst snd]. destruct x; try reflexivity.
        - destruct (w5_qp w); try reflexivity. destruct (opener l p); [reflexivity|].
          rewrite pubrec_answers. cbn [app]. rewrite answers_disc by exact K. cbn. now rewrite andb_false_r.
        - rewrite pubcomp_answers. cbn [app]. rewrite answers_disc by exact K. cbn. now rewrite andb_false_r. }
      destruct x.
      + (* PUBLISH *)
        destruct (pub_step pick s l now len w g h I D WF GC GR HL)
          as (s1 & g1 & out0 & out1 & E1 & PR & PA & _ & PAl & PG & PC & _).
        rewrite E in E1. injection E1 as <- <- <-.
        pose proof (i_alias _ _ I D) as IA.
        assert (Hal : forall T, acceptable w s g T -> is_disconnected5 s' = false ->
                  forall a, aget a (s_alias s') = bound (l ++ [(VPkt now len (IPub w) g, out)]) a).
        { intros T (_ & _ & HT & _) DD a. rewrite (PAl DD), bound_snoc. cbn [fst]. rewrite GC in HT.
          now rewrite (bind_after s l now len w g T IA HT). }
        destruct PR as [code R1 (( rs & R2) & R3 & _) R4|T p hh A1 A2 A3 A4 A5 A6 A7 A8|T p A1 A2 A3 A4 A5 A6 A7 A8|T ln A1 A2 A3 A4 A5 A6 A7 A8 A9].
        * constructor; auto.
          -- unfold is_disconnected5. rewrite R3, orb_true_r. discriminate.
          -- intros p. rewrite opener_snoc. apply (open_same s); auto.
             ++ apply (i_open _ _ I).
             ++ intros p' _. rewrite pubrec_answers, PA, R2. discriminate.
          -- rewrite R4. apply (i_nodup _ _ I).
          -- rewrite R4. apply (i_max _ _ I).
        * constructor; eauto.
          -- intros p'. rewrite opener_snoc. apply (open_same s); auto.
             ++ apply (i_open _ _ I).
             ++ intros p'' X _. rewrite A2 in X. injection X as <-. rewrite (i_open _ _ I) in A3.
                intros Y. rewrite Y in A3. discriminate.
          -- rewrite A8. apply (i_nodup _ _ I).
          -- rewrite A8. apply (i_max _ _ I).
        * constructor; eauto.
          -- intros p'. rewrite opener_snoc. apply (open_after s s' l now len w g out T); auto.
             ++ apply (i_open _ _ I).
             ++ intros p'' X. rewrite pubrec_answers, PA, A5. rewrite A2 in X. injection X as <-.
                cbn. now rewrite N.eqb_refl.
          -- rewrite A8. apply nodup_qos2, (i_nodup _ _ I).
          -- rewrite A8. unfold qos2_after. rewrite A2. destruct A4 as [A4|(A4 & A4')]; rewrite A4.
             ++ apply (i_max _ _ I).
             ++ rewrite len_aset_new by exact A4. unfold room in A4'. rewrite GC in A4'. lia.
        * constructor; eauto.
          -- intros p'. rewrite opener_snoc. apply (open_after s s' l now len w g out T); auto.
             ++ apply (i_open _ _ I).
             ++ intros p'' X. rewrite pubrec_answers, PA, A5, X. cbn. now rewrite N.eqb_refl.
          -- rewrite A7. apply nodup_qos2, (i_nodup _ _ I).
          -- rewrite A7. unfold qos2_after. destruct (w5_qp w) as [| |p] eqn:EQ; try apply (i_max _ _ I).
             destruct (A3 p eq_refl) as (B1 & _ & B2). rewrite B1.
             rewrite len_aset_new by exact B1. unfold room in B2. rewrite GC in B2. lia.
      + (* PUBACK *)
        unfold packet_step5, handle_packet5 in E. rewrite GC in E.
        replace (cf_packet_server cfg <? len) with false in E by (symmetry; now apply N.ltb_ge).
        destruct (after_packet5 _ _) as (s2, o2) eqn:EA. injection E as <- <- <-.
        apply after_frame in EA. destruct EA as ((o & t & ->) & K).
        eapply inv_frame; eauto; reflexivity.
      + (* PUBREC *)
        unfold packet_step5, handle_packet5 in E. rewrite GC in E.
        replace (cf_packet_server cfg <? len) with false in E by (symmetry; now apply N.ltb_ge).
        destruct (handle_pubrec5 now p s) as (s1, k1) eqn:EP. unfold handle_pubrec5 in EP.
        destruct (out5_on_queue _ _) as (o1, ok). injection EP as <- <-.
        destruct (after_packet5 _ _) as (s2, o2) eqn:EA. injection E as <- <- <-.
        apply after_frame in EA. destruct EA as ((o & t & ->) & K).
        eapply inv_frame; eauto; reflexivity.
      + (* PUBREL *)
        unfold packet_step5, handle_packet5 in E. rewrite GC in E.
        replace (cf_packet_server cfg <? len) with false in E by (symmetry; now apply N.ltb_ge).
        unfold handle_pubrel5 in E. destruct (aget p (s_qos2 s)) as [hh|] eqn:A.
        * destruct (after_packet5 _ _) as (s2, o2) eqn:EA. injection E as <- <- <-.
          apply after_frame in EA. destruct EA as ((o & t & ->) & K). constructor.
          -- intros DD a. rewrite bound_snoc. cbn. apply (i_alias _ _ I). exact D.
          -- exact (i_good _ _ I).
          -- intros p'. rewrite opener_snoc. cbn [fst snd open_step].
             change (s_qos2 _) with (adel p (s_qos2 s)). rewrite aget_adel by apply (i_nodup _ _ I).
             assert (PC : pubcomp_for p' (KPubcomp p RC_success :: o2)%list = (p =? p')).
             { change (KPubcomp p RC_success :: o2)%list with ([KPubcomp p RC_success] ++ o2)%list. rewrite pubcomp_answers, answers_app, (answers_own o2 K). apply orb_false_r. }
             rewrite PC.
             change (@eqb pid _ p' p) with (N.eqb p' p). destruct (N.eqb_spec p p') as [->|Hne].
             ++ rewrite N.eqb_refl. reflexivity.
             ++ destruct (N.eqb_spec p' p); [congruence|]. cbn [andb]. apply (i_open _ _ I).
          -- change (s_qos2 _) with (adel p (s_qos2 s)). apply NoDup_adel, (i_nodup _ _ I).
          -- change (s_qos2 _) with (adel p (s_qos2 s)). pose proof (i_max _ _ I). pose proof (len_adel p (s_qos2 s)). lia.
        * destruct (after_packet5 _ _) as (s2, o2) eqn:EA. injection E as <- <- <-.
          apply after_frame in EA. destruct EA as ((o & t & ->) & K).
          eapply inv_frame; eauto; try reflexivity.
          intros p'. cbn [open_step fst snd]. destruct (N.eqb_spec p p') as [->|]; [|reflexivity].
          rewrite (i_open _ _ I) in A. destruct (opener l p'); [discriminate|].
          now destruct (true && _).
      + (* PUBCOMP *)
        unfold packet_step5, handle_packet5 in E. rewrite GC in E.
        replace (cf_packet_server cfg <? len) with false in E by (symmetry; now apply N.ltb_ge).
        destruct (after_packet5 _ _) as (s2, o2) eqn:EA. injection E as <- <- <-.
        apply after_frame in EA. destruct EA as ((o & t & ->) & K).
        eapply inv_frame; eauto; reflexivity.
      + (* SUBSCRIBE *)
        unfold packet_step5, handle_packet5 in E. rewrite GC in E.
        replace (cf_packet_server cfg <? len) with false in E by (symmetry; now apply N.ltb_ge).
        assert (X : exists s1 g1 o1, handle_subscribe5 now p id fs s g = Done (s1, g1, o1) /\
                     s_alias s1 = s_alias s /\ s_qos2 s1 = s_qos2 s /\
                     (is_disconnected5 s1 = false -> is_disconnected5 s = false)).
        { destruct (handle_subscribe5 now p id fs s g) as [((s1, g1), o1)|] eqn:ES; [|discriminate].
          exists s1, g1, o1. split; [reflexivity|]. unfold handle_subscribe5 in ES.
          assert (Y : (let '(s', k) := error_disconnect RC_protocol_error "Subscription identifier value=0 is not allowed" s
                       in Done (s', g, [k])) = Done (s1, g1, o1) \/
                      (Done (s, g, [KSuback p (map (fun _ => RC_subid_not_supported) fs)]) = Done (s1, g1, o1)) \/
                      match subscribe_all now id fs s g with
                      | Done (s', g', codes, out) => Done (s', g', (out ++ [KSuback p codes])%list)
                      | Panic => Panic
                      end = Done (s1, g1, o1)).
          { destruct id as [[|]|]; [left; exact ES|..]; (destruct (_ && _); [right; left|right; right]; exact ES). }
          clear ES. destruct Y as [Y|[Y|Y]].
          - cbn [error_disconnect] in Y. injection Y as <- _ _. repeat split.
            rewrite (orb_true_r (s_cdisc s) : is_disconnected5 (with_disc (s_cdisc s) true s) = true). discriminate.
          - injection Y as <- _ _. auto.
          - destruct (subscribe_all _ _ _ _ _) as [(((s2, g2), cs), o2)|] eqn:EA; [|discriminate].
            injection Y as <- _ _. apply subscribe_all_frame in EA. destruct EA as (EA & _).
            apply outsubs_same in EA. destruct EA as (B1 & B2 & _ & _ & _ & _ & B3 & B4 & _).
            refine (conj B1 (conj B2 _)). intros _. exact D. }
        destruct X as (s1 & g1 & o1 & X1 & X2 & X3 & X4). rewrite X1 in E.
        destruct (after_packet5 _ _) as (s2, o2) eqn:EA. injection E as <- <- <-.
        apply after_frame in EA. destruct EA as ((o & t & ->) & K).
        eapply inv_frame; eauto; reflexivity.
      + (* UNSUBSCRIBE *)
        unfold packet_step5, handle_packet5 in E. rewrite GC in E.
        replace (cf_packet_server cfg <? len) with false in E by (symmetry; now apply N.ltb_ge).
        unfold handle_unsubscribe5 in E. destruct (unsubscribe_all fs s g) as [((s1, g1), cs)|] eqn:EU; [|discriminate].
        apply unsubscribe_all_frame, outsubs_same in EU. destruct EU as (B1 & B2 & _ & _ & _ & _ & B3 & B4 & _).
        destruct (after_packet5 _ _) as (s2, o2) eqn:EA. injection E as <- <- <-.
        apply after_frame in EA. destruct EA as ((o & t & ->) & K).
        eapply inv_frame; eauto; try reflexivity. 
      + (* PINGREQ *)
        unfold packet_step5, handle_packet5 in E. rewrite GC in E.
        replace (cf_packet_server cfg <? len) with false in E by (symmetry; now apply N.ltb_ge).
        destruct (after_packet5 _ _) as (s2, o2) eqn:EA. injection E as <- <- <-.
        apply after_frame in EA. destruct EA as ((o & t & ->) & K).
        eapply inv_frame; eauto; reflexivity.
      + (* DISCONNECT *)
        unfold packet_step5, handle_packet5 in E. rewrite GC in E.
        replace (cf_packet_server cfg <? len) with false in E by (symmetry; now apply N.ltb_ge).
        destruct (handle_disconnect5 code expiry s) as (s1, o1) eqn:ED.
        assert (B : s_alias s1 = s_alias s /\ s_qos2 s1 = s_qos2 s /\ is_disconnected5 s1 = true).
        { unfold handle_disconnect5 in ED.
          destruct expiry as [v|]; [destruct ((0 <? v) && (s_expiry s =? 0))|]; cbn [error_disconnect] in ED;
            injection ED as <- _; destruct (code =? 0); repeat split; unfold is_disconnected5; cbn; now rewrite ?orb_true_r. }
        destruct B as (B1 & B2 & B3).
        destruct (after_packet5 _ _) as (s2, o2) eqn:EA. injection E as <- <- <-.
        apply after_frame in EA. destruct EA as ((o & t & ->) & K).
        eapply inv_frame; eauto; try reflexivity.
      + (* not accepted *)
        unfold packet_step5, handle_packet5 in E. rewrite GC in E.
        replace (cf_packet_server cfg <? len) with false in E by (symmetry; now apply N.ltb_ge). discriminate.
    - apply normal_frame in E. destruct E as (o & ->). eapply inv_frame; eauto; reflexivity.
    - eapply inv_frame; eauto; reflexivity.
    - apply pendings_frame in E. destruct E as (o & ->). eapply inv_frame; eauto; reflexivity.
    - apply normal_frame in E. destruct E as (o & ->). eapply inv_frame; eauto; reflexivity.
    - injection E as <- <-. eapply inv_frame; eauto; try reflexivity. unfold is_disconnected5; cbn [s_cdisc s_sdisc with_disc]; rewrite orb_true_r; discriminate.
    - eapply inv_frame; eauto; reflexivity.
    - apply take_fields in E. destruct E as (E1 & E2 & E3 & _). constructor.
      + intros _ a. rewrite E1, bound_snoc. reflexivity.
      + unfold good_aliases. rewrite E1. discriminate.
      + intros p'. rewrite E2, opener_snoc. cbn [open_step fst]. destruct (co_clean p); [reflexivity|apply (i_open _ _ I)].
      + rewrite E2. destruct (co_clean p); [constructor|apply (i_nodup _ _ I)].
      + rewrite E2. destruct (co_clean p); [cbn; lia|apply (i_max _ _ I)].
  Qed.

  Lemma run_inv s l : srun5 hash cfg s l -> inv5 s l.
  Proof. induction 1 as [s H|s l e s' out H IH S]; [now apply sinit_inv|eapply step_inv; eauto]. Qed.
End Run.
