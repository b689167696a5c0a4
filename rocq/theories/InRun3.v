(** The invariant of the runs of a v3 session, and the cases of its PUBLISH. *)
From Coq Require Import List Bool String NArith Lia.
From Verif Require Import Base BaseLemmas TopicModel TopicSpec MsgModel RouteModel RouteSpec RouteInv RetainModel
  PendingModel AliasModel OutModel GlobModel Sess5Model Sess3Model ConnModel DelivSpec DelivProofs DelivFacts
  InSpec InProofs.
Import ListNotations.
Local Open Scope N_scope.

Definition outsubs3 (s s' : sess3) : Prop := exists o m, s' = zwith_subs m (zwith_out o s).
Lemma outsubs3_refl s : outsubs3 s s.
Proof. exists (z_out s), (z_subs s). now destruct s. Qed.
Lemma outsubs3_trans a b c : outsubs3 a b -> outsubs3 b c -> outsubs3 a c.
Proof. intros (o & m & ->) (o' & m' & ->). exists o', m'. now destruct a. Qed.
Lemma outsubs3_out o s : outsubs3 s (zwith_out o s).
Proof. exists o, (z_subs s). now destruct s. Qed.
Lemma outsubs3_subs m s : outsubs3 s (zwith_subs m s).
Proof. exists (z_out s), m. now destruct s. Qed.

Definition own_kind3 (k : pkt3) : Prop := match k with JPub _ | JPubrel _ => True | _ => False end.

Lemma recv3_frame now m s s' r : recv_publish3 now m s = (s', r) ->
  (exists o, s' = zwith_out o s) /\ match r with Some (_, Some k) => own_kind3 k | _ => True end.
Proof.
  assert (Hs : exists o, s = zwith_out o s) by (exists (z_out s); now destruct s).
  unfold recv_publish3. destruct (aget _ _); [|intros E; injection E as <- <-; auto].
  destruct (negb _).
  - destruct (out3_push _ _ _). intros E. injection E as <- <-. split; [eauto|exact I].
  - destruct (negb (z_disc s)); intros E; injection E as <- <-; split; auto; exact I.
Qed.

Lemma normal3_frame now m s s' r : handle_normal3 now m s = (s', r) -> exists o, s' = zwith_out o s.
Proof.
  assert (Hs : exists o, s = zwith_out o s) by (exists (z_out s); now destruct s).
  unfold handle_normal3. destruct m as [m|m].
  - intros E. now apply recv3_frame in E.
  - destruct (n5_filters m); [intros E; injection E as <- _; auto|]. intros E. now apply recv3_frame in E.
Qed.

Lemma pendings3_frame now s s' out : pendings3 now s = (s', out) -> (exists o, s' = zwith_out o s) /\ Forall own_kind3 out.
Proof.
  unfold pendings3. destruct (handle_pendings3 _ _). intros E. injection E as <- <-. split; [eauto|].
  apply Forall_forall. intros k H. apply in_map_iff in H. destruct H as (x & <- & _). destruct x; exact I.
Qed.

Lemma retained3_frame now f q ms : forall s s' out pend, send_retained3 now f q ms s = (s', out, pend) ->
  (exists o, s' = zwith_out o s) /\ Forall own_kind3 out.
Proof.
  induction ms as [|m ms IH]; intros s s' out pend E; cbn [send_retained3] in E.
  - injection E as <- <- <-. split; [exists (z_out s); now destruct s|constructor].
  - destruct (qos_leb _ _); [|now apply IH in E].
    destruct (recv_publish3 _ _ _) as (s1, res) eqn:R. apply recv3_frame in R. destruct R as ((x & ->) & Hr).
    destruct (send_retained3 _ _ _ _ _) as ((s2, o2), p2) eqn:S. apply IH in S. destruct S as ((y & ->) & Hk).
    assert (X : exists o, zwith_out y (zwith_out x s) = zwith_out o s) by (exists y; now destruct s).
    destruct res as [(q0, k)|]; injection E as <- <- <-; split; auto. destruct k; cbn [opt_list app]; auto.
Qed.

Lemma subscribe_one3_frame now f q s g s' g' code out : subscribe_one3 now f q s g = Ok3 (s', g', code, out) ->
  outsubs3 s s' /\ Forall own_kind3 out.
Proof.
  unfold subscribe_one3. destruct (is_shared f); [discriminate|]. destruct (max_allowed_qos _); [|discriminate].
  destruct (rt_subscribe _ _ _ _) as (t, p). destruct p; [discriminate|].
  destruct (ret_get_matches _ _); [|discriminate].
  destruct (send_retained3 _ _ _ _ _) as ((s2, o2), pend) eqn:S. apply retained3_frame in S. destruct S as ((x & ->) & Hk).
  destruct pend.
  - destruct (pendings3 _ _) as (s3, o3) eqn:P. apply pendings3_frame in P. destruct P as ((y & ->) & Hp).
    intros E. injection E as <- <- <- <-. split.
    + eapply outsubs3_trans; [eapply outsubs3_trans; [apply outsubs3_subs|apply outsubs3_out]|apply outsubs3_out].
    + apply Forall_app. auto.
  - intros E. injection E as <- <- <- <-. split; auto.
    eapply outsubs3_trans; [apply outsubs3_subs|apply outsubs3_out].
Qed.

Lemma subscribe_all3_frame now fs : forall s g s' g' r, subscribe_all3 now fs s g = (s', g', r) ->
  outsubs3 s s' /\ match r with Ok3 (_, out) => Forall own_kind3 out | _ => True end.
Proof.
  induction fs as [|(f, q) fs IH]; intros s g s' g' r E; cbn [subscribe_all3] in E.
  - injection E as <- <- <-. split; [apply outsubs3_refl|constructor].
  - destruct (subscribe_one3 now f q s g) as [(((s1, g1), code), o1)| |] eqn:S.
    2, 3: injection E as <- <- <-; split; [apply outsubs3_refl|exact I].
    apply subscribe_one3_frame in S. destruct S as (S1 & S2).
    destruct (subscribe_all3 now fs s1 g1) as ((s2, g2), r2) eqn:A. apply IH in A. destruct A as (A1 & A2).
    destruct r2 as [(cs, o2)| |]; injection E as <- <- <-; split; try exact I; try (eapply outsubs3_trans; eassumption).
    apply Forall_app. auto.
Qed.

Lemma unsubscribe_all3_frame fs : forall s g s' g', unsubscribe_all3 fs s g = Done (s', g') -> outsubs3 s s'.
Proof.
  induction fs as [|f fs IH]; intros s g s' g' E; cbn [unsubscribe_all3] in E.
  - injection E as <- <-. apply outsubs3_refl.
  - destruct (rt_unsubscribe _ _ _) as (t, p). destruct p; [discriminate|]. apply IH in E.
    eapply outsubs3_trans; [apply outsubs3_subs|exact E].
Qed.

Lemma answers3_app a b : answers3 (a ++ b) = (answers3 a ++ answers3 b)%list.
Proof. apply filter_app. Qed.
Lemma answers3_own l : Forall own_kind3 l -> answers3 l = [].
Proof.
  induction 1 as [|k l H _ IH]; [reflexivity|]. unfold answers3 in *. cbn [filter].
  destruct k; try now destruct H. all: exact IH.
Qed.
Lemma pubrec3_answers p out : pubrec3_for p out = pubrec3_for p (answers3 out).
Proof.
  unfold pubrec3_for, answers3. induction out as [|k out IH]; [reflexivity|]. cbn [existsb filter].
  rewrite IH. destruct k; reflexivity.
Qed.
Lemma pubcomp3_answers p out : pubcomp3_for p out = pubcomp3_for p (answers3 out).
Proof.
  unfold pubcomp3_for, answers3. induction out as [|k out IH]; [reflexivity|]. cbn [existsb filter].
  rewrite IH. destruct k; reflexivity.
Qed.

Section Run.
  Variable hash : wpub3 -> N.
  Variable cfg : config.

  Definition qos2_after3 (w : wpub3) (s : sess3) : list (pid * N) :=
    match w3_qp w with
    | Q2 p => match aget p (z_qos2 s) with Some _ => z_qos2 s | None => aset p (hash w) (z_qos2 s) end
    | _ => z_qos2 s
    end.

  Inductive pub_result3 (h : list rop) (w : wpub3) (s : sess3) (g : glob) : outcome3 (sess3 * glob * list pkt3) -> Prop :=
  | pr3_refused : (w3_topic w = "" \/ starts_with_dollar (w3_topic w) = true \/ (w3_qp w = Q0 /\ w3_dup w = true) \/
                   exists p h', w3_qp w = Q2 p /\ aget p (z_qos2 s) = Some h' /\ (h' <> hash w \/ w3_dup w = false))%string ->
      pub_result3 h w s g Err3
  | pr3_again s' p : w3_topic w <> ""%string -> starts_with_dollar (w3_topic w) = false ->
      w3_qp w = Q2 p -> w3_dup w = true -> (aget p (z_qos2 s) = Some (hash w) \/ aget p (z_qos2 s) = None) ->
      not_forwarded3 s s' g g -> z_qos2 s' = qos2_after3 w s -> z_disc s' = z_disc s ->
      pub_result3 h w s g (Ok3 (s', g, ack_of3 (w3_qp w)))
  | pr3_forwarded s' g' len : w3_topic w <> ""%string -> starts_with_dollar (w3_topic w) = false ->
      enc_len3 w = Some len ->
      (forall p, w3_qp w = Q2 p -> aget p (z_qos2 s) = None /\ w3_dup w = false) ->
      forwarded3 h (message3 w) len s s' g g' -> z_qos2 s' = qos2_after3 w s -> z_disc s' = z_disc s ->
      pub_result3 h w s g (Ok3 (s', g', ack_of3 (w3_qp w))).

  Lemma publish_cases3 h w s g : g_route g = rt_run h -> wf_in3 (YPub w) ->
    pub_result3 h w s g (handle_publish3 hash w s g).
  Proof.
    intros Hr (Hv & Hlen). unfold handle_publish3.
    destruct (String.eqb_spec (w3_topic w) "") as [|T1]; [constructor; auto|].
    destruct (starts_with_dollar (w3_topic w)) eqn:T2; [constructor; auto|].
    destruct (is_q0 (w3_qp w) && w3_dup w) eqn:D0.
    { apply andb_true_iff in D0. destruct D0 as (D0 & D1). constructor. right; right; left. split; auto.
      destruct (w3_qp w); (reflexivity || discriminate). }
    assert (GO : forall s1, s1 = zwith_qos2 (qos2_after3 w s) s ->
       (forall p, w3_qp w = Q2 p -> aget p (z_qos2 s) = Some (hash w) /\ w3_dup w = true \/ aget p (z_qos2 s) = None) ->
       pub_result3 h w s g
         (if w3_dup w && is_q2 (w3_qp w) then Ok3 (s1, g, publish_ack3 (w3_qp w))
          else match enc_len3 w with
               | None => Panic3
               | Some len =>
                   match send_publish3 (SendPub3 (w3_topic w) (w3_retain w) (qp_qos (w3_qp w)) (w3_payload w) len) s1 g with
                   | Panic => Panic3
                   | Done (s2, g') => Ok3 (s2, g', publish_ack3 (w3_qp w))
                   end
               end)).
    { intros s1 E1 HQ. destruct (w3_dup w && is_q2 (w3_qp w)) eqn:DD.
      - apply andb_true_iff in DD. destruct DD as (D1 & D2). destruct (w3_qp w) as [| |p] eqn:EQ; try discriminate D2.
        change (publish_ack3 (Q2 p)) with (ack_of3 (Q2 p)). rewrite <- EQ.
        eapply (pr3_again _ _ _ _ s1 p); auto.
        + destruct (HQ p eq_refl) as [(A & _)|A]; auto.
        + subst s1. repeat split.
        + now subst s1.
        + now subst s1.
      - destruct (enc_len3 w) as [len|] eqn:EL; [|now destruct Hlen].
        destruct (send_publish3_forwards h (w3_topic w) (w3_retain w) (qp_qos (w3_qp w)) (w3_payload w) len s1 g Hr Hv)
          as (s3 & g3 & E & F & (b & n & E3) & _).
        rewrite E. eapply (pr3_forwarded _ _ _ _ s3 g3 len); auto.
        + intros p EQ. rewrite EQ in DD. cbn [is_q2] in DD. rewrite andb_true_r in DD.
          destruct (HQ p EQ) as [(A & B)|A]; [congruence|auto].
        + subst s1. exact F.
        + now subst s3 s1.
        + now subst s3 s1. }
    assert (Hs : s = zwith_qos2 (z_qos2 s) s) by now destruct s.
    destruct (w3_qp w) as [| |p] eqn:EQ.
    - apply GO; [|discriminate]. unfold qos2_after3. now rewrite EQ.
    - apply GO; [|discriminate]. unfold qos2_after3. now rewrite EQ.
    - destruct (aget p (z_qos2 s)) as [h'|] eqn:EA.
      + destruct (N.eqb_spec (hash w) h') as [<-|Hne]; cbn [negb].
        * destruct (w3_dup w) eqn:ED; cbn [negb].
          -- apply GO.
             ++ unfold qos2_after3. now rewrite EQ, EA.
             ++ intros p' X. injection X as <-. auto.
          -- constructor. right; right; right. exists p, (hash w). auto.
        * constructor. right; right; right. exists p, h'. repeat split; auto.
      + apply GO.
        * unfold qos2_after3. now rewrite EQ, EA.
        * intros p' X. injection X as <-. auto.
  Qed.

  (** One PUBLISH of the client, with the reaction that follows. *)
  Lemma pub_step3 s now len w g h : wf_in3 (YPub w) -> g_cfg g = cfg -> g_route g = rt_run h ->
    len <= cf_packet_server cfg ->
    (packet_step3 hash now len (YPub w) s g = Stop3 s g /\ pub_result3 h w s g Err3) \/
    exists s' g' out, packet_step3 hash now len (YPub w) s g = Go3 s' g' out /\
      pub_result3 h w s g (Ok3 (s', g', answers3 out)).
  Proof.
    intros WF GC GR HL. pose proof (publish_cases3 h w s g GR WF) as P.
    unfold packet_step3, handle_packet3. rewrite GC.
    replace (cf_packet_server cfg <? len) with false by (symmetry; now apply N.ltb_ge).
    destruct (handle_publish3 hash w s g) as [((s1, g1), o1)| |] eqn:E.
    - right. unfold after_packet3. destruct (pendings3 now (zwith_last now s1)) as (s2, o2) eqn:EP.
      apply pendings3_frame in EP. destruct EP as ((o & ->) & K). do 3 eexists. split; [reflexivity|].
      rewrite answers3_app, (answers3_own o2 K), app_nil_r.
      inversion P; subst; unfold ack_of3.
      + replace (answers3 _) with (ack_of3 (w3_qp w)) by (unfold ack_of3; destruct (w3_qp w); reflexivity).
        eapply pr3_again; eauto.
      + replace (answers3 _) with (ack_of3 (w3_qp w)) by (unfold ack_of3; destruct (w3_qp w); reflexivity).
        eapply pr3_forwarded; eauto.
    - left. auto.
    - inversion P.
  Qed.

  Record inv3 (s : sess3) (l : list (sev3 * list pkt3)) : Prop := Inv3 {
    j_open : forall p, aget p (z_qos2 s) = option_map hash (opener3 l p);
    j_nodup : NoDup (keys (z_qos2 s))
  }.

  Lemma opener3_snoc l e p : opener3 (l ++ [e]) p = open_step3 p (opener3 l p) e.
  Proof. unfold opener3. rewrite fold_left_app. reflexivity. Qed.

  Lemma inv3_frame s s' l e out : inv3 s l -> z_qos2 s' = z_qos2 s ->
    (forall p, open_step3 p (opener3 l p) (e, out) = opener3 l p) -> inv3 s' (l ++ [(e, out)]).
  Proof.
    intros [I1 I2] E O. constructor.
    - intros p. rewrite E, opener3_snoc, O. apply I1.
    - now rewrite E.
  Qed.

  Lemma prepared_empty s0 : prepared3 cfg s0 -> z_qos2 s0 = [] /\ z_subs s0 = [] /\ z_disc s0 = false.
  Proof.
    intros (uuid & t0 & p & ->). repeat split.
  Qed.

  Lemma open_after3 s l now len w g out q2 : (forall p, aget p (z_qos2 s) = option_map hash (opener3 l p)) ->
    q2 = qos2_after3 w s -> (forall p, w3_qp w = Q2 p -> pubrec3_for p out = true) ->
    forall p, aget p q2 = option_map hash (open_step3 p (opener3 l p) (UPkt now len (YPub w) g, out)).
  Proof.
    intros I -> R p. unfold qos2_after3. cbn [open_step3 fst snd].
    destruct (w3_qp w) as [| |p']; [destruct (opener3 l p) eqn:X; rewrite I, X; reflexivity..|].
    destruct (aget p' (z_qos2 s)) as [h'|] eqn:A.
    - rewrite I. destruct (opener3 l p) as [w0|] eqn:X; [reflexivity|]. cbn [option_map].
      destruct (N.eqb_spec p' p) as [->|]; [|reflexivity]. rewrite I, X in A. discriminate.
    - rewrite aget_aset. change (@eqb pid _ p p') with (N.eqb p p').
      destruct (N.eqb_spec p p') as [<-|Hne].
      + rewrite I in A. destruct (opener3 l p); [discriminate|]. rewrite N.eqb_refl, (R p eq_refl). reflexivity.
      + rewrite I. destruct (opener3 l p) as [w0|]; [reflexivity|].
        destruct (N.eqb_spec p' p); [congruence|reflexivity].
  Qed.

  Lemma step_inv3 s l e s' out : inv3 s l -> sstep3 hash cfg s e s' out -> inv3 s' (l ++ [(e, out)]).
  Proof.
    assert (ND : forall w s, NoDup (keys (z_qos2 s)) -> NoDup (keys (qos2_after3 w s))).
    { intros w s0 H. unfold qos2_after3. destruct (w3_qp w); auto. destruct (aget _ _); auto. now apply NoDup_aset. }
    intros I S. destruct S as [s now len x g s' g' out D WF (GC & h & GR) E|s now len x g s' g' D WF (GC & h & GR) E
                              |s now m s' r E|s b n|s now s' out E|s now m s' r E|s conn last w|s now s0 s' present code PR E].
    - destruct (N.ltb_spec (cf_packet_server cfg) len) as [HL|HL].
      { unfold packet_step3, handle_packet3 in E. rewrite GC in E.
        replace (cf_packet_server cfg <? len) with true in E by (symmetry; now apply N.ltb_lt). discriminate. }
      destruct x as [w|p|p|p|p|p fs|p fs| | |];
        [|unfold packet_step3, handle_packet3, after_packet3 in E; rewrite GC in E;
          replace (cf_packet_server cfg <? len) with false in E by (symmetry; now apply N.ltb_ge)..].
      + destruct (pub_step3 s now len w g h WF GC GR HL) as [(E1 & _)|(s1 & g1 & o1 & E1 & P)];
          [congruence|]. rewrite E in E1. injection E1 as <- <- <-.
        assert (PRc : answers3 out = ack_of3 (w3_qp w)) by (inversion P; subst; auto).
        assert (Q : z_qos2 s' = qos2_after3 w s) by (inversion P; subst; auto).
        constructor.
        * intros p. rewrite opener3_snoc. apply (open_after3 s); auto; [apply (j_open _ _ I)|].
          intros p' X. rewrite pubrec3_answers, PRc, X. cbn. now rewrite N.eqb_refl.
        * rewrite Q. apply ND, (j_nodup _ _ I).
      + destruct (pendings3 _ _) as (s2, o2) eqn:EP. injection E as <- <- <-. apply pendings3_frame in EP.
        destruct EP as ((o & ->) & K). eapply inv3_frame; eauto; reflexivity.
      + unfold handle_pubrec3 in E. destruct (out3_on_queue _ _) as (o1, ok).
        destruct (pendings3 _ _) as (s2, o2) eqn:EP. injection E as <- <- <-. apply pendings3_frame in EP.
        destruct EP as ((o & ->) & K). eapply inv3_frame; eauto; reflexivity.
      + unfold handle_pubrel3 in E. destruct (aget p (z_qos2 s)) as [hh|] eqn:A; [|discriminate].
        destruct (pendings3 _ _) as (s2, o2) eqn:EP. injection E as <- <- <-. apply pendings3_frame in EP.
        destruct EP as ((o & ->) & K). constructor.
        * intros p'. rewrite opener3_snoc. cbn [fst snd open_step3].
          change (z_qos2 _) with (adel p (z_qos2 s)). rewrite aget_adel by apply (j_nodup _ _ I).
          assert (PC : pubcomp3_for p' (JPubcomp p :: o2)%list = (p =? p')).
          { change (JPubcomp p :: o2)%list with ([JPubcomp p] ++ o2)%list.
            rewrite pubcomp3_answers, answers3_app, (answers3_own o2 K). apply orb_false_r. }
          rewrite PC. change (@eqb pid _ p' p) with (N.eqb p' p). destruct (N.eqb_spec p p') as [->|Hne].
          -- rewrite N.eqb_refl. reflexivity.
          -- destruct (N.eqb_spec p' p); [congruence|]. cbn [andb]. apply (j_open _ _ I).
        * change (z_qos2 _) with (adel p (z_qos2 s)). apply NoDup_adel, (j_nodup _ _ I).
      + destruct (pendings3 _ _) as (s2, o2) eqn:EP. injection E as <- <- <-. apply pendings3_frame in EP.
        destruct EP as ((o & ->) & K). eapply inv3_frame; eauto; reflexivity.
      + destruct (handle_subscribe3 now p fs s g) as ((s1, g1), r) eqn:ES. unfold handle_subscribe3 in ES.
        destruct (subscribe_all3 now fs s g) as ((s2, g2), r2) eqn:EA. apply subscribe_all3_frame in EA.
        destruct EA as ((o & m & ->) & _).
        destruct r2 as [(cs, o2)| |]; injection ES as <- <- <-; try discriminate.
        destruct (pendings3 _ _) as (s3, o3) eqn:EP. injection E as <- <- <-. apply pendings3_frame in EP.
        destruct EP as ((o' & ->) & K). eapply inv3_frame; eauto; reflexivity.
      + unfold handle_unsubscribe3 in E. destruct (unsubscribe_all3 fs s g) as [(s1, g1)|] eqn:EU; [|discriminate].
        apply unsubscribe_all3_frame in EU. destruct EU as (o & m & ->).
        destruct (pendings3 _ _) as (s3, o3) eqn:EP. injection E as <- <- <-. apply pendings3_frame in EP.
        destruct EP as ((o' & ->) & K). eapply inv3_frame; eauto; reflexivity.
      + destruct (pendings3 _ _) as (s2, o2) eqn:EP. injection E as <- <- <-. apply pendings3_frame in EP.
        destruct EP as ((o & ->) & K). eapply inv3_frame; eauto; reflexivity.
      + destruct (pendings3 _ _) as (s2, o2) eqn:EP. injection E as <- <- <-. apply pendings3_frame in EP.
        destruct EP as ((o & ->) & K). eapply inv3_frame; eauto; reflexivity.
      + discriminate.
    - assert (Q : z_qos2 s' = z_qos2 s).
      { unfold packet_step3, handle_packet3, after_packet3 in E. destruct (_ <? _); [injection E as <- _; reflexivity|].
        destruct x as [w|p|p|p|p|p fs|p fs| | |].
        - destruct (handle_publish3 hash w s g) as [((?, ?), ?)| |]; try discriminate.
          + destruct (pendings3 _ _); discriminate.
          + injection E as <- _; reflexivity.
        - destruct (pendings3 _ _); discriminate.
        - unfold handle_pubrec3 in E. destruct (pendings3 _ _); discriminate.
        - destruct (handle_pubrel3 p s) as [(?, ?)|]; [destruct (pendings3 _ _); discriminate|injection E as <- _; reflexivity].
        - destruct (pendings3 _ _); discriminate.
        - destruct (handle_subscribe3 now p fs s g) as ((s1, g1), r) eqn:ES. unfold handle_subscribe3 in ES.
          destruct (subscribe_all3 now fs s g) as ((s2, g2), r2) eqn:EA. apply subscribe_all3_frame in EA.
          destruct EA as ((o & m & ->) & _).
          destruct r2 as [(cs, o2)| |]; injection ES as <- <- <-; try discriminate.
          + destruct (pendings3 _ _); discriminate.
          + injection E as <- _. reflexivity.
        - unfold handle_unsubscribe3 in E. destruct (unsubscribe_all3 fs s g) as [(s1, g1)|]; [|discriminate].
          destruct (pendings3 _ _); discriminate.
        - destruct (pendings3 _ _); discriminate.
        - destruct (pendings3 _ _); discriminate.
        - injection E as <- _; reflexivity. }
      eapply inv3_frame; eauto. intros p. cbn [open_step3 fst snd]. destruct x; try reflexivity.
      + destruct (w3_qp w); try reflexivity. destruct (opener3 l p); [reflexivity|]. cbn. now rewrite andb_false_r.
      + cbn. now rewrite andb_false_r.
    - apply normal3_frame in E. destruct E as (o & ->). eapply inv3_frame; eauto; reflexivity.
    - eapply inv3_frame; eauto; reflexivity.
    - apply pendings3_frame in E. destruct E as ((o & ->) & _). eapply inv3_frame; eauto; reflexivity.
    - apply normal3_frame in E. destruct E as (o & ->). eapply inv3_frame; eauto; reflexivity.
    - eapply inv3_frame; eauto; reflexivity.
    - apply prepared_empty in PR. destruct PR as (P1 & _).
      assert (Q : z_qos2 s' = if present then z_qos2 s else []).
      { unfold session_connect3 in E. cbn [build_state3 snd st3_v310 st3_qos2] in E.
        destruct (negb (z_clean s0) && _); injection E as <- <- _; [reflexivity|exact P1]. }
      constructor.
      + intros p. rewrite Q, opener3_snoc. cbn [open_step3 fst]. destruct present; [apply (j_open _ _ I)|reflexivity].
      + rewrite Q. destruct present; [apply (j_nodup _ _ I)|constructor].
  Qed.

  Lemma run_inv3 s l : srun3 hash cfg s l -> inv3 s l.
  Proof.
    induction 1 as [s H|s l e s' out H IH S]; [|eapply step_inv3; eauto].
    destruct H as [now s0 id s k PR E]. apply prepared_empty in PR. destruct PR as (P1 & _).
    unfold session_connect3 in E. injection E as <- _. constructor.
    - intros p. change (aget p (z_qos2 s0) = None). rewrite P1. reflexivity.
    - change (NoDup (keys (z_qos2 s0))). rewrite P1. constructor.
  Qed.
End Run.
