(** The facts behind C17, C18, C19 and C48. *)
From Coq Require Import List Bool String NArith Lia.
From Verif Require Import Base BaseLemmas TopicModel TopicSpec MsgModel RouteModel RouteSpec RouteInv RetainModel
  PendingModel AliasModel OutModel GlobModel Sess5Model Sess3Model ConnModel DelivSpec DelivProofs DelivFacts
  InSpec InProofs InRun InRun3.
Import ListNotations.
Local Open Scope N_scope.

Section V5.
  Variable hash : wpub5 -> N.
  Variable pick : string -> string -> N.
  Variable cfg : config.

  (** The result of one PUBLISH in terms of the run. *)
  Lemma incoming_result s l now len w g h :
    srun5 hash cfg s l -> is_disconnected5 s = false -> incoming5 cfg h len w g ->
    exists s' g' out, packet_step5 hash pick now len (IPub w) s g = Go s' g' out /\
      pub_result hash pick h w s s' g g' (answers out) /\ s_cdisc s' = false /\
      topic_of (cf_alias_max cfg) w s = topic_for (cf_alias_max cfg) l w /\
      (forall p, aget p (s_qos2 s) = option_map hash (opener l p)) /\
      inv5 hash cfg s' (l ++ [(VPkt now len (IPub w) g, out)]).
  Proof.
    intros R D (W1 & W2 & GC & GR & HL). pose proof (run_inv hash cfg s l R) as I.
    destruct (pub_step hash cfg pick s l now len w g h I D (conj W1 W2) GC GR HL)
      as (s1 & g1 & o0 & o1 & E1 & PR & PA & _ & PAl & PG & PC & _).
    exists s1, g1, o1. rewrite PA. refine (conj E1 (conj PR (conj PC (conj _ (conj _ _))))).
    - apply topic_of_bound. now apply (i_alias _ _ _ _ I).
    - apply (i_open _ _ _ _ I).
    - apply (step_inv hash cfg s l _ _ _ I
               (st_pkt hash cfg pick s now len (IPub w) g s1 g1 o1 D (conj W1 W2) (conj GC (ex_intro _ h GR)) E1)).
  Qed.

  Lemma disc_false s : is_disconnected5 s = false -> s_cdisc s = false /\ s_sdisc s = false.
  Proof. unfold is_disconnected5. apply orb_false_iff. Qed.

  Lemma open_dec l p : {exists w, opener l p = Some w} + {opener l p = None}.
  Proof. destruct (opener l p); eauto. Qed.

  Lemma c17_accepted s l now len w g h :
    srun5 hash cfg s l -> is_disconnected5 s = false -> incoming5 cfg h len w g ->
    exists s' g' out, packet_step5 hash pick now len (IPub w) s g = Go s' g' out /\
      (is_disconnected5 s' = false ->
       exists T, topic_for (cf_alias_max cfg) l w = Some T /\
         ((exists n, enc_len5 w = Some n /\ forwarded5 pick h (message5 T w) n s s' g g') \/
          (not_forwarded5 s s' g g' /\ exists p, w5_qp w = Q2 p /\ (opener l p <> None \/ w5_dup w = true)))).
  Proof.
    intros R D W. destruct (incoming_result s l now len w g h R D W) as (s' & g' & out & E & PR & PC & TO & OP & _).
    exists s', g', out. split; [exact E|]. intros DD. apply disc_false in DD. destruct DD as (_ & DD).
    pose proof (proj1 (proj2 (proj2 W))) as GC.
    destruct PR as [code R1 (_ & R2 & _) R4|T p hh (_ & _ & A1 & _) A2 A3 A4 A5 A6 A7 A8|T p (_ & _ & A1 & _) A2 A3 A4 A5 A6 A7 A8|T ln (_ & _ & A1 & _) A2 A3 A4 A5 A6 A7 A8 A9].
    - congruence.
    - exists T. rewrite GC, TO in A1. split; [exact A1|]. right. split; [exact A6|]. exists p. split; [exact A2|].
      left. rewrite OP in A3. destruct (opener l p); [discriminate|discriminate].
    - exists T. rewrite GC, TO in A1. split; [exact A1|]. right. split; [exact A6|]. exists p. auto.
    - exists T. rewrite GC, TO in A1. split; [exact A1|]. left. eauto.
  Qed.

  Lemma c17_refused s l now len w g h :
    srun5 hash cfg s l -> is_disconnected5 s = false -> incoming5 cfg h len w g ->
    topic_for (cf_alias_max cfg) l w = None ->
    exists s' g' out code, packet_step5 hash pick now len (IPub w) s g = Go s' g' out /\
      refused5 code s s' g g' (answers out) /\
      (starts_with_dollar (w5_topic w) = false -> ~ (w5_qp w = Q0 /\ w5_dup w = true) ->
       forall a, pp_alias (w5_props w) = Some a ->
         (a = 0 \/ cf_alias_max cfg < a -> code = RC_topic_alias_invalid) /\
         (1 <= a <= cf_alias_max cfg -> code = RC_protocol_error)).
  Proof.
    intros R D W TN. destruct (incoming_result s l now len w g h R D W) as (s' & g' & out & E & PR & PC & TO & OP & _).
    pose proof (proj1 (proj2 (proj2 W))) as GC. rewrite <- TO, <- GC in TN.
    destruct PR as [code R1 R2 R4|T p hh (_ & _ & A1 & _) A2 A3 A4 A5 A6 A7 A8|T p (_ & _ & A1 & _) A2 A3 A4 A5 A6 A7 A8|T ln (_ & _ & A1 & _) A2 A3 A4 A5 A6 A7 A8 A9];
      try congruence.
    exists s', g', out, code. split; [exact E|]. split; [exact R2|]. intros N1 N2 a Ha.
    destruct R1 as [R1|R1 R1'|code H1 H2 H3 H4 H5|T H1 H2|T p (_ & _ & H1 & _) H2 H3 H4|T p (_ & _ & H1 & _) H2 H3 H4];
      try congruence.
    - exfalso. apply N2. auto.
    - rewrite GC in H5. pose proof (H5 a Ha) as H6. split; [tauto|].
      intros HA. destruct H4 as [H4|H4]; [|exact H4]. apply H6 in H4. lia.
  Qed.

  (** ** C18 *)
  Lemma c18_first s l now len w g h p T :
    srun5 hash cfg s l -> is_disconnected5 s = false -> incoming5 cfg h len w g ->
    w5_qp w = Q2 p -> opener l p = None -> w5_dup w = false ->
    exists s' g' out, packet_step5 hash pick now len (IPub w) s g = Go s' g' out /\
      (topic_for (cf_alias_max cfg) l w = Some T -> is_disconnected5 s' = false ->
       (exists n, enc_len5 w = Some n /\ forwarded5 pick h (message5 T w) n s s' g g') /\
       (exists code, answers out = [KPubrec p code]) /\
       opener (l ++ [(VPkt now len (IPub w) g, out)]) p = Some w).
  Proof.
    intros R D W Q O DU. destruct (incoming_result s l now len w g h R D W) as (s' & g' & out & E & PR & PC & TO & OP & I').
    exists s', g', out. split; [exact E|]. intros TF DD. apply disc_false in DD. destruct DD as (_ & DD).
    pose proof (proj1 (proj2 (proj2 W))) as GC.
    destruct PR as [code R1 (_ & R2 & _) R4|T' p' hh (_ & _ & A1 & _) A2 A3 A4 A5 A6 A7 A8|T' p' (_ & _ & A1 & _) A2 A3 A4 A5 A6 A7 A8|T' ln (_ & _ & A1 & _) A2 A3 A4 A5 A6 A7 A8 A9].
    - congruence.
    - rewrite Q in A2. injection A2 as <-. rewrite OP, O in A3. discriminate.
    - congruence.
    - rewrite GC, TO, TF in A1. injection A1 as <-. rewrite Q in A5. cbn [ack_of] in A5.
      split; [eauto|]. split; [eauto|]. rewrite opener_snoc. cbn [open_step fst snd]. rewrite Q, O, N.eqb_refl.
      rewrite pubrec_answers, A5. cbn. now rewrite N.eqb_refl.
  Qed.

  Lemma c18_again s l now len w g h p w0 :
    srun5 hash cfg s l -> is_disconnected5 s = false -> incoming5 cfg h len w g ->
    w5_qp w = Q2 p -> opener l p = Some w0 ->
    exists s' g' out, packet_step5 hash pick now len (IPub w) s g = Go s' g' out /\
      not_forwarded5 s s' g g' /\
      (is_disconnected5 s' = false ->
         hash w = hash w0 /\ w5_dup w = true /\ answers out = [KPubrec p RC_success] \/
         hash w <> hash w0 /\ answers out = [KPubrec p RC_pid_in_use]) /\
      (is_disconnected5 s' = true -> exists code reason, answers out = [KDisconnect code reason]) /\
      opener (l ++ [(VPkt now len (IPub w) g, out)]) p = Some w0.
  Proof.
    intros R D W Q O. destruct (incoming_result s l now len w g h R D W) as (s' & g' & out & E & PR & PC & TO & OP & I').
    exists s', g', out. split; [exact E|].
    assert (OO : opener (l ++ [(VPkt now len (IPub w) g, out)]) p = Some w0).
    { rewrite opener_snoc. cbn [open_step fst snd]. now rewrite Q, O. }
    destruct (disc_false s D) as (_ & D2).
    assert (DS : s_sdisc s' = false -> is_disconnected5 s' = false) by (unfold is_disconnected5; now rewrite PC).
    destruct PR as [code R1 ((rs & R2) & R3 & R5) R4|T' p' hh _ A2 A3 A4 A5 A6 A7 A8|T' p' _ A2 A3 A4 A5 A6 A7 A8|T' ln _ A2 A3 A4 A5 A6 A7 A8 A9].
    - refine (conj R5 (conj _ (conj _ OO))).
      + intros X. apply disc_false in X. destruct X. congruence.
      + eauto.
    - rewrite Q in A2. injection A2 as <-. rewrite OP, O in A3. injection A3 as A3.
      refine (conj A6 (conj _ (conj _ OO))).
      + right. split; [congruence|exact A5].
      + rewrite DS by congruence. discriminate.
    - rewrite Q in A2. injection A2 as <-. rewrite OP, O in A4. destruct A4 as [A4|(A4 & _)]; [|discriminate].
      injection A4 as A4. refine (conj A6 (conj _ (conj _ OO))).
      + left. auto.
      + rewrite DS by congruence. discriminate.
    - destruct (A3 p Q) as (B & _). rewrite OP, O in B. discriminate.
  Qed.

  Lemma c18_release s l now len g h p :
    srun5 hash cfg s l -> is_disconnected5 s = false -> g_cfg g = cfg -> g_route g = rt_run h ->
    len <= cf_packet_server cfg ->
    exists s' g' out, packet_step5 hash pick now len (IPubrel p) s g = Go s' g' out /\
      not_forwarded5 s s' g g' /\
      answers out = [KPubcomp p (match opener l p with Some _ => RC_success | None => RC_pid_not_found end)] /\
      opener (l ++ [(VPkt now len (IPubrel p) g, out)]) p = None.
  Proof.
    intros R D GC GR HL. pose proof (run_inv hash cfg s l R) as I.
    unfold packet_step5, handle_packet5. rewrite GC.
    replace (cf_packet_server cfg <? len) with false by (symmetry; now apply N.ltb_ge).
    unfold handle_pubrel5. pose proof (i_open _ _ _ _ I p) as O.
    destruct (opener l p) as [w0|] eqn:OE; cbn [option_map] in O; rewrite O;
      (destruct (after_packet5 _ _) as (s2, o2) eqn:EA; apply after_frame in EA; destruct EA as ((o & t & ->) & K);
       do 3 eexists; split; [reflexivity|]).
    - split; [repeat split|].
      assert (AN : answers ([KPubcomp p RC_success] ++ o2) = [KPubcomp p RC_success])
        by (rewrite answers_app, (answers_own o2 K); reflexivity).
      split; [exact AN|]. rewrite opener_snoc. cbn [open_step fst snd]. rewrite pubcomp_answers, AN. cbn.
      now rewrite N.eqb_refl.
    - split; [repeat split|].
      assert (AN : answers ([KPubcomp p RC_pid_not_found] ++ o2) = [KPubcomp p RC_pid_not_found])
        by (rewrite answers_app, (answers_own o2 K); reflexivity).
      split; [exact AN|]. rewrite opener_snoc. cbn [open_step fst snd]. rewrite OE. now destruct (_ && _).
  Qed.

  (** ** C19 *)
  Lemma all_open_length s l ps : inv5 hash cfg s l -> all_open l ps -> List.length ps = List.length (s_qos2 s).
  Proof.
    intros I (ND & H). transitivity (List.length (keys (s_qos2 s))); [|apply map_length].
    apply PeanoNat.Nat.le_antisymm; apply NoDup_incl_length; [exact ND| |exact (i_nodup _ _ _ _ I)|].
    - intros p Hp. apply H in Hp. apply in_keys_aget. rewrite (i_open _ _ _ _ I). destruct (opener l p); [eexists; reflexivity|congruence].
    - intros p Hp. apply H. apply in_keys_aget in Hp. destruct Hp as (v & Hp). rewrite (i_open _ _ _ _ I) in Hp.
      destruct (opener l p); [discriminate|discriminate].
  Qed.

  Lemma c19_bound s l ps : srun5 hash cfg s l -> all_open l ps ->
    N.of_nat (List.length ps) <= cf_inflight_server cfg.
  Proof.
    intros R A. pose proof (run_inv hash cfg s l R) as I. rewrite (all_open_length s l ps I A).
    apply (i_max _ _ _ _ I).
  Qed.

  Lemma c19_refused s l now len w g h ps p :
    srun5 hash cfg s l -> is_disconnected5 s = false -> incoming5 cfg h len w g ->
    all_open l ps -> N.of_nat (List.length ps) = cf_inflight_server cfg ->
    w5_qp w = Q2 p -> ~ In p ps ->
    starts_with_dollar (w5_topic w) = false -> topic_for (cf_alias_max cfg) l w <> None -> pp_subids (w5_props w) = [] ->
    exists s' g' out, packet_step5 hash pick now len (IPub w) s g = Go s' g' out /\
      refused5 RC_receive_max_exceeded s s' g g' (answers out) /\
      all_open (l ++ [(VPkt now len (IPub w) g, out)]) ps.
  Proof.
    intros R D W A FULL Q NI N1 N2 N3.
    pose proof (run_inv hash cfg s l R) as I. pose proof (all_open_length s l ps I A) as LEN.
    destruct (incoming_result s l now len w g h R D W) as (s' & g' & out & E & PR & PC & TO & OP & I').
    pose proof (proj1 (proj2 (proj2 W))) as GC.
    assert (ON : opener l p = None).
    { destruct (opener l p) eqn:X; [|reflexivity]. exfalso. apply NI, (proj2 A). congruence. }
    exists s', g', out. split; [exact E|].
    destruct PR as [code R1 R2 R4|T' p' hh _ A2 A3 A4 A5 A6 A7 A8|T' p' _ A2 A3 A4 A5 A6 A7 A8|T' ln _ A2 A3 A4 A5 A6 A7 A8 A9].
    - destruct R1 as [R1|R1 R1'|code H1 H2 H3 H4 H5|T H1 H2|T p' _ H2 H3 H4|T p' _ H2 H3 H4]; try congruence.
      + rewrite Q in H2. injection H2 as <-. rewrite OP, ON in H3. discriminate.
      + split; [exact R2|]. split; [apply A|]. intros q. rewrite (proj2 A q), opener_snoc. cbn [open_step fst snd].
        rewrite Q. destruct (opener l q) eqn:X; [reflexivity|].
        destruct R2 as ((rs & R2) & _). rewrite pubrec_answers, R2. cbn. now rewrite andb_false_r.
    - rewrite Q in A2. injection A2 as <-. rewrite OP, ON in A3. discriminate.
    - rewrite Q in A2. injection A2 as <-. rewrite OP, ON in A4. destruct A4 as [A4|(_ & A4)]; [discriminate|].
      unfold room in A4. rewrite GC in A4. lia.
    - destruct (A3 p Q) as (_ & _ & B). unfold room in B. rewrite GC in B. lia.
  Qed.

  (** ** C48 *)
  Lemma matches_nonempty h T : valid_topic_name T ->
    rt_get_matches (rt_run h) T <> [] <->
    (exists c f q, plain_sub h T c f q) \/ (exists inner grp sh, offers_group (rt_run h) T inner grp sh).
  Proof.
    intros HV. split.
    - intros H. destruct (rt_get_matches (rt_run h) T) as [|ct r] eqn:E; [congruence|].
      assert (IN : In ct (rt_get_matches (rt_run h) T)) by (rewrite E; now left).
      destruct (lookup_has_filter h T ct HV IN) as (f & F1 & F2).
      destruct (c_clients ct) as [|(c, q) cl] eqn:EC.
      + destruct (c_groups ct) as [|(grp, sh) gs] eqn:EG.
        * exfalso. unfold content_is_empty in F2. rewrite EC, EG in F2. discriminate.
        * right. exists f, grp, sh, ct. rewrite EG. cbn. auto.
      + left. exists c, f, q. apply (proj1 (route_plain_lemma h T HV)). exists ct. rewrite EC. cbn. auto.
    - intros [(c & f & q & H)|(inner & grp & sh & ct & H & _)] E.
      + apply (proj1 (route_plain_lemma h T HV)) in H. destruct H as (ct & H & _). rewrite E in H. destruct H.
      + rewrite E in H. destruct H.
  Qed.

  Lemma c48 s l now len w g h :
    srun5 hash cfg s l -> is_disconnected5 s = false -> incoming5 cfg h len w g ->
    exists s' g' out, packet_step5 hash pick now len (IPub w) s g = Go s' g' out /\
      ((is_disconnected5 s' = false /\
        exists code, answers out = ack_of (w5_qp w) code /\
          In code [RC_success; RC_no_matching_subscribers; RC_pid_in_use] /\
          (not_forwarded5 s s' g g' \/
           exists T n, topic_for (cf_alias_max cfg) l w = Some T /\ forwarded5 pick h (message5 T w) n s s' g g' /\
             (code = RC_success <-> (exists c f q, plain_sub h T c f q) \/
                                    (exists inner grp sh, offers_group (rt_run h) T inner grp sh)) /\
             code <> RC_pid_in_use)) \/
       (is_disconnected5 s' = true /\ exists code, refused5 code s s' g g' (answers out))).
  Proof.
    intros R D W. destruct (incoming_result s l now len w g h R D W) as (s' & g' & out & E & PR & PC & TO & OP & _).
    exists s', g', out. split; [exact E|]. destruct (disc_false s D) as (_ & D2).
    assert (DS : s_sdisc s' = s_sdisc s -> is_disconnected5 s' = false) by (unfold is_disconnected5; now rewrite PC, D2).
    pose proof (proj1 (proj2 (proj2 W))) as GC.
    destruct PR as [code R1 R2 R4|T' p' hh _ A2 A3 A4 A5 A6 A7 A8|T' p' _ A2 A3 A4 A5 A6 A7 A8|T' ln (_ & _ & A1 & (A1' & _) & _) A2 A3 A4 A5 A6 A7 A8 A9].
    - right. split; [|eauto]. destruct R2 as (_ & R2 & _). unfold is_disconnected5. now rewrite R2, orb_true_r.
    - left. split; [auto|]. exists RC_pid_in_use. rewrite A2, A5. cbn. auto 6.
    - left. split; [auto|]. exists RC_success. rewrite A2, A5. cbn. auto 6.
    - left. split; [auto|]. eexists. split; [exact A5|]. split.
      { destruct (rt_get_matches (rt_run h) T'); cbn; auto. }
      right. exists T', ln. rewrite <- TO, <- GC. split; [exact A1|]. split; [exact A4|].
      pose proof (matches_nonempty h T' A1') as M. split.
      + rewrite <- M. destruct (rt_get_matches (rt_run h) T'); split; intros X; congruence || discriminate.
      + destruct (rt_get_matches (rt_run h) T'); discriminate.
  Qed.

  Lemma c48_large s l now len x g :
    srun5 hash cfg s l -> g_cfg g = cfg -> cf_packet_server cfg < len ->
    exists s' g' out, packet_step5 hash pick now len x s g = Go s' g' out /\
      refused5 RC_packet_too_large s s' g g' (answers out).
  Proof.
    intros _ GC HL. unfold packet_step5, handle_packet5. rewrite GC.
    replace (cf_packet_server cfg <? len) with true by (symmetry; now apply N.ltb_lt).
    cbn [error_disconnect]. destruct (after_packet5 _ _) as (s2, o2) eqn:EA.
    apply after_frame in EA. destruct EA as ((o & t & ->) & K). do 3 eexists. split; [reflexivity|].
    cbn [app]. rewrite answers_disc by exact K. refine (conj (ex_intro _ _ eq_refl) (conj eq_refl _)). repeat split.
  Qed.
End V5.

Section V3.
  Variable hash : wpub3 -> N.
  Variable cfg : config.

  Lemma incoming_result3 s l now len w g h :
    srun3 hash cfg s l -> z_disc s = false -> incoming3 cfg h len w g ->
    (forall p, aget p (z_qos2 s) = option_map hash (opener3 l p)) /\
    ((packet_step3 hash now len (YPub w) s g = Stop3 s g /\ pub_result3 hash h w s g Err3) \/
     exists s' g' out, packet_step3 hash now len (YPub w) s g = Go3 s' g' out /\
       pub_result3 hash h w s g (Ok3 (s', g', answers3 out))).
  Proof.
    intros R D (W1 & W2 & GC & GR & HL). pose proof (run_inv3 hash cfg s l R) as I. split; [apply I|].
    eapply pub_step3; eauto. split; auto.
  Qed.

  Lemma c48_v3 s l now len w g h :
    srun3 hash cfg s l -> z_disc s = false -> incoming3 cfg h len w g ->
    packet_step3 hash now len (YPub w) s g = Stop3 s g \/
    exists s' g' out, packet_step3 hash now len (YPub w) s g = Go3 s' g' out /\
      answers3 out = ack_of3 (w3_qp w) /\
      ((exists n, forwarded3 h (message3 w) n s s' g g') \/
       (not_forwarded3 s s' g g' /\ w3_dup w = true /\ exists p, w3_qp w = Q2 p)).
  Proof.
    intros R D W. destruct (incoming_result3 s l now len w g h R D W) as (OP & [(E & _)|(s' & g' & out & E & PR)]); [auto|].
    right. exists s', g', out. split; [exact E|]. inversion PR; subst; split; eauto.
  Qed.

  Lemma c18_v3_first s l now len w g h p :
    srun3 hash cfg s l -> z_disc s = false -> incoming3 cfg h len w g ->
    w3_qp w = Q2 p -> opener3 l p = None -> w3_dup w = false ->
    w3_topic w <> ""%string -> starts_with_dollar (w3_topic w) = false ->
    exists s' g' out n, packet_step3 hash now len (YPub w) s g = Go3 s' g' out /\
      enc_len3 w = Some n /\ forwarded3 h (message3 w) n s s' g g' /\ answers3 out = [JPubrec p] /\
      opener3 (l ++ [(UPkt now len (YPub w) g, out)]) p = Some w.
  Proof.
    intros R D W Q O DU T1 T2. destruct (incoming_result3 s l now len w g h R D W) as (OP & [(E & PR)|(s' & g' & out & E & PR)]).
    - exfalso. inversion PR as [X| |]. destruct X as [X|[X|[(X & _)|(p' & h' & X & Y & _)]]]; try congruence.
      rewrite Q in X. injection X as <-. rewrite OP, O in Y. discriminate.
    - inversion PR as [|s1 p' B1 B2 B3 B4|s1 g1 ln B1 B2 B3 B4 B5 B6 B7]; [congruence|]. subst s1 g1.
      assert (B8 : answers3 out = [JPubrec p]) by (rewrite <- H1, Q; reflexivity). exists s', g', out, ln. refine (conj E (conj B3 (conj B5 (conj B8 _)))).
      rewrite opener3_snoc. cbn [open_step3 fst snd]. rewrite Q, O, N.eqb_refl, pubrec3_answers, B8. cbn.
      now rewrite N.eqb_refl.
  Qed.

  Lemma c18_v3_again s l now len w g h p w0 :
    srun3 hash cfg s l -> z_disc s = false -> incoming3 cfg h len w g ->
    w3_qp w = Q2 p -> opener3 l p = Some w0 ->
    packet_step3 hash now len (YPub w) s g = Stop3 s g \/
    exists s' g' out, packet_step3 hash now len (YPub w) s g = Go3 s' g' out /\
      not_forwarded3 s s' g g' /\ hash w = hash w0 /\ w3_dup w = true /\ answers3 out = [JPubrec p] /\
      opener3 (l ++ [(UPkt now len (YPub w) g, out)]) p = Some w0.
  Proof.
    intros R D W Q O. destruct (incoming_result3 s l now len w g h R D W) as (OP & [(E & PR)|(s' & g' & out & E & PR)]); [auto|].
    right. exists s', g', out. split; [exact E|].
    inversion PR as [|s1 p' B1 B2 B3 B4 B5 B6 B7 B8|s1 g1 ln B1 B2 B3 B4 B5 B6 B7 B8].
    - assert (B9 : answers3 out = [JPubrec p]) by (rewrite <- H1, Q; reflexivity). rewrite Q in B3. subst s1. injection B3 as <-. rewrite OP, O in B5. destruct B5 as [B5|B5]; [|discriminate].
      injection B5 as B5. subst g'. refine (conj B6 (conj _ (conj B4 (conj _ _)))); [now symmetry|congruence|].
      rewrite opener3_snoc. cbn [open_step3 fst snd]. now rewrite Q, O.
    - exfalso. destruct (B4 p Q) as (X & _). rewrite OP, O in X. discriminate.
  Qed.

  Lemma c18_v3_release s l now len g h p w0 :
    srun3 hash cfg s l -> z_disc s = false -> g_cfg g = cfg -> g_route g = rt_run h ->
    len <= cf_packet_server cfg -> opener3 l p = Some w0 ->
    exists s' g' out, packet_step3 hash now len (YPubrel p) s g = Go3 s' g' out /\
      not_forwarded3 s s' g g' /\ answers3 out = [JPubcomp p] /\
      opener3 (l ++ [(UPkt now len (YPubrel p) g, out)]) p = None.
  Proof.
    intros R D GC GR HL O. pose proof (run_inv3 hash cfg s l R) as I.
    unfold packet_step3, handle_packet3, after_packet3. rewrite GC.
    replace (cf_packet_server cfg <? len) with false by (symmetry; now apply N.ltb_ge).
    unfold handle_pubrel3. rewrite (j_open _ _ _ I p), O. cbn [option_map].
    destruct (pendings3 _ _) as (s2, o2) eqn:EA. apply pendings3_frame in EA. destruct EA as ((o & ->) & K).
    do 3 eexists. split; [reflexivity|]. split; [repeat split|].
    assert (AN : answers3 ([JPubcomp p] ++ o2) = [JPubcomp p])
      by (rewrite answers3_app, (answers3_own o2 K); reflexivity).
    split; [exact AN|]. rewrite opener3_snoc. cbn [open_step3 fst snd]. rewrite pubcomp3_answers, AN. cbn.
    now rewrite N.eqb_refl.
  Qed.
End V3.
