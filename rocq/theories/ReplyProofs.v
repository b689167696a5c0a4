(** The packets written at each step of the broker are answers to the packet that came, and
    messages (ReplySpec). *)
From Coq Require Import List Bool NArith String Lia.
From Verif Require Import Base BaseLemmas TopicModel MsgModel PendingModel OutModel RouteModel RouteSpec RouteInv RetainModel GlobModel Sess5Model Sess3Model ConnModel
  InSpec RecvSpec InProofs InRun InRun3 SubProofs SubFacts RegModel BrokerModel BrokerSpec FrameProofs CoreProofs BrokerInv TaskMove StepProofs RunProofs EvolProofs HistProofs
  LifeSpec LifeProofs ReplySpec.
Import ListNotations.
Local Open Scope N_scope.
Local Open Scope list_scope.

Lemma sub_all_len now id fs : forall s g s' g' codes out, subscribe_all now id fs s g = Done (s', g', codes, out) -> List.length codes = List.length fs.
Proof.
  induction fs as [|(f, o) fs IH]; intros s g s' g' codes out; cbn [subscribe_all].
  { intros E; injection E as <- <- <- _. reflexivity. }
  destruct (subscribe_one now id f o s g) as [(((s1, g1), c1), k1)|] eqn:S1; [|discriminate].
  destruct (subscribe_all now id fs s1 g1) as [(((s2, g2), c2), k2)|] eqn:S2; [|discriminate].
  intros E. injection E as <- <- <- _. cbn. now rewrite (IH _ _ _ _ _ _ S2).
Qed.
Lemma unsub_all_len fs : forall s g s' g' codes, unsubscribe_all fs s g = Done (s', g', codes) -> List.length codes = List.length fs.
Proof.
  induction fs as [|f fs IH]; intros s g s' g' codes; cbn [unsubscribe_all].
  { intros E; injection E as <- <- <-. reflexivity. }
  destruct (rt_unsubscribe _ _ _) as (t, p) eqn:R. destruct p; [discriminate|].
  destruct (unsubscribe_all fs _ _) as [((s2, g2), c2)|] eqn:S2; [|discriminate].
  intros E. injection E as <- <- <-. cbn. now rewrite (IH _ _ _ _ _ S2).
Qed.
Lemma sub_all3_len now fs : forall s g s' g' codes out, subscribe_all3 now fs s g = (s', g', Ok3 (codes, out)) -> List.length codes = List.length fs.
Proof.
  induction fs as [|(f, q) fs IH]; intros s g s' g' codes out; cbn [subscribe_all3].
  { intros E; injection E as <- <- <- _. reflexivity. }
  destruct (subscribe_one3 now f q s g) as [(((s1, g1), c1), k1)| |] eqn:S1; try discriminate.
  destruct (subscribe_all3 now fs s1 g1) as ((s2, g2), [(c2, k2)| |]) eqn:S2; try discriminate.
  intros E. injection E as <- <- <- _. cbn. now rewrite (IH _ _ _ _ _ _ S2).
Qed.
Lemma sub_all3_err now fs : forall s g s' g', subscribe_all3 now fs s g = (s', g', Err3) -> existsb (fun e => is_shared (fst e)) fs = true.
Proof.
  induction fs as [|(f, q) fs IH]; intros s g s' g'; cbn [subscribe_all3 existsb fst]; [discriminate|].
  destruct (subscribe_one3 now f q s g) as [(((s1, g1), c1), k1)| |] eqn:S1; try discriminate.
  - destruct (subscribe_all3 now fs s1 g1) as ((s2, g2), [(c2, k2)| |]) eqn:S2; try discriminate.
    intros _. rewrite (IH _ _ _ _ S2). apply orb_true_r.
  - intros _. unfold subscribe_one3 in S1. destruct (is_shared f); auto.
    destruct (max_allowed_qos _); [|discriminate]. destruct (rt_subscribe _ _ _ _) as (t, p). destruct p; [discriminate|].
    destruct (ret_get_matches _ _); [|discriminate]. destruct (send_retained3 _ _ _ _ _) as ((s2, k), pe). destruct pe; [destruct (pendings3 now _)|]; discriminate.
Qed.

Lemma own_messages l : Forall own_kind l -> messages5 l. Proof. exact (fun H => H). Qed.
Lemma own_messages3 l : Forall own_kind3 l -> messages3 l. Proof. exact (fun H => H). Qed.

(** PUBLISH: refused with DISCONNECT, or acknowledged. *)
Lemma publish5_reply hash pick w s g s' g' out : handle_publish5 hash pick w s g = Done (s', g', out) ->
  (is_disconnected5 s' = true /\ exists code reason, out = [KDisconnect code reason]) \/
  (match w5_qp w with Q0 => out = [] | Q1 p => exists c, out = [KPuback p c] | Q2 p => exists c, out = [KPubrec p c] end).
Proof.
  unfold handle_publish5.
  assert (REF : forall code reason s0, (let '(s1, k) := error_disconnect code reason s0 in Done (s1, g, [k])) = Done (s', g', out) ->
    (is_disconnected5 s' = true /\ exists code reason, out = [KDisconnect code reason]) \/
    (match w5_qp w with Q0 => out = [] | Q1 p => exists c, out = [KPuback p c] | Q2 p => exists c, out = [KPubrec p c] end)).
  { intros code reason s0. cbn [error_disconnect]. intros H. injection H as <- _ <-. left. split; [unfold is_disconnected5; apply orb_true_r|eauto]. }
  destruct (starts_with_dollar _); [apply REF|]. destruct (_ && _); [apply REF|].
  destruct (resolve_topic _ w s) as [s1 [T|[code reason]]]; [|apply REF].
  destruct (negb _); [apply REF|].
  destruct (check_qos2 hash (cf_inflight_server (g_cfg g)) w s1) as [s2 v] eqn:CQ. destruct v as [| |code reason].
  - destruct (_ && _); [intros H; injection H as _ _ <-; right; unfold publish_ack; destruct (w5_qp w); eauto|]. destruct (enc_len5 w); [|discriminate].
    destruct (send_publish5 _ _ s2 g) as [[[s3 g3] n3]|] eqn:SP; [|discriminate]. intros H; injection H as _ _ <-. right. unfold publish_ack. destruct (w5_qp w); eauto.
  - intros H; injection H as _ _ <-. right. unfold check_qos2 in CQ. destruct (w5_qp w) eqn:Q; eauto; try (repeat match type of CQ with context[if ?y then _ else _] => destruct y end; discriminate).
  - apply REF.
Qed.
Lemma disc_after now s s2 o2 : is_disconnected5 s = true -> after_packet5 now s = (s2, o2) -> o2 = [].
Proof. intros D. unfold after_packet5. rewrite D. now intros E; injection E. Qed.

Lemma packet5_reply hash pick now len x s g s' g' out : packet_step5 hash pick now len x s g = Go s' g' out ->
  replied5 (cf_packet_server (g_cfg g)) len x out.
Proof.
  unfold packet_step5. destruct (handle_packet5 hash pick now len x s g) as [s1 g1 o1| |] eqn:H; try discriminate.
  destruct (after_packet5 now s1) as (s2, o2) eqn:A. intros E. injection E as <- <- <-.
  pose proof (fun D => disc_after _ _ _ _ D A) as NIL. apply after_frame in A. destruct A as (_ & K). apply own_messages in K. unfold replied5.
  assert (DX : forall c r s0, with_disc (s_cdisc s0) true s0 = s1 -> o1 = [KDisconnect c r] -> o1 ++ o2 = [KDisconnect c r]).
  { intros c r s0 <- ->. rewrite NIL; [reflexivity|]. unfold is_disconnected5. cbn. apply orb_true_r. }
  unfold handle_packet5 in H. destruct (N.ltb_spec (cf_packet_server (g_cfg g)) len) as [HL|HL].
  { cbn [error_disconnect] in H. left. injection H as S1 _ <-. eexists _, _. split; [eapply DX; [exact S1|reflexivity]|]. left. auto. }
  assert (ANS : forall k, o1 = [k] -> due5 x = true -> reply5 x k ->
    (exists code reason, o1 ++ o2 = [KDisconnect code reason] /\ (cf_packet_server (g_cfg g) < len /\ code = RC_packet_too_large \/ len <= cf_packet_server (g_cfg g) /\ refusable5 x = true)) \/
    (len <= cf_packet_server (g_cfg g) /\ if due5 x then exists before k after, o1 ++ o2 = before ++ k :: after /\ reply5 x k /\ messages5 before /\ messages5 after else messages5 (o1 ++ o2))).
  { intros k -> -> R. right. split; auto. exists [], k, o2. repeat split; auto. constructor. }
  destruct x.
  - destruct (handle_publish5 hash pick w s g) as [((s3, g3), o3)|] eqn:P; [|discriminate]. injection H as -> -> ->.
    apply publish5_reply in P. destruct P as [(D & c & r & ->)|P].
    + left. exists c, r. rewrite (NIL D). split; [reflexivity|]. right. auto.
    + cbn [due5] in *. destruct (w5_qp w) eqn:Q; [|destruct P as (c & ->); apply (ANS _ eq_refl eq_refl); cbn; auto..].
      subst o1. right. split; auto.
  - injection H as _ _ <-. right. split; auto.
  - unfold handle_pubrec5 in H. destruct (out5_on_queue _ _) as [o ok]. injection H as _ _ <-. apply (ANS _ eq_refl eq_refl). reflexivity.
  - unfold handle_pubrel5 in H. destruct (aget p _); injection H as _ _ <-; apply (ANS _ eq_refl eq_refl); reflexivity.
  - injection H as _ _ <-. right. split; auto.
  - unfold handle_subscribe5 in H.
    assert (C : (if negb (cf_subid (g_cfg g)) && match id with Some _ => true | None => false end
      then Done (s, g, [KSuback p (map (fun _ => RC_subid_not_supported) fs)])
      else match subscribe_all now id fs s g with Panic => Panic | Done (s', g', codes, out) => Done (s', g', (out ++ [KSuback p codes])%list) end) = Done (s1, g1, o1) ->
      exists before k after, o1 ++ o2 = before ++ k :: after /\ reply5 (ISub p id fs) k /\ messages5 before /\ messages5 after).
    { destruct (_ && _).
      - intros E. injection E as _ _ <-. exists [], (KSuback p (map (fun _ => RC_subid_not_supported) fs)), o2. split; [reflexivity|]. split; [split; [reflexivity|apply map_length]|]. split; [constructor|auto].
      - destruct (subscribe_all now id fs s g) as [(((s4, g4), c4), k4)|] eqn:SA; [|discriminate]. intros E. injection E as _ _ <-.
        pose proof (sub_all_len _ _ _ _ _ _ _ _ _ SA) as LN. apply subscribe_all_frame in SA. destruct SA as (_ & KO).
        exists k4, (KSuback p c4), o2. rewrite <- app_assoc. split; [reflexivity|]. split; [split; auto|]. split; auto. }
    destruct id as [[|i]|].
    + cbn [error_disconnect] in H. injection H as S1 _ <-. left. eexists _, _. split; [eapply DX; [exact S1|reflexivity]|]. right. auto.
    + right. split; auto. cbn [due5]. destruct (_ && _); [|destruct (subscribe_all _ _ _ _ _) as [(((s4, g4), c4), k4)|] eqn:SA; [|discriminate]]; injection H as <- <- <-; apply C; reflexivity.
    + right. split; auto. cbn [due5]. destruct (_ && _); [|destruct (subscribe_all _ _ _ _ _) as [(((s4, g4), c4), k4)|] eqn:SA; [|discriminate]]; injection H as <- <- <-; apply C; reflexivity.
  - unfold handle_unsubscribe5 in H. destruct (unsubscribe_all fs s g) as [((s3, g3), c3)|] eqn:U; [|discriminate]. injection H as _ _ <-.
    apply (ANS _ eq_refl eq_refl). split; [reflexivity|]. eapply unsub_all_len; eauto.
  - injection H as _ _ <-. apply (ANS _ eq_refl eq_refl). exact Logic.I.
  - unfold handle_disconnect5 in H. cbn [error_disconnect] in H.
    destruct expiry as [v|].
    + destruct ((0 <? v) && (s_expiry s =? 0)).
      * injection H as S1 _ <-. left. eexists _, _. split; [eapply DX; [exact S1|reflexivity]|]. right. auto.
      * injection H as _ _ <-. right. split; auto.
    + injection H as _ _ <-. right. split; auto.
  - discriminate.
Qed.
Lemma packet3_reply hash now len x s g :
  match packet_step3 hash now len x s g with
  | Go3 s' g' out => replied3 (cf_packet_server (g_cfg g)) len x false out
  | Stop3 s' g' => replied3 (cf_packet_server (g_cfg g)) len x true []
  | Crash3 => True
  end.
Proof.
  unfold packet_step3, replied3. destruct (handle_packet3 hash now len x s g) as [s1 g1 o1|s1 g1|] eqn:H; auto.
  - destruct (after_packet3 now s1) as (s2, o2) eqn:A. apply after3_frame in A. destruct A as (_ & K). apply own_messages3 in K.
    right. split; auto. unfold handle_packet3 in H. destruct (N.ltb_spec (cf_packet_server (g_cfg g)) len) as [HL|HL]; [discriminate|]. split; auto.
    assert (ANS : forall k, o1 = [k] -> reply3 x k -> exists before k after, o1 ++ o2 = before ++ k :: after /\ reply3 x k /\ messages3 before /\ messages3 after).
    { intros k -> R. exists [], k, o2. repeat split; auto. constructor. }
    destruct x; cbn [due3].
    + destruct (handle_publish3 hash w s g) as [((s3, g3), o3)| |] eqn:P; try discriminate. injection H as _ _ ->.
      assert (Q : o1 = publish_ack3 (w3_qp w)).
      { unfold handle_publish3 in P. destruct (String.eqb _ _); [discriminate|]. destruct (starts_with_dollar _); [discriminate|]. destruct (_ && _); [discriminate|].
        match type of P with match ?c with None => _ | Some _ => _ end = _ => destruct c as [s0|]; [|discriminate] end.
        destruct (_ && _); [now injection P|]. destruct (enc_len3 w); [|discriminate]. destruct (send_publish3 _ _ _) as [[? ?]|]; [|discriminate]. now injection P. }
      subst o1. destruct (w3_qp w) eqn:QP; cbn [publish_ack3] in *; auto; (apply (ANS _ eq_refl); cbn; auto).
    + injection H as _ _ <-. auto.
    + injection H as _ _ <-. apply (ANS _ eq_refl). reflexivity.
    + unfold handle_pubrel3 in H. destruct (aget p _); [|discriminate]. injection H as _ _ <-. apply (ANS _ eq_refl). reflexivity.
    + injection H as _ _ <-. auto.
    + unfold handle_subscribe3 in H. destruct (subscribe_all3 now fs s g) as ((s4, g4), [(codes, o4)| |]) eqn:SA; try discriminate. injection H as _ _ <-.
      pose proof (sub_all3_len _ _ _ _ _ _ _ _ SA) as LN. apply subscribe_all3_frame in SA. destruct SA as (_ & KO).
      exists o4, (JSuback p codes), o2. rewrite <- app_assoc. repeat split; auto.
    + unfold handle_unsubscribe3 in H. destruct (unsubscribe_all3 fs s g) as [(s3, g3)|] eqn:U; [|discriminate]. injection H as _ _ <-. apply (ANS _ eq_refl). reflexivity.
    + injection H as _ _ <-. apply (ANS _ eq_refl). exact Logic.I.
    + injection H as _ _ <-. auto.
    + discriminate.
  - left. split; auto. split; auto. unfold handle_packet3 in H. destruct (N.ltb_spec (cf_packet_server (g_cfg g)) len) as [HL|HL]; [auto|]. right.
    destruct x; try discriminate; try reflexivity.
    + unfold handle_subscribe3 in H. destruct (subscribe_all3 now fs s g) as ((s4, g4), [(codes, o4)| |]) eqn:SA; try discriminate. eapply sub_all3_err; eauto.
    + unfold handle_unsubscribe3 in H. destruct (unsubscribe_all3 fs s g) as [(s3, g3)|] eqn:U; discriminate.
Qed.

Lemma pendings3_kind now s s' out : pendings3 now s = (s', out) -> messages3 out.
Proof. intros E. apply pendings3_frame in E. apply E. Qed.
Lemma recv_kind now m s s' q k : recv_publish5 now m s = (s', Some (q, Some k)) -> own_kind k.
Proof.
  unfold recv_publish5. destruct (match rp_ids m with Precomputed l => Some l | Lookup f => _ end); [|discriminate].
  destruct (negb _).
  - destruct (_ <? _); [discriminate|]. destruct (out5_push _ _ _). discriminate.
  - repeat match goal with |- context[if ?y then _ else _] => destruct y end; try discriminate.
    all: try (destruct (out5_qos0 _ _ _ _ _)); intros E; inversion E; exact Logic.I.
Qed.
Lemma normal_kind now c m s s' q k : handle_normal5 now c m s = (s', Some (q, Some k)) -> own_kind k.
Proof.
  unfold handle_normal5. destruct m as [m|m].
  - destruct (aget _ _); [|discriminate]. apply recv_kind.
  - destruct (filters_info _ _) as [[has rap] ids]. destruct has; [|discriminate]. apply recv_kind.
Qed.
Lemma normal3_kind now m s s' q k : handle_normal3 now m s = (s', Some (q, Some k)) -> own_kind3 k.
Proof.
  assert (R : forall rp, recv_publish3 now rp s = (s', Some (q, Some k)) -> own_kind3 k).
  { intros rp E. apply recv3_frame in E. apply E. }
  unfold handle_normal3. destruct m as [m|m]; [apply R|]. destruct (n5_filters m); [discriminate|apply R].
Qed.

Section Broker.
  Variables (hash5 : wpub5 -> N) (hash3 : wpub3 -> N) (pick : draw -> broker -> string -> string -> N).
  Notation bstep := (bstep hash5 hash3 pick).
  Notation brun := (brun hash5 hash3 pick).

  Lemma over_yes k a g b : over (set_task k (TEnd a) (put_glob g b)) k = true.
  Proof. unfold over, set_task, set_tasks. cbn [b_tasks]. now rewrite aget_aset, eqb_refl. Qed.
  Lemma over_no3 k a g b now : over (set_last k now (set_task k (TOnline a) (put_glob g b))) k = false.
  Proof. unfold over, set_task, set_tasks, set_last, set_lasts. cbn [b_tasks]. now rewrite aget_aset, eqb_refl. Qed.
  Lemma over_no k a g b : over (set_task k (TOnline a) (put_glob g b)) k = false.
  Proof. unfold over, set_task, set_tasks. cbn [b_tasks]. now rewrite aget_aset, eqb_refl. Qed.
  Lemma reply5_lemma c h b k len x b' out : brun c h b -> bstep (EPacket5 k len x) b = BOk b' out ->
    (x = IOther /\ len <= cf_packet_server c /\ over b' k = true /\ out = []) \/
    (over b' k = false /\ replied5 (cf_packet_server c) len x (pkts5 k out)).
  Proof.
    intros R S. destruct (run_glob _ _ _ _ _ _ R) as (CF & GC & _). cbn [BrokerModel.bstep] in S. unfold do_packet5 in S.
    destruct (aget k (b_tasks b)) as [[| | | |[s|s]| | | |]|] eqn:A; try discriminate. destruct (is_disconnected5 s); [discriminate|].
    destruct (packet_step5 _ _ _ _ _ _ _) as [s1 g o|s1 g|] eqn:P; try discriminate; inversion S; subst b' out; clear S.
    - right. apply packet5_reply in P. rewrite GC in P. rewrite pkts5_map. split; [|exact P].
      destruct (is_disconnected5 s1); [apply over_no|apply over_no3].
    - left. unfold packet_step5, handle_packet5 in P. destruct (N.ltb_spec (cf_packet_server (g_cfg (glob_of b))) len) as [HL|HL].
      { cbn [error_disconnect] in P. destruct (after_packet5 _ _). discriminate. }
      rewrite GC in HL.
      assert (X : x = IOther).
      { destruct x; auto; exfalso.
        - destruct (handle_publish5 _ _ _ _ _) as [[[? ?] ?]|]; [|discriminate]. destruct (after_packet5 _ _); discriminate.
        - destruct (after_packet5 _ _); discriminate.
        - destruct (handle_pubrec5 _ _ _). destruct (after_packet5 _ _); discriminate.
        - destruct (handle_pubrel5 _ _). destruct (after_packet5 _ _); discriminate.
        - destruct (after_packet5 _ _); discriminate.
        - destruct (handle_subscribe5 _ _ _ _ _ _) as [[[? ?] ?]|]; [|discriminate]. destruct (after_packet5 _ _); discriminate.
        - destruct (handle_unsubscribe5 _ _ _ _) as [[[? ?] ?]|]; [|discriminate]. destruct (after_packet5 _ _); discriminate.
        - destruct (after_packet5 _ _); discriminate.
        - destruct (handle_disconnect5 _ _ _). destruct (after_packet5 _ _); discriminate. }
      split; auto. split; auto. split; auto. apply over_yes.
  Qed.
  Lemma reply3_lemma c h b k len x b' out : brun c h b -> bstep (EPacket3 k len x) b = BOk b' out ->
    replied3 (cf_packet_server c) len x (over b' k) (pkts3 k out).
  Proof.
    intros R S. destruct (run_glob _ _ _ _ _ _ R) as (CF & GC & _). cbn [BrokerModel.bstep] in S. unfold do_packet3 in S.
    destruct (aget k (b_tasks b)) as [[| | | |[s|s]| | | |]|] eqn:A; try discriminate. destruct (z_disc s); [discriminate|].
    pose proof (packet3_reply hash3 (seconds b) len x s (glob_of b)) as P. rewrite GC in P.
    destruct (packet_step3 _ _ _ _ _ _) as [s1 g o|s1 g|]; try discriminate; inversion S; subst b' out; clear S.
    - rewrite pkts3_map. replace (over _ k) with false; [exact P|]. symmetry. apply over_no3.
    - replace (over _ k) with true; [exact P|]. symmetry. apply over_yes.
  Qed.

  (** What is written without a packet having come. *)
  Lemma unasked_lemma e b b' out k : bstep e b = BOk b' out ->
    (forall len x, e <> EPacket5 k len x) -> (forall len x, e <> EPacket3 k len x) ->
    match e with
    | EMalformed j r => j <> k /\ pkts5 k out = [] \/ j = k /\ exists reason, pkts5 k out = [KDisconnect RC_malformed reason]
    | _ => messages5 (pkts5 k out)
    end /\ messages3 (pkts3 k out).
  Proof.
    intros S N5 N3.
    assert (ID : idle k e -> match e with
    | EMalformed j r => j <> k /\ pkts5 k out = [] \/ j = k /\ exists reason, pkts5 k out = [KDisconnect RC_malformed reason]
    | _ => messages5 (pkts5 k out)
    end /\ messages3 (pkts3 k out)).
    { intros I. destruct (step_quiet _ _ _ _ _ _ _ _ S I) as (-> & ->). split; [|constructor]. destruct e; try apply Forall_nil. left. auto. }
    destruct e; try (apply ID; exact Logic.I).
    - destruct (N.eq_dec k0 k) as [->|NE]; [|apply ID; exact NE]. cbn [BrokerModel.bstep] in S. unfold do_start in S.
      destruct (aget k (b_tasks b)) as [[| | |[s|s]| | | | |]|]; try discriminate.
      + destruct (pendings5 _ _) as [s1 o] eqn:P. inversion S; subst. rewrite pkts5_map, pkts3_map5. apply pendings_kind in P. split; [exact P|constructor].
      + destruct (after_packet3 _ _) as [s1 o] eqn:P. inversion S; subst. rewrite pkts3_map, pkts5_map3. apply after3_frame in P. destruct P as (_ & P). split; [constructor|exact P].
    - destruct (N.eq_dec k0 k) as [->|NE]; [exfalso; eapply N5; eauto|]. apply ID; exact NE.
    - destruct (N.eq_dec k0 k) as [->|NE]; [exfalso; eapply N3; eauto|]. apply ID; exact NE.
    - destruct (N.eq_dec k0 k) as [->|NE]; [|apply ID; exact NE]. cbn [BrokerModel.bstep] in S. unfold do_malformed in S.
      destruct (aget k (b_tasks b)) as [[| | | |[s|s]| | | |]|]; try discriminate. destruct (is_disconnected5 s); [discriminate|]. cbn [error_disconnect] in S. inversion S; subst.
      split; [|constructor]. right. split; auto. eexists. cbn [pkts5 flat_map]. rewrite N.eqb_refl. reflexivity.
    - destruct (N.eq_dec k0 k) as [->|NE]; [|apply ID; exact NE]. cbn [BrokerModel.bstep] in S. unfold do_normal in S.
      assert (K : forall on a cs (m : client_id * nmsg) r o, (let '(a1, out0) := normal (seconds b) (b_cfg b) k on (snd m) a in
          BOk (set_task k (if on then TOnline a1 else TOffline a1) (set_chan (a_id a) (Chan cs r o) b)) out0) = BOk b' out ->
          messages5 (pkts5 k out) /\ messages3 (pkts3 k out)).
      { intros on a cs m r o. destruct (normal _ _ _ _ _ _) as [a1 o1] eqn:NM. intros E. inversion E; subst. clear E. unfold normal in NM. destruct a as [s|s].
        - destruct (handle_normal5 _ _ _ _) as [s1 [[q p]|]] eqn:HN; [|inversion NM; split; constructor]. destruct on; [|inversion NM; split; constructor].
          destruct (if qos_eqb q L0 then _ else _) as [s2 more] eqn:MO. inversion NM; subst. rewrite pkts5_map, pkts3_map5. split; [|constructor].
          apply Forall_app. split.
          + destruct p; [|constructor]. constructor; [|constructor]. eapply normal_kind; eauto.
          + destruct (qos_eqb q L0); [inversion MO; constructor|]. eapply pendings_kind; eauto.
        - destruct (handle_normal3 _ _ _) as [s1 [[q p]|]] eqn:HN; [|inversion NM; split; constructor]. destruct on; [|inversion NM; split; constructor].
          destruct (if qos_eqb q L0 then _ else _) as [s2 more] eqn:MO. inversion NM; subst. rewrite pkts3_map, pkts5_map3. split; [constructor|].
          apply Forall_app. split.
          + destruct p; [|constructor]. constructor; [|constructor]. eapply normal3_kind; eauto.
          + destruct (qos_eqb q L0); [inversion MO; constructor|]. eapply pendings3_kind; eauto. }
      destruct (aget k (b_tasks b)) as [[| | | |a| | |a|]|]; try discriminate.
      + destruct (a_disc a); [discriminate|]. destruct (aget (a_id a) (b_chans b)) as [[cs [|m r] o]|]; try discriminate. exact (K true a cs m r o S).
      + destruct (aget (a_id a) (b_chans b)) as [[cs [|m r] o]|]; try discriminate. exact (K false a cs m r o S).
  Qed.
End Broker.
