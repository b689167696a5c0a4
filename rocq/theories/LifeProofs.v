(** Runs of the broker contain runs of sessions. *)
From Coq Require Import List Bool NArith String Lia.
From Verif Require Import Base BaseLemmas TopicModel MsgModel PendingModel OutModel RouteModel RouteSpec RouteInv RetainModel GlobModel Sess5Model Sess3Model ConnModel
  OutSpec InSpec RecvSpec SubFacts LinkSpec RegModel BrokerModel
  BrokerSpec FrameProofs CoreProofs BrokerInv TaskMove StepProofs RunProofs RegProofs EvolProofs HistProofs LifeSpec TabProofs TabInv RouteRun.
Import ListNotations.
Local Open Scope N_scope.
Local Open Scope list_scope.

Lemma pkts5_map k o : pkts5 k (map (OPkt5 k) o) = o.
Proof. induction o; cbn; [|rewrite N.eqb_refl; cbn; unfold pkts5 in *; rewrite IHo]; reflexivity. Qed.
Lemma pkts3_map k o : pkts3 k (map (OPkt3 k) o) = o.
Proof. induction o; cbn; [|rewrite N.eqb_refl; cbn; unfold pkts3 in *; rewrite IHo]; reflexivity. Qed.
Lemma pkts5_map3 k j o : pkts5 k (map (OPkt3 j) o) = [].
Proof. induction o; auto. Qed.
Lemma pkts3_map5 k j o : pkts3 k (map (OPkt5 j) o) = [].
Proof. induction o; auto. Qed.
Lemma pkts5_other k j o : j <> k -> pkts5 k (map (OPkt5 j) o) = [].
Proof. intros NE. induction o; cbn; [|destruct (N.eqb_spec j k); [contradiction|]]; auto. Qed.
Lemma pkts3_other k j o : j <> k -> pkts3 k (map (OPkt3 j) o) = [].
Proof. intros NE. induction o; cbn; [|destruct (N.eqb_spec j k); [contradiction|]]; auto. Qed.
Lemma pkts5_app k a b : pkts5 k (a ++ b) = pkts5 k a ++ pkts5 k b.
Proof. apply flat_map_app. Qed.
Lemma pkts3_app k a b : pkts3 k (a ++ b) = pkts3 k a ++ pkts3 k b.
Proof. apply flat_map_app. Qed.

Section Life.
  Variables (hash5 : wpub5 -> N) (hash3 : wpub3 -> N) (pick : draw -> broker -> string -> string -> N).
  Notation bstep := (bstep hash5 hash3 pick).
  Notation brun := (brun hash5 hash3 pick).
  Notation evol := (evol hash5 hash3 pick).

  Definition quiet (k : N) (out : list bout) : Prop := pkts5 k out = [] /\ pkts3 k out = [].
  Lemma quiet_nil k : quiet k []. Proof. split; reflexivity. Qed.
  Lemma quiet_one k o : match o with OPkt5 j _ | OPkt3 j _ => j <> k | _ => True end -> quiet k [o].
  Proof. destruct o; intros H; split; cbn; auto; (destruct (N.eqb_spec k0 k); [contradiction|reflexivity]). Qed.
  Lemma quiet_app k a b : quiet k a -> quiet k b -> quiet k (a ++ b).
  Proof. intros (A & B) (C & D). split; [rewrite pkts5_app, A, C|rewrite pkts3_app, B, D]; reflexivity. Qed.
  Lemma quiet5 k j o : j <> k -> quiet k (map (OPkt5 j) o).
  Proof. intros; split; [apply pkts5_other; auto|apply pkts3_map5]. Qed.
  Lemma quiet3 k j o : j <> k -> quiet k (map (OPkt3 j) o).
  Proof. intros; split; [apply pkts5_map3|apply pkts3_other; auto]. Qed.
  Lemma quiet_will k j a b a' b' out ok : send_will pick j a b = Some (a', b', out, ok) -> quiet k out.
  Proof.
    unfold send_will. destruct a as [s|s].
    - destruct (send_will5 _ _ _) as [[[s1 g] ok1]|]; [|discriminate]. intros E; inversion E; subst. destruct (s_will s); [destruct ok|]; try apply quiet_nil. apply quiet_one; exact Logic.I.
    - destruct (send_will3 _ _) as [[[s1 g] ok1]|]; [|discriminate]. intros E; inversion E; subst. destruct (z_will s); [destruct ok|]; try apply quiet_nil. apply quiet_one; exact Logic.I.
  Qed.
  Lemma quiet_normal k j now c on m a a' out : j <> k -> normal now c j on m a = (a', out) -> quiet k out.
  Proof.
    intros NE. unfold normal. destruct a as [s|s].
    - destruct (handle_normal5 _ _ _ _) as [s1 [[q p]|]]; [|intros E; inversion E; apply quiet_nil]. destruct on; [|intros E; inversion E; apply quiet_nil].
      destruct (if qos_eqb q L0 then _ else _). intros E; inversion E. apply quiet5; auto.
    - destruct (handle_normal3 _ _ _) as [s1 [[q p]|]]; [|intros E; inversion E; apply quiet_nil]. destruct on; [|intros E; inversion E; apply quiet_nil].
      destruct (if qos_eqb q L0 then _ else _). intros E; inversion E. apply quiet3; auto.
  Qed.

  Ltac fin := repeat match goal with
    | H : BNo = BOk _ _ |- _ => discriminate | H : BPanic = BOk _ _ |- _ => discriminate
    | H : BOk _ _ = BOk _ _ |- _ => inversion H; subst; clear H
    | H : (if ?x then _ else _) = BOk _ _ |- _ => destruct x eqn:?
    | H : match ?x with _ => _ end = BOk _ _ |- _ => destruct x eqn:?
    end; try apply quiet_nil; try (apply quiet_one; exact Logic.I); eauto using quiet_will, quiet_app, quiet_nil, quiet_one, quiet5, quiet3, quiet_normal.

  Lemma step_quiet e b b' out k : bstep e b = BOk b' out -> idle k e -> quiet k out.
  Proof.
    intros S ID. destruct e; cbn [BrokerModel.bstep idle] in *.
    - unfold add_client in S. fin.
    - unfold add_client in S. fin.
    - unfold do_put in S. fin.
    - unfold do_fail in S. fin.
    - unfold do_join in S. fin. match goal with |- quiet _ [?a; ?b] => apply (quiet_app _ [a] [b]); apply quiet_one; exact Logic.I end.
    - unfold do_start in S. fin.
    - unfold do_packet5 in S. fin.
    - unfold do_packet3 in S. fin.
    - unfold do_malformed in S. fin.
    - unfold do_close in S. fin.
    - unfold do_control, control, hand_over in S. fin.
    - unfold do_normal in S. fin.
    - unfold do_flush in S. fin.
    - unfold do_end in S. fin.
    - unfold do_done in S. fin.
    - unfold do_fire in S. fin.
    - fin.
  Qed.

  Lemma evol_v b e out k a a' : evol b e out k a a' -> a_v5 a' = a_v5 a.
  Proof.
    intros V. destruct V; auto.
    - destruct a; cbn in H3; [destruct (handle_normal5 _ _ _ _) as [s1 [[q p]|]]|destruct (handle_normal3 _ _ _) as [s1 [[q p]|]]]; try (inversion H3; subst; reflexivity);
        (destruct on; [|inversion H3; subst; reflexivity]); destruct (if qos_eqb q L0 then _ else _); inversion H3; subst; reflexivity.
    - destruct a; reflexivity.
    - unfold send_will in H1. destruct a; [destruct (send_will5 _ _ _) as [[[s1 g] ok1]|]|destruct (send_will3 _ _) as [[[s1 g] ok1]|]]; inversion H1; subst; reflexivity.
    - destruct a; reflexivity.
  Qed.

  Lemma recv_none5 now m s s' q p : recv_publish5 now m s = (s', Some (q, p)) -> qos_eqb q L0 = false -> p = None.
  Proof.
    unfold recv_publish5. destruct (match rp_ids m with Precomputed l => Some l | Lookup f => _ end); [|discriminate].
    destruct (qos_eqb (qos_min _ _) L0) eqn:Q; cbn [negb].
    - destruct (_ && _); [|discriminate]. destruct (_ <? _); [discriminate|]. destruct (out5_qos0 _ _ _ _ _). intros E; inversion E; subst. congruence.
    - destruct (_ <? _); [discriminate|]. destruct (out5_push _ _ _). intros E; inversion E; subst. auto.
  Qed.
  Lemma normal_none5 now c m s s' q p : handle_normal5 now c m s = (s', Some (q, p)) -> qos_eqb q L0 = false -> p = None.
  Proof.
    unfold handle_normal5. destruct m as [m|m].
    - destruct (aget _ _); [|discriminate]. apply recv_none5.
    - destruct (filters_info _ _) as [[[] rap] ids]; [|discriminate]. apply recv_none5.
  Qed.
  Lemma recv_none3 now m s s' q p : recv_publish3 now m s = (s', Some (q, p)) -> qos_eqb q L0 = false -> p = None.
  Proof.
    unfold recv_publish3. destruct (aget _ _); [|discriminate]. destruct (qos_eqb (qos_min _ _) L0) eqn:Q; cbn [negb].
    - destruct (negb _); [|discriminate]. intros E; inversion E; subst. congruence.
    - destruct (out3_push _ _ _). intros E; inversion E; subst. auto.
  Qed.
  Lemma normal_none3 now m s s' q p : handle_normal3 now m s = (s', Some (q, p)) -> qos_eqb q L0 = false -> p = None.
  Proof. unfold handle_normal3. destruct m as [m|m]; [apply recv_none3|]. destruct (n5_filters m); [discriminate|]. apply recv_none3. Qed.

  Lemma srun5_snocs c s l e s' o : srun5 hash5 c s l -> sstep5 hash5 c s e s' o -> srun5 hash5 c s' (l ++ [(e, o)]).
  Proof. apply sr_snoc. Qed.
  Lemma srun5_two c s l e s1 o e' s' o' : srun5 hash5 c s l -> sstep5 hash5 c s e s1 o -> sstep5 hash5 c s1 e' s' o' -> srun5 hash5 c s' (l ++ [(e, o); (e', o')]).
  Proof. intros R A B. rewrite snoc_app. eapply sr_snoc; eauto. eapply sr_snoc; eauto. Qed.
  Lemma set_id5 s conn last w : s_connected s = conn -> s_last s = last -> s_will s = w -> with_connected conn (with_last last (with_will w s)) = s.
  Proof. intros <- <- <-. destruct s; reflexivity. Qed.

  Lemma will_steps5 k a b a' b' out ok s' : send_will pick k a b = Some (a', b', out, ok) -> a' = A5 s' -> exists s bc n, a = A5 s /\ s' = with_bcast bc n (with_connected (s_connected s) (with_last (s_last s) (with_will None s))).
  Proof.
    unfold send_will. intros E ->. destruct a as [s|s]; [|destruct (send_will3 _ _) as [[[s1 g] ok1]|]; discriminate].
    destruct (send_will5 _ _ _) as [[[s1 g] ok1]|] eqn:W; inversion E; subst. exists s. unfold send_will5 in W. destruct (s_will s) as [w|] eqn:WI.
    - destruct (enc_len5 _); [|inversion W; subst; exists (s_bcast s), (s_bcnt s); split; auto; destruct s; reflexivity].
      destruct (send_publish5 _ _ _ _) as [[[s2 g2] n2]|] eqn:P; [|discriminate]. apply send_publish5_frame in P. destruct P as ((bc & kk & ->) & _). inversion W; subst. exists bc, kk. split; auto; destruct s; reflexivity.
    - inversion W; subst. exists (s_bcast s'), (s_bcnt s'). split; auto. destruct s'; cbn in *; subst; reflexivity.
  Qed.

  Lemma evol_did5 c e b b' out k s s' l : bstep e b = BOk b' out -> proper (Past b e out) -> wf_glob c (glob_of b) -> b_cfg b = c -> evol b e out k (A5 s) (A5 s') ->
    srun5 hash5 c s l -> exists d, did5 k (Past b e out) d /\ srun5 hash5 c s' (l ++ d).
  Proof.
    intros ST PR WG CF V R. remember (A5 s) as a eqn:EA. remember (A5 s') as a' eqn:EA'.
    destruct V as [a ID|len x s1 s2 g o E A D PS O|len x s1 s2 g E A D PS O|reason s1 s2 p E D ED O|len x s1 s2 g o E A D PS O|len x s1 s2 g E A D PS O
      |on a a' cs [c0 m] r o E A D CH NM|d a bc n E O|s1 s2 o E A PE O|s1 s2 o E A PE O|a a' b0 b1 ok GB E SW|a E O]; try discriminate EA; try discriminate EA'.
    - rewrite EA in EA'. injection EA' as <-. exists []. rewrite app_nil_r. split; auto. apply d5_still; [|apply (step_quiet _ _ _ _ _ ST ID)|constructor].
      cbn [w_e]. unfold idle in ID. unfold passive. destruct e; auto. destruct x; auto.
    - injection EA as ->. injection EA' as ->. subst e out. eexists. split; [apply (d5_pkt k (Past b _ _) len x); reflexivity|]. cbn [w_b w_out]. rewrite pkts5_map. eapply sr_snoc; eauto. eapply st_pkt; eauto.
    - injection EA as ->. injection EA' as ->. subst e out. exists []. rewrite app_nil_r.
      assert (X : x = IOther /\ s' = s). { unfold packet_step5 in PS. destruct (handle_packet5 _ _ _ _ _ _ _) eqn:HP; [destruct (after_packet5 _ _); discriminate| |discriminate]. inversion PS; subst.
        unfold handle_packet5 in HP. destruct (_ <? _); [destruct (error_disconnect _ _ _); discriminate|]. destruct x; try discriminate; [| | | | | |inversion HP; auto];
          repeat match goal with H : match ?y with _ => _ end = _ |- _ => destruct y; try discriminate end. }
      destruct X as (-> & ->). split; auto. apply d5_still; [exact Logic.I|reflexivity|constructor].
    - injection EA as ->. injection EA' as ->. subst e out. eexists. split; [apply (d5_bad k (Past b _ _) reason); reflexivity|]. cbn [w_b w_out]. change [OPkt5 k p] with (map (OPkt5 k) [p]). rewrite pkts5_map. eapply sr_snoc; eauto. eapply st_bad; eauto.
    - subst a a' e. cbn [snd normal] in NM. destruct (handle_normal5 (seconds b) (b_cfg b) m s) as [s1 res] eqn:HN. rewrite CF in HN.
      assert (W : waiting b (a_id (A5 s)) = (c0, m) :: r) by (unfold waiting; rewrite CH; reflexivity).
      pose proof (sr_snoc _ _ _ _ _ _ _ R (st_msg hash5 c s (seconds b) m s1 res HN)) as R1. cbv zeta in R1.
      destruct on.
      + destruct res as [[q pk]|].
        * destruct (qos_eqb q L0) eqn:Q.
          -- injection NM as -> <-. rewrite app_nil_r. eexists. split; [eapply (d5_msg k (Past b _ _)); eauto|]. cbn [w_b w_out]. rewrite pkts5_map. destruct pk; exact R1.
          -- pose proof (normal_none5 _ _ _ _ _ _ _ HN Q) as ->. destruct (pendings5 (seconds b) s1) as [s2 more] eqn:PE. injection NM as -> <-. cbn [opt_list app]. eexists. split; [eapply (d5_send k (Past b _ _)); eauto|]. cbn [w_b w_out]. rewrite pkts5_map, snoc_app. eapply sr_snoc; [exact R1|]. constructor. auto.
        * injection NM as -> <-. eexists. split; [eapply (d5_msg k (Past b _ _)); eauto|]. exact R1.
      + assert (X : A5 s1 = A5 s' /\ out = []) by (destruct res as [[q pk]|]; injection NM as -> <-; auto). destruct X as (X & ->). injection X as ->.
        eexists. split; [eapply (d5_lost k (Past b _ _)); eauto|]. cbn [w_b]. eapply sr_snoc; eauto. econstructor; eauto.
    - subst e out a. injection EA' as <-. exists [(VSend bc n, [])]. split; [apply d5_still; [exact Logic.I|reflexivity|repeat constructor]|]. eapply sr_snoc; eauto. constructor.
    - injection EA as ->. injection EA' as ->. subst e out. eexists. split; [apply (d5_start k (Past b _ _)); reflexivity|]. cbn [w_b w_out]. rewrite pkts5_map. eapply srun5_two; [exact R|apply (st_set _ _ s (s_connected s) (seconds b) (s_will s))|]. constructor. rewrite <- PE. destruct s; reflexivity.
    - subst a. destruct (will_steps5 _ _ _ _ _ _ _ _ SW EA') as (s0 & bc & n & X & ->). injection X as <-. exists [(VSet, []); (VSend bc n, [])].
      split; [apply d5_still; [destruct E; subst e; exact Logic.I|apply (quiet_will k _ _ _ _ _ _ _ SW)|repeat constructor]|]. eapply srun5_two; [exact R|apply (st_set _ _ s (s_connected s) (s_last s) None)|]. constructor.
    - subst e out a. injection EA' as <-. exists [(VSet, [])]. split; [apply d5_still; [exact Logic.I|reflexivity|repeat constructor]|]. eapply sr_snoc; eauto. replace (with_connected false s) with (with_connected false (with_last (s_last s) (with_will (s_will s) s))) by (destruct s; reflexivity). constructor.
  Qed.

  Lemma srun3_two c s l e s1 o e' s' o' : srun3 hash3 c s l -> sstep3 hash3 c s e s1 o -> sstep3 hash3 c s1 e' s' o' -> srun3 hash3 c s' (l ++ [(e, o); (e', o')]).
  Proof. intros R A B. rewrite snoc_app. eapply sr3_snoc; eauto. eapply sr3_snoc; eauto. Qed.

  Lemma will_steps3 k a b a' b' out ok s' : send_will pick k a b = Some (a', b', out, ok) -> a' = A3 s' -> exists s bc n, a = A3 s /\ s' = zwith_bcast bc n (zwith_connected (z_connected s) (zwith_last (z_last s) (zwith_will None s))).
  Proof.
    unfold send_will. intros E ->. destruct a as [s|s]; [destruct (send_will5 _ _ _) as [[[s1 g] ok1]|]; discriminate|].
    destruct (send_will3 _ _) as [[[s1 g] ok1]|] eqn:W; inversion E; subst. exists s. unfold send_will3 in W. destruct (z_will s) as [w|] eqn:WI.
    - destruct (enc_len3 _); [|inversion W; subst; exists (z_bcast s), (z_bcnt s); split; auto; destruct s; reflexivity].
      destruct (send_publish3 _ _ _) as [[s2 g2]|] eqn:P; [|discriminate]. apply send_publish3_frame in P. destruct P as ((bc & kk & ->) & _). inversion W; subst. exists bc, kk. split; auto; destruct s; reflexivity.
    - inversion W; subst. exists (z_bcast s'), (z_bcnt s'). split; auto. destruct s'; cbn in *; subst; reflexivity.
  Qed.

  Lemma evol_did3 c e b b' out k s s' l : bstep e b = BOk b' out -> proper (Past b e out) -> wf_glob c (glob_of b) -> b_cfg b = c -> evol b e out k (A3 s) (A3 s') ->
    srun3 hash3 c s l -> exists d, did3 k (Past b e out) d /\ srun3 hash3 c s' (l ++ d).
  Proof.
    intros ST PR WG CF V R. remember (A3 s) as a eqn:EA. remember (A3 s') as a' eqn:EA'.
    destruct V as [a ID|len x s1 s2 g o E A D PS O|len x s1 s2 g E A D PS O|reason s1 s2 p E D ED O|len x s1 s2 g o E A D PS O|len x s1 s2 g E A D PS O
      |on a a' cs [c0 m] r o E A D CH NM|d a bc n E O|s1 s2 o E A PE O|s1 s2 o E A PE O|a a' b0 b1 ok GB E SW|a E O]; try discriminate EA; try discriminate EA'.
    - rewrite EA in EA'. injection EA' as <-. exists []. rewrite app_nil_r. split; auto. apply d3_still; [|apply (step_quiet _ _ _ _ _ ST ID)|constructor].
      cbn [w_e]. unfold idle in ID. unfold passive. destruct e; auto. destruct x; auto.
    - injection EA as ->. injection EA' as ->. subst e out. eexists. split; [apply (d3_pkt k (Past b _ _) len x); reflexivity|]. cbn [w_b w_out]. rewrite pkts3_map. eapply sr3_snoc; eauto. eapply st3_pkt; eauto.
    - injection EA as ->. injection EA' as ->. subst e out. eexists. split; [apply (d3_pkt k (Past b _ _) len x); reflexivity|]. cbn [w_b w_out]. eapply sr3_snoc; eauto. eapply st3_end; eauto.
    - subst a a' e. cbn [snd normal] in NM. destruct (handle_normal3 (seconds b) m s) as [s1 res] eqn:HN.
      assert (W : waiting b (a_id (A3 s)) = (c0, m) :: r) by (unfold waiting; rewrite CH; reflexivity).
      pose proof (sr3_snoc _ _ _ _ _ _ _ R (st3_msg hash3 c s (seconds b) m s1 res HN)) as R1. cbv zeta in R1.
      destruct on.
      + destruct res as [[q pk]|].
        * destruct (qos_eqb q L0) eqn:Q.
          -- injection NM as -> <-. rewrite app_nil_r. eexists. split; [eapply (d3_msg k (Past b _ _)); eauto|]. cbn [w_b w_out]. rewrite pkts3_map. destruct pk; exact R1.
          -- pose proof (normal_none3 _ _ _ _ _ _ HN Q) as ->. destruct (pendings3 (seconds b) s1) as [s2 more] eqn:PE. injection NM as -> <-. cbn [opt_list app]. eexists. split; [eapply (d3_send k (Past b _ _)); eauto|]. cbn [w_b w_out]. rewrite pkts3_map, snoc_app. eapply sr3_snoc; [exact R1|]. constructor. auto.
        * injection NM as -> <-. eexists. split; [eapply (d3_msg k (Past b _ _)); eauto|]. exact R1.
      + assert (X : A3 s1 = A3 s' /\ out = []) by (destruct res as [[q pk]|]; injection NM as -> <-; auto). destruct X as (X & ->). injection X as ->.
        eexists. split; [eapply (d3_lost k (Past b _ _)); eauto|]. cbn [w_b]. eapply sr3_snoc; eauto. econstructor; eauto.
    - subst e out a. injection EA' as <-. exists [(USend bc n, [])]. split; [apply d3_still; [exact Logic.I|reflexivity|repeat constructor]|]. eapply sr3_snoc; eauto. constructor.
    - injection EA as ->. injection EA' as ->. subst e out. eexists. split; [apply (d3_start k (Past b _ _)); reflexivity|]. cbn [w_b w_out]. rewrite pkts3_map. eapply srun3_two; [exact R|apply (st3_set _ _ s (z_connected s) (seconds b) (z_will s))|]. constructor. rewrite <- PE. destruct s; reflexivity.
    - subst a. destruct (will_steps3 _ _ _ _ _ _ _ _ SW EA') as (s0 & bc & n & X & ->). injection X as <-. exists [(USet, []); (USend bc n, [])].
      split; [apply d3_still; [destruct E; subst e; exact Logic.I|apply (quiet_will k _ _ _ _ _ _ _ SW)|repeat constructor]|]. eapply srun3_two; [exact R|apply (st3_set _ _ s (z_connected s) (z_last s) None)|]. constructor.
    - subst e out a. injection EA' as <-. exists [(USet, [])]. split; [apply d3_still; [exact Logic.I|reflexivity|repeat constructor]|]. eapply sr3_snoc; eauto. replace (zwith_connected false s) with (zwith_connected false (zwith_last (z_last s) (zwith_will (z_will s) s))) by (destruct s; reflexivity). constructor.
  Qed.

  (** ** Whole lives *)
  Lemma run_at c h q b : brun c h b -> In q h -> exists h2 h1, h = h2 ++ q :: h1 /\ brun c h1 (w_b q).
  Proof.
    intros R I. destruct (in_split _ _ I) as (h2 & h1 & ->). exists h2, h1. split; auto. destruct (run_split _ _ _ _ _ _ _ R) as (b0 & R0 & _). inversion R0; subst. auto.
  Qed.
  Lemma run_glob c h b : brun c h b -> b_cfg b = c /\ wf_glob c (glob_of b).
  Proof. intros R. destruct (run_tables _ _ _ _ _ _ R) as (ops & hr & C & RT & _). split; auto. split; [exact C|eexists; exact RT]. Qed.

  Lemma life5_run n : forall c h b k s, (List.length h <= n)%nat -> brun c h b -> (forall p, In p h -> proper p) -> sess_at b k = Some (A5 s) -> exists l, life5 k h l /\ srun5 hash5 c s l.
  Proof.
    induction n as [|n IH]; intros c h b k s LE R PR SA.
    - destruct h; [|cbn in LE; lia]. inversion R; subst. discriminate.
    - inversion R as [|h0 b0 e b1 out R0 ST]; subst; [discriminate|]. pose proof (run_good _ _ _ _ _ _ R0) as G. destruct (run_glob _ _ _ R0) as (CF & WG). cbn in LE.
      destruct (step_evol _ _ _ _ _ _ _ G ST k _ SA) as [(a & A & V)|(x & r & o & A & E & O & J)].
      + pose proof (evol_v _ _ _ _ _ _ V) as AV. destruct a as [s0|s0]; [|discriminate].
        destruct (IH c h0 b0 k s0) as (l & L & SR); auto; [lia|intros; apply PR; right; auto|].
        destruct (evol_did5 c e b0 b out k s0 s l) as (d & D & SR'); auto; [apply PR; left; auto|]. exists (l ++ d). split; auto. apply lf5_step; auto.
      + destruct x as [cn data|s0]; cbn in J; [|destruct J as (? & ? & ? & _ & _ & X & _); discriminate].
        destruct J as (rc & s1 & ack & RC & SC & _ & X & Oo). injection X as <-. rewrite CF in SC. pose proof (conn_from _ _ _ _ _ _ _ _ R0 A) as CO. cbn in CO. subst e.
        assert (CN : exists q t0 uuid p, made_by h0 q k /\ w_e q = EConnect5 t0 uuid p data /\ cn = new_conn c uuid t0 p /\
          match r with RNew _ => True | _ => exists q2 j on a, gave_session h0 b0 q2 j on a k /\ a_v5 a = true /\ given (w_b q2) on a r end).
        { assert (Y : exists q, made_by h0 q k /\ connecting (w_b q) (w_e q) (B5 cn data) /\ match r with RNew _ => True | _ => exists q2 j on a, gave_session h0 b0 q2 j on a k /\ a_v5 a = true /\ given (w_b q2) on a r end).
          { destruct r; destruct CO as (q & Q1 & Q2 & Q3); exists q; auto; destruct Q3 as (Q3 & q2 & j & on & a & Q4 & Q5 & Q6 & Q7); repeat split; try apply Q1; auto; exists q2, j, on, a; auto. }
          destruct Y as (q & Q1 & Q2 & Q3). destruct Q2 as [(t0 & uuid & p & data' & E & _ & X)|(t0 & uuid & p & _ & _ & X)]; [|discriminate]. injection X as X1 X2. subst data'.
          exists q, t0, uuid, p. split; auto. split; auto. split; auto. destruct (run_at _ _ _ _ R0 (proj1 Q1)) as (h2 & h1 & _ & RQ). rewrite X1. rewrite (proj1 (run_glob _ _ _ RQ)). reflexivity. }
        destruct CN as (q & t0 & uuid & p & Q1 & Q2 & -> & Q3). destruct r as [c0|st|st]; inversion RC; subst rc.
        * assert (AF : afresh k out).
          { left. exists ack. rewrite <- Oo. split; [exact O|]. unfold session_connect5 in SC. cbn in SC. destruct (max_allowed_qos _); [|discriminate]. injection SC as _ <-. reflexivity. }
          exists []. split; [eapply lf5_new; eauto; reflexivity|]. constructor. eapply si_new; eauto.
        * destruct Q3 as (q2 & j & on & a & (G1 & G2 & G3 & GR & G4) & AV & GI). destruct a as [so|so]; [|discriminate]. cbn in GI. injection GI as ->.
          destruct (run_at _ _ _ _ R0 G1) as (h2 & h1 & -> & RQ). rewrite app_length in LE. cbn in LE.
          assert (SO : sess_at (w_b q2) j = Some (A5 so)) by (unfold sess_at; rewrite G3; destruct on; reflexivity).
          destruct (IH c h1 (w_b q2) j so) as (l & L & SR); auto; [lia|intros; apply PR; right; apply in_or_app; right; right; auto|].
          eexists. split; [eapply lf5_take; eauto; reflexivity|]. eapply sr_snoc; eauto. eapply st_take; eauto.
  Qed.

  Lemma take_all_run c now ms : forall s l, srun3 hash3 c s l -> srun3 hash3 c (v3_take_all now ms s) (l ++ map (fun m => (ULost now (snd m), [])) ms).
  Proof.
    induction ms as [|m ms IH]; intros s l R; cbn [map]; [rewrite app_nil_r; exact R|]. unfold v3_take_all. cbn [fold_left].
    rewrite snoc_app. apply (IH (fst (handle_normal3 now (snd m) s))). eapply sr3_snoc; eauto. destruct (handle_normal3 now (snd m) s) as [s1 r1] eqn:E. eapply st3_lost; eauto.
  Qed.

  Lemma life3_run n : forall c h b k s, (List.length h <= n)%nat -> brun c h b -> (forall p, In p h -> proper p) -> sess_at b k = Some (A3 s) -> exists l, life3 k h l /\ srun3 hash3 c s l.
  Proof.
    induction n as [|n IH]; intros c h b k s LE R PR SA.
    - destruct h; [|cbn in LE; lia]. inversion R; subst. discriminate.
    - inversion R as [|h0 b0 e b1 out R0 ST]; subst; [discriminate|]. pose proof (run_good _ _ _ _ _ _ R0) as G. destruct (run_glob _ _ _ R0) as (CF & WG). cbn in LE.
      destruct (step_evol _ _ _ _ _ _ _ G ST k _ SA) as [(a & A & V)|(x & r & o & A & E & O & J)].
      + pose proof (evol_v _ _ _ _ _ _ V) as AV. destruct a as [s0|s0]; [discriminate|].
        destruct (IH c h0 b0 k s0) as (l & L & SR); auto; [lia|intros; apply PR; right; auto|].
        destruct (evol_did3 c e b0 b out k s0 s l) as (d & D & SR'); auto; [apply PR; left; auto|]. exists (l ++ d). split; auto. apply lf3_step; auto.
      + destruct x as [cn data|s0]; cbn in J; [destruct J as (? & ? & ? & _ & _ & _ & X & _); discriminate|].
        destruct J as (rc & s1 & ack & RC & SC & X & Oo). injection X as <-. pose proof (conn_from _ _ _ _ _ _ _ _ R0 A) as CO. cbn in CO. subst e.
        assert (CN : exists q t0 uuid p, made_by h0 q k /\ w_e q = EConnect3 t0 uuid p /\ s0 = connect_sess3 (b_cfg (w_b q)) uuid t0 p /\ prepared3 c s0 /\
          match r with RNew _ => True | _ => exists q2 j on a, gave_session h0 b0 q2 j on a k /\ a_v5 a = false /\ given (w_b q2) on a r end).
        { assert (Y : exists q, made_by h0 q k /\ connecting (w_b q) (w_e q) (B3 s0) /\ match r with RNew _ => True | _ => exists q2 j on a, gave_session h0 b0 q2 j on a k /\ a_v5 a = false /\ given (w_b q2) on a r end).
          { destruct r; destruct CO as (q & Q1 & Q2 & Q3); exists q; auto; destruct Q3 as (Q3 & q2 & j & on & a & Q4 & Q5 & Q6 & Q7); repeat split; try apply Q1; auto; exists q2, j, on, a; auto. }
          destruct Y as (q & Q1 & Q2 & Q3). destruct Q2 as [(t0 & uuid & p & data' & _ & _ & X)|(t0 & uuid & p & E & _ & X)]; [discriminate|]. injection X as X1.
          exists q, t0, uuid, p. split; auto. split; auto. split; auto. destruct (run_at _ _ _ _ R0 (proj1 Q1)) as (h2 & h1 & _ & RQ). split; auto. exists uuid, t0, p. rewrite X1, (proj1 (run_glob _ _ _ RQ)). reflexivity. }
        destruct CN as (q & t0 & uuid & p & Q1 & Q2 & ES & P3 & Q3). destruct r as [c0|st|st]; inversion RC; subst rc.
        * assert (AF : afresh k out).
          { right. exists 0. cbn in SC. injection SC as _ <-. rewrite <- Oo. exact O. }
          exists []. split; [eapply lf3_new; eauto; reflexivity|]. constructor. eapply si3_new; eauto.
        * destruct Q3 as (q2 & j & on & a & (G1 & G2 & G3 & GR & G4) & AV & GI). destruct a as [so|so]; [discriminate|].
          destruct (run_at _ _ _ _ R0 G1) as (h2 & h1 & -> & RQ). rewrite app_length in LE. cbn in LE.
          assert (SO : sess_at (w_b q2) j = Some (A3 so)) by (unfold sess_at; rewrite G3; destruct on; reflexivity).
          destruct (IH c h1 (w_b q2) j so) as (l & L & SR); auto; [lia|intros; apply PR; right; apply in_or_app; right; right; auto|].
          destruct ack as [present code]. assert (code = 0) by (unfold session_connect3 in SC; destruct (_ && _); inversion SC; auto). subst code.
          assert (TK : exists so', st = snd (build_state3 so') /\ srun3 hash3 c so' (l ++ if on then [] else map (fun m => (ULost (seconds (w_b q2)) (snd m), [])) (waiting (w_b q2) (a_id (A3 so))))).
          { cbn in GI. destruct on; [injection GI as ->; exists so; rewrite app_nil_r; auto|]. destruct GI as (ch & GC & GI). injection GI as ->. eexists. split; [reflexivity|]. unfold waiting. cbn [a_id]. rewrite GC. apply take_all_run; auto. }
          destruct TK as (so' & -> & SR'). eexists. split; [eapply lf3_take with (online := on) (a := so) (present := present); eauto; cbn [w_out]; rewrite <- Oo; exact O|]. rewrite app_assoc. eapply sr3_snoc; [exact SR'|]. eapply st3_take; eauto.
  Qed.

  Lemma life5_lemma c h b k s : brun c h b -> (forall p, In p h -> proper p) -> sess_at b k = Some (A5 s) -> exists l, life5 k h l /\ srun5 hash5 c s l.
  Proof. intros. eapply life5_run; eauto. Qed.
  Lemma life3_lemma c h b k s : brun c h b -> (forall p, In p h -> proper p) -> sess_at b k = Some (A3 s) -> exists l, life3 k h l /\ srun3 hash3 c s l.
  Proof. intros. eapply life3_run; eauto. Qed.
End Life.
