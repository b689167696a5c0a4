(** Runs of the broker: when wills are published and when sessions end. *)
From Coq Require Import List Bool NArith String Lia.
From Verif Require Import Base BaseLemmas TopicModel MsgModel OutModel RouteModel RetainModel GlobModel Sess5Model Sess3Model ConnModel RegModel BrokerModel
  BrokerSpec FrameProofs CoreProofs BrokerInv TaskMove StepProofs RunProofs RegProofs TimeProofs.
Import ListNotations.
Local Open Scope N_scope.

Section Runs.
  Variables (hash5 : wpub5 -> N) (hash3 : wpub3 -> N) (pick : draw -> broker -> string -> string -> N).
  Notation bstep := (bstep hash5 hash3 pick).
  Notation brun := (brun hash5 hash3 pick).
  Notation bgo := (bgo hash5 hash3 pick).

  Lemma waits_spent a a' : waits_will a -> asame a a' -> a_expiry a' = a_expiry a -> a_will a' = a_will a -> waits_will a'.
  Proof.
    intros (s & d & -> & W) SA E1 E2. destruct a' as [s'|s']; [|destruct SA as (_ & V & _); discriminate]. exists s', d. split; auto. cbn in *.
    assert (s_will s' = s_will s) by (destruct (s_will s'), (s_will s); cbn in E2; congruence). unfold will_due in *. rewrite H, E1. auto.
  Qed.
  (** What became of the will after the end of a connection. *)
  Lemma late_will c h b k t a : brun c h b -> aget k (b_tasks b) = Some t -> t_sess t = Some a -> t_late t = true ->
    (a_quit a = true \/ a_will a = None \/ waits_will a) /\ ((exists a0, t = TOffDrain a0 true) -> a_will a = None).
  Proof.
    intros R. revert t a. induction R as [|h b e b' out R IH S]; [discriminate|]. intros t' a' A T L. pose proof (run_good _ _ _ _ _ _ R) as G.
    destruct (late_step _ _ _ _ _ _ _ _ _ _ G S A T L) as [(t & a & A0 & T0 & L0 & SA & EX & Q & W & ST)|(a & -> & A0 & -> & SA & EX & Q & W)].
    - destruct (IH _ _ A0 T0 L0) as (X & Y). split.
      + destruct W as [W|W]; auto. destruct X as [X|[X|X]]; [left; congruence|right; left; congruence|right; right; eapply waits_spent; eauto].
      + intros (a0 & ->). pose proof (step_move _ _ _ _ _ _ _ (proj1 G) S k) as M. rewrite A, A0 in M. inversion M; subst; try discriminate.
        * cbn in T, T0. destruct W as [W|W]; [rewrite W; apply Y; eauto|auto].
        * cbn in T. injection T as <-. eapply aspent_will; eauto.
        * cbn in T0, T. destruct W as [W|W]; [rewrite W; apply Y; eauto|auto].
    - split; [|intros (? & ?); discriminate]. destruct W as [(-> & [W|W])|W]; auto.
  Qed.
  (** The end of the connection is in the history. *)
  Lemma late_ended c h b k t a : brun c h b -> aget k (b_tasks b) = Some t -> t_sess t = Some a -> t_late t = true ->
    exists p a0, In p h /\ w_e p = EEnd k true /\ aget k (b_tasks (w_b p)) = Some (TEnd a0) /\ asame a0 a /\ a_expiry a = a_expiry a0 /\ (a_will a = a_will a0 \/ a_will a = None) /\
      b_now (w_b p) <= b_now b.
  Proof.
    intros R. revert t a. induction R as [|h b e b' out R IH S]; [discriminate|]. intros t' a' A T L. pose proof (run_good _ _ _ _ _ _ R) as G.
    destruct (step_now _ _ _ _ _ _ _ G S) as (NOW & _).
    destruct (late_step _ _ _ _ _ _ _ _ _ _ G S A T L) as [(t & a & A0 & T0 & L0 & SA & EX & Q & W & ST)|(a & -> & A0 & -> & SA & EX & Q & W)].
    - destruct (IH _ _ A0 T0 L0) as (p & a0 & I & E & A1 & S1 & X1 & W1 & N1). exists p, a0. split; [right; auto|]. split; auto. split; auto.
      unfold asame in *. decompose [and] SA. decompose [and] S1. repeat split; try congruence; [|lia]. destruct W as [W|W]; auto. destruct W1 as [W1|W1]; rewrite W, W1; auto.
    - exists (Past b (EEnd k true) out), a. split; [left; auto|]. split; auto. split; auto. split; auto. split; auto. split; [|exact NOW].
      destruct W as [(-> & _)|W]; auto.
  Qed.
  (** Cut a history at one of its steps. *)
  Lemma run_at c h b p : brun c h b -> In p h -> exists h1, brun c h1 (w_b p) /\ (forall q, In q h1 -> In q h) /\ exists b1, bstep (w_e p) (w_b p) = BOk b1 (w_out p) /\ exists h2, bgo b1 h2 b.
  Proof.
    intros R. induction R as [|h b e b' out R IH S]; [intros []|]. intros [<-|I]; cbn [w_b w_e w_out].
    - exists h. split; auto. split; [intros; right; auto|]. exists b'. split; auto. exists []. constructor.
    - destruct (IH I) as (h1 & R1 & SUB & b1 & S1 & h2 & G). exists h1. split; auto. split; [intros; right; auto|]. exists b1. split; auto. exists (Past b e out :: h2). econstructor; eauto.
  Qed.

  (** ** Wills *)
  (** The session ends: the will was published, unless the client said DISCONNECT. *)
  Lemma gone_who e b b' out i cid : good b -> bstep e b = BOk b' out -> known b i cid -> ~ known b' i cid ->
    exists k t a, aget k (b_tasks b) = Some t /\ t_sess t = Some a /\ a_ident a = i /\ a_id a = cid /\
      (e = EDone k /\ t = TDrain a /\ a_ends a = true \/
       e = EControl k /\ t = TOffline a /\ a_v5 a = true /\ exists ct, a_ctime a = Some ct /\ cv b cid = Some ([CExpired ct], true)).
  Proof.
    intros G S K NK. pose proof (k_idnd _ _ _ _ _ (i_core _ (proj1 G))) as ND.
    assert (RM : forall a r', reg_remove (a_id a) (b_reg b) = Some r' -> aget i (r_idents r') <> Some cid -> forall k t, aget k (b_tasks b) = Some t -> t_sess t = Some a -> (forall a, t <> TOffDrain a true) ->
      a_ident a = i /\ a_id a = cid).
    { intros a r' E N1 k t A T NO. pose proof (sess_known _ _ _ _ (proj1 G) A T NO) as KA.
      assert (EI : a_ident a = i).
      { destruct (string_dec (a_ident a) i) as [|NE]; auto. exfalso. apply N1. eapply reg_remove_keeps; eauto.
        intros o X. apply (known_iff b _ _ (proj1 G)) in KA. destruct KA as (o' & KA). congruence. }
      split; auto. rewrite EI in KA. unfold known in *. congruence. }
    destruct (step_rmove _ _ _ _ _ _ _ G S).
    - exfalso. apply NK. unfold known in *. congruence.
    - exfalso. apply NK. unfold known in *. rewrite H0. apply reg_add_keeps. auto.
    - exfalso. apply NK. apply reg_offline_next in H2. destruct H2 as (_ & E & _). unfold known in *. congruence.
    - destruct (RM _ _ H2 NK k _ H0 eq_refl) as (E1 & E2); [intros; discriminate|]. exists k, (TDrain a), a. repeat split; auto.
    - destruct (RM _ _ H4 NK k _ H0 eq_refl) as (E1 & E2); [intros; discriminate|]. exists k, (TOffline a), a. repeat split; auto. right. repeat split; auto. exists t. subst cid. auto.
    - exfalso. apply NK. unfold known in *.
      eapply reg_remove_keeps; eauto. intros o X. pose proof (k_drop _ _ _ _ _ (i_core _ (proj1 G)) k (a_v5 a) (a_ident a) (a_id a)) as D.
      rewrite (rl_of _ _ _ H0) in D. specialize (D eq_refl). congruence.
  Qed.
  Lemma expired_move e b b' out k a ct : good b -> bstep e b = BOk b' out -> e = EControl k -> aget k (b_tasks b) = Some (TOffline a) -> a_v5 a = true -> a_ctime a = Some ct ->
    cv b (a_id a) = Some ([CExpired ct], true) ->
    exists a', aget k (b_tasks b') = Some (TOffDrain a' true) /\ aspent a a' /\ wills_of k out = send_ok a /\ reg_remove (a_id a) (b_reg b) = Some (b_reg b') /\
      exists b1 b2, remove_client a' b1 = Some b2 /\ b_route b' = b_route b2.
  Proof.
    intros G S -> A V CT CV. cbn [BrokerModel.bstep] in S. unfold do_control in S. rewrite A in S. destruct (cv_inv _ _ _ _ CV) as (ms & CH). rewrite CH in S.
    destruct a as [s|s]; [|discriminate]. pose proof (i_ok _ (proj1 G) _ _ A) as (CONN & _).
    cbn [control] in S. cbn in CONN, CT. rewrite CONN, CT, N.eqb_refl in S. cbn [negb andb] in S.
    destruct (send_will pick k (A5 s) _) as [[[[a1 b1] o1] ok]|] eqn:SW; [|discriminate]. destruct (remove_client a1 b1) as [b2|] eqn:RC; [|discriminate].
    destruct (send_will_move _ _ _ _ _ _ _ _ SW) as (SP & (rt & rn & ->) & WO & _). inversion S; subst. exists a1. cbn [set_task set_tasks b_tasks]. rewrite aget_N, N.eqb_refl. split; auto. split; auto.
    split; [rewrite WO, N.eqb_refl; auto|]. split; [|exists (set_tables rt rn (set_chan (a_id (A5 s)) (Chan [] ms true) b)), b2; auto]. apply remove_reg in RC. cbn in RC |- *. destruct a1 as [s1|s1]; [|destruct SP]. cbn in *. destruct SP as (E & _). rewrite E in RC. auto.
  Qed.

  Lemma session_end_will c h b e b' out i cid : brun c h b -> bstep e b = BOk b' out -> known b i cid -> ~ known b' i cid ->
    exists k t a, aget k (b_tasks b) = Some t /\ t_sess t = Some a /\ a_ident a = i /\
      (a_quit a = true \/ ((forall w, In w (asked_will k h) -> aw_ok w = true) -> wills_in k (Past b e out :: h) = asked_will k h)).
  Proof.
    intros R S K NK. pose proof (run_good _ _ _ _ _ _ R) as G. destruct (gone_who _ _ _ _ _ _ G S K NK) as (k & t & a & A & T & EI & EC & Z).
    exists k, t, a. split; auto. split; auto. split; auto. destruct (a_quit a) eqn:Q; auto. right. intros OK. pose proof (task_num _ _ _ G A) as L.
    assert (ASK : asked_will k (Past b e out :: h) = asked_will k h).
    { unfold asked_will. cbn [flat_map]. rewrite (step_wills_lt _ _ _ _ _ _ _ _ _ _ R S L). reflexivity. }
    assert (KEPT : (wills_in k h ++ opt_list (t_will t))%list = asked_will k h).
    { eapply will_kept; eauto. unfold t_quit. rewrite T. auto. }
    destruct Z as [(-> & -> & EN)|(-> & -> & V & ct & CT & CV)].
    - destruct (late_will _ _ _ _ _ _ R A T eq_refl) as ([X|[X|(s & d & -> & X)]] & _); [congruence| |].
      + unfold wills_in in *. cbn [flat_map w_out t_will] in *. rewrite X in KEPT. cbn [opt_list] in KEPT. rewrite app_nil_r in KEPT.
        pose proof (step_move _ _ _ _ _ _ _ (proj1 G) S k) as M. rewrite A in M. rewrite KEPT. inversion M; reflexivity.
      + exfalso. cbn in EN. unfold will_due in X. destruct (s_will s); [|discriminate]. rewrite EN, orb_true_r in X. discriminate.
    - subst cid. destruct (expired_move _ _ _ _ _ _ _ G S eq_refl A V CT CV) as (a' & A' & SP & W & _).
      unfold wills_in in *. cbn [flat_map w_out t_will] in *. rewrite W. unfold send_ok. destruct (a_will a) as [w|] eqn:AW; cbn [opt_list] in KEPT.
      + rewrite OK by (rewrite <- KEPT; apply in_or_app; right; left; auto).
        destruct (will_account _ _ _ _ _ _ k R) as (LE & _). rewrite <- KEPT in LE. rewrite app_length in LE. cbn in LE. rewrite <- KEPT.
        destruct (flat_map (fun p : past => wills_of k (w_out p)) h); cbn in *; [reflexivity|lia].
      + rewrite app_nil_r in KEPT. auto.
  Qed.

  (** After another connection of the identifier is up, the will is not published. *)
  Lemma no_will_taken c h b hh b' k k' p t0 a0 t' a' : brun c h b -> bgo b hh b' -> In p h -> aget k (b_tasks (w_b p)) = Some t0 -> t_sess t0 = Some a0 ->
    aget k' (b_tasks b) = Some t' -> t_sess t' = Some a' -> t_connected t' = true -> a_ident a' = a_ident a0 -> k' <> k -> wills_in k hh = [].
  Proof.
    intros R GO I A0 T0 A' T' C' E NE. destruct (run_at _ _ _ _ R I) as (h1 & R1 & _ & b1 & S1 & h2 & GO1).
    pose proof (run_good _ _ _ _ _ _ R1) as G0. pose proof (run_good _ _ _ _ _ _ R) as G. pose proof (task_num _ _ _ G0 A0) as L.
    assert (GO0 : exists h3, bgo (w_b p) h3 b).
    { eexists. eapply go_trans; [|exact GO1]. econstructor; [constructor|exact S1]. }
    destruct GO0 as (h3 & GO0). pose proof (go_conns _ _ _ _ _ _ GO0) as LC.
    assert (W : will_at b k = None).
    { unfold will_at. destruct (go_sess _ _ _ _ _ _ _ _ _ G0 GO0 A0 T0 L) as [->|(t & a & A & T & SA)]; auto. rewrite A.
      assert (X : (exists x, t = TOffDrain x true) \/ (forall x, t <> TOffDrain x true)).
      { destruct t as [| | | | | | | |x []]; try (right; intros; discriminate). left. eauto. }
      destruct X as [(x & ->)|X].
      - cbn. destruct (late_will _ _ _ _ _ _ R A T eq_refl) as (_ & Y). cbn in T. injection T as ->. apply Y. eauto.
      - exfalso. apply NE. eapply (one_session b k' k t' t); eauto; [apply G|intros; destruct t'; discriminate|]. destruct SA as (SI & _). congruence. }
    apply (no_will_later _ _ _ _ _ _ _ G GO); auto. lia.
  Qed.

  (** At once, if there is no delay. *)
  Lemma will_at_once b k b' out a w : good b -> bstep (EEnd k true) b = BOk b' out -> aget k (b_tasks b) = Some (TEnd a) -> a_quit a = false -> a_will a = Some w -> aw_ok w = true ->
    match a with A5 s => will_due s = None | A3 _ => True end -> wills_of k out = [w].
  Proof.
    intros G S A Q W OK D. pose proof (step_move _ _ _ _ _ _ _ (proj1 G) S k) as M. 
    destruct (end_end _ _ _ _ _ _ _ _ _ G S A) as [A'|(a' & A')]; rewrite A, A' in M; inversion M; subst; try congruence;
      try (match goal with H : (if ?on then _ else _) = _ |- _ => destruct on; discriminate end).
    - match goal with H : _ \/ _ |- _ => destruct H; discriminate end.
    - match goal with H : _ \/ _ |- _ => destruct H as [(? & ? & ?)|(? & ?)]; discriminate end.
    - match goal with H : _ \/ _ |- _ => destruct H as [X|(w0 & X & Y)] end; [congruence|]. rewrite W in X. injection X as <-. congruence.
    - unfold send_ok. rewrite W, OK. reflexivity.
    - match goal with H : _ \/ _ |- _ => destruct H as [X|(s & d & -> & X)] end; congruence.
  Qed.

  (** Not before the delay has passed. *)
  Lemma will_not_before c h b e b' out k w : brun c h b -> bstep e b = BOk b' out -> In w (wills_of k out) ->
    (exists a, e = EEnd k true /\ aget k (b_tasks b) = Some (TEnd a) /\ a_will a = Some w /\ a_quit a = false /\ match a with A5 s => will_due s = None | A3 _ => True end) \/
    (exists p s w5, In p h /\ w_e p = EEnd k true /\ aget k (b_tasks (w_b p)) = Some (TEnd (A5 s)) /\ w = W5 w5 /\ s_will s = Some w5 /\
       b_now (w_b p) + N.min (opt_or (wl_delay w5) 0) (s_expiry s) * 1000 <= b_now b).
  Proof.
    intros R S W. pose proof (run_good _ _ _ _ _ _ R) as G. pose proof (run_tinv _ _ _ _ _ _ R) as TI.
    pose proof (step_move _ _ _ _ _ _ _ (proj1 G) S k) as M.
    assert (SO : forall a, In w (send_ok a) -> a_will a = Some w).
    { intros a. unfold send_ok. destruct (a_will a) as [w0|]; [|intros []]. destruct (aw_ok w0); [|intros []]. intros [<-|[]]. auto. }
    remember (wills_of k out) as ws eqn:WS. clear WS. inversion M; subst; try contradiction.
    - left. exists a. symmetry in H. auto 6.
    - right. symmetry in H. apply SO in W.
      assert (TK : token b (a_id a) (CWill t) None).
      { match goal with HH : head_ctl _ _ _ |- _ => destruct HH as (ch & q & C & Q) end. right. exists ch. split; auto. rewrite Q. left. auto. }
      destruct (t_wdue _ _ TI k _ a t (a_id a) None H eq_refl eq_refl ltac:(assumption) TK) as (p & s & dl & I & E & A & CD & WD & WW & TO). cbn in TO.
      destruct WW as [WW|WW]; [|congruence]. rewrite W in WW. destruct (s_will s) as [w5|] eqn:SW; [|discriminate]. injection WW as ->. exists p, s, w5. repeat split; auto.
      unfold will_due in WD. rewrite SW in WD. destruct (_ || _); [discriminate|]. injection WD as <-. lia.
    - right. symmetry in H. apply SO in W.
      assert (TK : token b (a_id a) (CExpired t) None).
      { match goal with HH : head_ctl _ _ _ |- _ => destruct HH as (ch & q & C & Q) end. right. exists ch. split; auto. rewrite Q. left. auto. }
      destruct (t_due _ _ TI k _ a t (a_id a) None H eq_refl eq_refl ltac:(assumption) TK) as (p & a0 & I & E & A & EX & WW & TO). cbn in TO.
      destruct WW as [WW|WW]; [|congruence]. destruct (run_at _ _ _ _ R I) as (h1 & R1 & SUB & b1 & S1 & h2 & GO1).
      destruct (late_ended _ _ _ _ _ _ R1 A eq_refl eq_refl) as (p1 & a1 & I1 & E1 & A1 & SA & EX1 & WI & NW).
      destruct WI as [WI|WI]; [|congruence]. rewrite W in WW. rewrite <- WW in WI. 
      destruct a as [s|s]; [|discriminate]. cbn in W. destruct (s_will s) as [w5|] eqn:SW0; [|discriminate]. injection W as <-.
      destruct a1 as [s1|s1]; cbn in WI; [|destruct (z_will s1); discriminate]. destruct (s_will s1) as [w5'|] eqn:SW; [|discriminate]. injection WI as ->.
      exists p1, s1, w5'. repeat split; auto. cbn in EX1, EX. lia.
  Qed.

  (** The timer of a delayed will is there as long as the will waits. *)
  Lemma will_pending c h b k t s dl ct : brun c h b -> aget k (b_tasks b) = Some t -> t_sess t = Some (A5 s) -> t_late t = true -> (forall a, t <> TOffDrain a true) ->
    s_cdisc s = false -> will_due s = Some dl -> dl < s_expiry s -> s_ctime s = Some ct -> exists d, token b (s_id s) (CWill ct) d.
  Proof.
    intros R. revert t s. induction R as [|h b e b' out R IH S]; [discriminate|]. intros t' s' A' T' L' NO CD WD LT CT. pose proof (run_good _ _ _ _ _ _ R) as G.
    destruct (late_step _ _ _ _ _ _ _ _ _ _ G S A' T' L') as [(t & a & A & T & L & SA & EX & Q & W & ST)|(a & -> & A & -> & SA & EX & Q & W)].
    - destruct SA as (E1 & E2 & E3 & E4 & E5). destruct a as [s|s]; [|discriminate]. cbn in *.
      assert (W1 : s_will s = s_will s').
      { unfold will_due in WD. destruct (s_will s') as [w|]; [|discriminate]. destruct W as [W|W]; [|discriminate]. destruct (s_will s); cbn in W; congruence. }
      assert (WD0 : will_due s = Some dl) by (unfold will_due in *; rewrite W1, <- EX; auto).
      assert (NO0 : forall a, t <> TOffDrain a true).
      { intros a X. destruct ST as (a0 & X0); eauto. eapply NO; eauto. }
      destruct (IH _ _ A T L NO0) as (d & TK); auto; try congruence.
      destruct (token_forth _ _ _ _ _ _ _ _ (CWill ct) _ k t (s_ident s) true G S TK A) as [(d' & X)|(on & a0 & -> & Y & ID & CV)].
      { destruct t as [| | | | | | | |x []]; try discriminate; cbn in T; injection T as ->; cbn; try reflexivity. exfalso. eapply NO0; reflexivity. }
      { exists d'. rewrite E3. auto. }
      exfalso. assert (t = TOffline (A5 s) /\ a0 = A5 s).
      { destruct t; try discriminate; cbn in T; injection T as ->; destruct on; try discriminate; injection Y as <-; auto. }
      destruct H as (-> & ->). pose proof (i_ok _ (proj1 G) _ _ A) as (CONN & _).
      cbn [BrokerModel.bstep] in S. unfold do_control in S. rewrite A in S. destruct (cv_inv _ _ _ _ CV) as (ms & CH). cbn [a_id] in S. rewrite CH in S.
      cbn [control] in S. cbn in CONN. rewrite CONN in S. cbn [negb andb] in S. rewrite <- E4, CT, N.eqb_refl in S.
      destruct (send_will _ _ _ _) as [[[[a1 b1] o1] ok]|] eqn:SW; [|discriminate].
      destruct (send_will_move _ _ _ _ _ _ _ _ SW) as (SP & _).
      inversion S; subst. cbn in A'. rewrite aget_N, N.eqb_refl in A'. injection A' as <-. cbn in T'. injection T' as ->.
      apply aspent_will in SP. cbn in SP. rewrite <- W1 in SP. unfold will_due in WD0. destruct (s_will s); discriminate.
    - destruct W as [(<- & [W|W])|W]; [cbn in W; congruence| |cbn in W; unfold will_due in WD; destruct (s_will s'); discriminate].
      exists (Some (b_now b + dl * 1000)). cbn [BrokerModel.bstep] in S. unfold do_end in S. rewrite A in S. cbn [negb] in S. rewrite CD, WD in S.
      apply N.ltb_lt in LT. rewrite LT in S. inversion S; subst. cbn. rewrite CT. apply in_or_app. right. left. auto.
  Qed.

  (** ** Sessions *)
  Lemma session_not_before c h b e b' out i cid : brun c h b -> bstep e b = BOk b' out -> known b i cid -> ~ known b' i cid ->
    exists k t a, aget k (b_tasks b) = Some t /\ t_sess t = Some a /\ a_ident a = i /\ a_id a = cid /\
      (e = EDone k /\ t = TDrain a /\ a_ends a = true \/
       t = TOffline a /\ a_v5 a = true /\ exists p a0, In p h /\ w_e p = EDone k /\ aget k (b_tasks (w_b p)) = Some (TDrain a0) /\ a_expiry a0 = a_expiry a /\
         b_now (w_b p) + a_expiry a * 1000 <= b_now b).
  Proof.
    intros R S K NK. pose proof (run_good _ _ _ _ _ _ R) as G. pose proof (run_tinv _ _ _ _ _ _ R) as TI.
    destruct (gone_who _ _ _ _ _ _ G S K NK) as (k & t & a & A & T & EI & EC & Z).
    exists k, t, a. split; auto. split; auto. split; auto. split; auto. destruct Z as [Z|(-> & -> & V & ct & CT & CV)]; [left; auto|right]. split; auto. split; auto.
    assert (TK : token b cid (CExpired ct) None).
    { apply token_cv. right. exists [CExpired ct], true. split; auto. left. auto. }
    destruct (t_due _ _ TI k _ a ct cid None A T eq_refl CT TK) as (p & a0 & I & E & A0 & EX & WW & TO). cbn in TO. exists p, a0. repeat split; auto. lia.
  Qed.
  Lemma ends_gone k b b' out a : good b -> bstep (EDone k) b = BOk b' out -> aget k (b_tasks b) = Some (TDrain a) -> a_ends a = true -> forall i, ~ known b' i (a_id a).
  Proof.
    intros G S A EN i. cbn [BrokerModel.bstep] in S. unfold do_done in S. rewrite A in S. destruct (a_bcast a); [|discriminate]. rewrite EN in S.
    destruct (remove_client a b) as [b1|] eqn:RC; [|discriminate]. inversion S; subst. unfold known. destruct (close_same (a_id a) (end_task k b1)) as (-> & _).
    cbn. apply remove_reg in RC. pose proof (i_core _ (proj1 G)) as K. eapply reg_remove_gone; [apply (k_idnd _ _ _ _ _ K)|apply (k_inv _ _ _ _ _ K)|exact RC].
  Qed.
  Lemma expired_gone k b b' out a ct : good b -> bstep (EControl k) b = BOk b' out -> aget k (b_tasks b) = Some (TOffline a) -> a_v5 a = true -> a_ctime a = Some ct ->
    cv b (a_id a) = Some ([CExpired ct], true) -> forall i, ~ known b' i (a_id a).
  Proof.
    intros G S A V CT CV i. destruct (expired_move _ _ _ _ _ _ _ G S eq_refl A V CT CV) as (a' & _ & _ & _ & RC & _).
    pose proof (i_core _ (proj1 G)) as K. eapply reg_remove_gone; [apply (k_idnd _ _ _ _ _ K)|apply (k_inv _ _ _ _ _ K)|exact RC].
  Qed.
End Runs.
