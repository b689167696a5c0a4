(** What the sessions of a run have received (AccSpec). *)
From Coq Require Import List Bool Arith NArith String Lia.
From Verif Require Import Base BaseLemmas TopicModel MsgModel OutModel RouteModel RetainModel GlobModel Sess5Model Sess3Model ConnModel RegModel BrokerModel
  BrokerSpec FrameProofs CoreProofs BrokerInv TaskMove StepProofs RunProofs RegProofs EvolProofs HistProofs LifeSpec TabInv RouteRun LifeProofs DelivSpec InSpec AccSpec AccProofs.
Import ListNotations.
Local Open Scope N_scope.
Local Open Scope list_scope.

Section Recv.
  Variables (hash5 : wpub5 -> N) (hash3 : wpub3 -> N) (pick : draw -> broker -> string -> string -> N).
  Notation bstep := (bstep hash5 hash3 pick).
  Notation brun := (brun hash5 hash3 pick).
  Notation evol := (evol hash5 hash3 pick).

  Lemma sess_owns b k a : sess_at b k = Some a -> exists v i d, rl b k = Some (Owns v i (a_id a) d).
  Proof. unfold sess_at, rl. destruct (aget k (b_tasks b)) as [t|]; [|discriminate]. destruct t; cbn; try discriminate; intros E; injection E as ->; eauto. Qed.

  (** A client's messages are taken by the one that has its session. *)
  Lemma taken_own b e out k d v i f : good b -> rl b k = Some (Owns v i d f) ->
    taken d (Past b e out) = [] \/ (e = ENormal k /\ exists a, sess_at b k = Some a /\ a_id a = d) \/
    (e = EControl k /\ exists s j r ms o, aget k (b_tasks b) = Some (TOffline (A3 s)) /\ z_id s = d /\ aget d (b_chans b) = Some (Chan (COnline3 j :: r) ms o)).
  Proof.
    intros [I P] O. pose proof (i_core _ I) as K. unfold taken. cbn [w_e w_b]. destruct e as [| | | | | | | | | |j|j| | | | |]; auto.
    - destruct (aget j (b_tasks b)) as [[x c|x c|x r|a|a|a|a|[s|s]|a st]|] eqn:A; auto. destruct (aget d (b_chans b)) as [[[|m cs] ms o]|] eqn:C; auto. destruct m; auto.
      destruct (N.eqb_spec (z_id s) d) as [E|]; auto. assert (j = k).
      { destruct (sess_owns b j (A3 s)) as (v' & i' & d' & O'); [unfold sess_at; rewrite A; reflexivity|]. cbn in O'. rewrite E in O'. eapply (k_one _ _ _ _ _ K); eauto. }
      subst j. right. right. split; auto. exists s, k0, cs, ms, o. auto.
    - destruct (sess_at b j) as [a|] eqn:A; auto. destruct (N.eqb_spec (a_id a) d) as [E|]; auto. destruct (sess_owns _ _ _ A) as (v' & i' & d' & O'). rewrite E in O'.
      assert (j = k) by (eapply (k_one _ _ _ _ _ K); eauto). subst j. right. left. eauto.
  Qed.
  (** Nothing was taken by a client that there has never been. *)
  Lemma taken_none c h b (d : client_id) : brun c h b -> r_next (b_reg b) <= d -> taken_in d h = [].
  Proof.
    induction 1 as [|h b e b' out R IH S]; [reflexivity|]. intros L. pose proof (run_good _ _ _ _ _ _ R) as G. pose proof (step_next _ _ _ _ _ _ _ G S) as L'. cbn [taken_in]. rewrite IH by lia.
    pose proof G as [I P]. pose proof (i_core _ I) as K.
    assert (NO : forall k a, sess_at b k = Some a -> a_id a <> d).
    { intros k a A E. destruct (sess_owns _ _ _ A) as (v & i & f & O). pose proof (k_own _ _ _ _ _ K _ _ _ _ _ O). lia. }
    unfold taken. cbn [w_e w_b app]. destruct e as [| | | | | | | | | |j|j| | | | |]; auto.
    - destruct (aget j (b_tasks b)) as [[x y|x y|x r|a|a|a|a|[s|s]|a st]|] eqn:A; auto. destruct (aget d (b_chans b)) as [[[|[] cs] ms o]|] eqn:C; auto.
      destruct (N.eqb_spec (z_id s) d) as [E|]; auto. destruct (NO j (A3 s)); [unfold sess_at; rewrite A; reflexivity|exact E].
    - destruct (sess_at b j) as [a|] eqn:A; auto. destruct (N.eqb_spec (a_id a) d) as [E|]; auto. destruct (NO j a A E).
  Qed.
  Lemma sess_id_step e b b' out k a a' : good b -> bstep e b = BOk b' out -> sess_at b k = Some a -> sess_at b' k = Some a' -> a_id a' = a_id a.
  Proof.
    intros G S A A'. pose proof G as [I P]. pose proof (step_move _ _ _ _ _ _ _ I S k) as M. unfold sess_at in A, A'.
    destruct (aget k (b_tasks b)) as [t|]; [|discriminate]. destruct (aget k (b_tasks b')) as [t'|]; [|discriminate].
    assert (OF : forall x, a_id (a_offline x) = a_id x) by (intros [s|s]; reflexivity).
    inversion M; subst; cbn in A, A'; try discriminate; try (rewrite A in A'; injection A' as <-; reflexivity); injection A as <-; injection A' as <-; auto;
      try match goal with H : akept _ _ |- _ => apply akept_facts in H; apply H end; try match goal with H : aspent _ _ |- _ => apply aspent_facts in H; apply H end.
  Qed.
  (** A session that is handed over leaves its connection. *)
  Lemma handed_gone k s j r ms o b b' out : bstep (EControl k) b = BOk b' out -> aget k (b_tasks b) = Some (TOffline (A3 s)) ->
    aget (z_id s) (b_chans b) = Some (Chan (COnline3 j :: r) ms o) -> NoDup (keys (b_tasks b)) -> sess_at b' k = None.
  Proof.
    cbn [BrokerModel.bstep]. unfold do_control. intros S A C ND. rewrite A in S. cbn [a_id] in S. rewrite C in S. unfold control in S. destruct (aget j (b_tasks _)) as [[]|]; try discriminate.
    destruct (aget (z_id s) _); [|discriminate]. unfold hand_over in S. injection S as <- <-. unfold sess_at. cbn [set_task end_task set_tasks set_chan set_chans b_tasks]. rewrite aget_N.
    destruct (N.eqb_spec k j); [reflexivity|]. rewrite adel_N, N.eqb_refl by auto. reflexivity.
  Qed.

  Lemma still5_heard l : Forall still5 l -> heard5 l = [].
  Proof. induction 1 as [|[e o] l H _ IH]; [reflexivity|]. cbn. unfold heard5 in IH. rewrite IH. destruct e; cbn in H; try contradiction; reflexivity. Qed.
  Lemma still3_heard l : Forall still3 l -> heard3 l = [].
  Proof. induction 1 as [|[e o] l H _ IH]; [reflexivity|]. cbn. unfold heard3 in IH. rewrite IH. destruct e; cbn in H; try contradiction; reflexivity. Qed.

  Lemma did5_heard b e b' out k s s' d : good b -> bstep e b = BOk b' out -> sess_at b k = Some (A5 s) -> sess_at b' k = Some (A5 s') -> did5 k (Past b e out) d -> heard5 d = map snd (taken (s_id s) (Past b e out)).
  Proof.
    intros G S A A' D. destruct (sess_owns _ _ _ A) as (v & i & f & O). cbn [a_id] in O. pose proof (taken_own b e out k _ _ _ _ G O) as T.
    assert (MSG : forall a c m r, e = ENormal k -> (aget k (b_tasks b) = Some (TOnline a) \/ aget k (b_tasks b) = Some (TOffline a)) -> waiting b (a_id a) = (c, m) :: r -> map snd (taken (s_id s) (Past b e out)) = [m]).
    { intros a c m r -> B W. unfold taken. cbn [w_e w_b]. rewrite A. assert (E : a = A5 s) by (unfold sess_at in A; destruct B as [B|B]; rewrite B in A; injection A as ->; auto). rewrite E in W. cbn [a_id] in *. rewrite N.eqb_refl, W. reflexivity. }
    destruct D as [len x E|reason E|a c m r E B W|a c m r E B W|a c m r E B W P|E|l PA P ST]; cbn [w_e w_b w_out] in *.
    - subst e. reflexivity.
    - subst e. reflexivity.
    - rewrite (MSG _ _ _ _ E (or_introl B) W). reflexivity.
    - rewrite (MSG _ _ _ _ E (or_introl B) W). reflexivity.
    - rewrite (MSG _ _ _ _ E (or_intror B) W). reflexivity.
    - subst e. reflexivity.
    - rewrite (still5_heard _ ST). destruct T as [T|[(E & _)|(E & s0 & j & r & ms & o & B & _)]].
      + now rewrite T.
      + subst e. cbn in PA. contradiction.
      + unfold sess_at in A. rewrite B in A. discriminate.
  Qed.
  Lemma did3_heard b e b' out k s s' d : good b -> bstep e b = BOk b' out -> sess_at b k = Some (A3 s) -> sess_at b' k = Some (A3 s') -> did3 k (Past b e out) d -> heard3 d = map snd (taken (z_id s) (Past b e out)).
  Proof.
    intros G S A A' D. destruct (sess_owns _ _ _ A) as (v & i & f & O). cbn [a_id] in O. pose proof (taken_own b e out k _ _ _ _ G O) as T.
    assert (MSG : forall a c m r, e = ENormal k -> (aget k (b_tasks b) = Some (TOnline a) \/ aget k (b_tasks b) = Some (TOffline a)) -> waiting b (a_id a) = (c, m) :: r -> map snd (taken (z_id s) (Past b e out)) = [m]).
    { intros a c m r -> B W. unfold taken. cbn [w_e w_b]. rewrite A. assert (E : a = A3 s) by (unfold sess_at in A; destruct B as [B|B]; rewrite B in A; injection A as ->; auto). rewrite E in W. cbn [a_id] in *. rewrite N.eqb_refl, W. reflexivity. }
    destruct D as [len x E|a c m r E B W|a c m r E B W|a c m r E B W P|E|l PA P ST]; cbn [w_e w_b w_out] in *.
    - subst e. reflexivity.
    - rewrite (MSG _ _ _ _ E (or_introl B) W). reflexivity.
    - rewrite (MSG _ _ _ _ E (or_introl B) W). reflexivity.
    - rewrite (MSG _ _ _ _ E (or_intror B) W). reflexivity.
    - subst e. reflexivity.
    - rewrite (still3_heard _ ST). destruct T as [T|[(E & _)|(E & s0 & j & r & ms & o & B & Z & C)]].
      + now rewrite T.
      + subst e. cbn in PA. contradiction.
      + subst e. exfalso. destruct G as [I _]. rewrite <- Z in C. rewrite (handed_gone _ _ _ _ _ _ _ _ _ S B C (i_tnd _ I)) in A'. discriminate.
  Qed.
  Lemma heard5_app l m : heard5 (l ++ m) = heard5 l ++ heard5 m.
  Proof. apply flat_map_app. Qed.
  Lemma heard3_app l m : heard3 (l ++ m) = heard3 l ++ heard3 m.
  Proof. apply flat_map_app. Qed.
  Lemma heard3_lost now (ms : list (client_id * nmsg)) : heard3 (map (fun m => (ULost now (snd m), [])) ms) = map snd ms.
  Proof. induction ms as [|m ms IH]; [reflexivity|]. cbn. unfold heard3 in IH. now rewrite IH. Qed.

  (** What is known of a session on its way to connection [k]. *)
  Definition told (c : config) (h : list past) (k : N) (r : receipt) : Prop :=
    match r with
    | RNew d => taken_in d h = []
    | ROld5 st => exists h2 q h1 j (on : bool) so l, h = h2 ++ q :: h1 /\ w_e q = EControl j /\ life5 j h1 l /\
        aget j (b_tasks (w_b q)) = Some (if on then TOnline (A5 so) else TOffline (A5 so)) /\ requested (w_b q) (A5 so) k /\
        st = snd (build_state5 so) /\ srun5 hash5 c so l /\ heard5 l = map snd (taken_in (st_id st) h)
    | ROld3 st => exists h2 q h1 j (on : bool) so so' l, h = h2 ++ q :: h1 /\ w_e q = EControl j /\ life3 j h1 l /\
        aget j (b_tasks (w_b q)) = Some (if on then TOnline (A3 so) else TOffline (A3 so)) /\ requested (w_b q) (A3 so) k /\
        let l' := l ++ if on then [] else map (fun m => (ULost (seconds (w_b q)) (snd m), [])) (waiting (w_b q) (z_id so)) in
        st = snd (build_state3 so') /\ srun3 hash3 c so' l' /\ heard3 l' = map snd (taken_in (st3_id st) h)
    end.
  Definition got (c : config) (h : list past) (b : broker) : Prop :=
    (forall k s, sess_at b k = Some (A5 s) -> exists l, life5 k h l /\ srun5 hash5 c s l /\ heard5 l = map snd (taken_in (s_id s) h)) /\
    (forall k s, sess_at b k = Some (A3 s) -> exists l, life3 k h l /\ srun3 hash3 c s l /\ heard3 l = map snd (taken_in (z_id s) h)) /\
    (forall k x r, aget k (b_tasks b) = Some (TJoin x r) -> told c h k r).

  (** While a session is on its way nothing is taken from its client's messages. *)
  Lemma told_quiet c h k r p : taken (rc_id r) p = [] -> told c h k r -> told c (p :: h) k r.
  Proof.
    intros Q T. destruct r as [d|st|st]; cbn [told rc_id] in *.
    - cbn [taken_in]. now rewrite T, Q.
    - destruct T as (h2 & q & h1 & j & on & so & l & -> & T). exists (p :: h2), q, h1, j, on, so, l. cbn [taken_in app]. rewrite Q, app_nil_r. tauto.
    - destruct T as (h2 & q & h1 & j & on & so & so' & l & -> & T). exists (p :: h2), q, h1, j, on, so, so', l. cbn [taken_in app]. rewrite Q, app_nil_r. tauto.
  Qed.
  Lemma joined_idr c h b k x r a o : brun c h b -> aget k (b_tasks b) = Some (TJoin x r) -> joined b x r a o k -> a_id a = rc_id r.
  Proof. intros R A J. apply (joined_subs _ _ _ _ _ _ J). eapply pre_subs_nil; eauto. Qed.

  Lemma got_lemma c h b : brun c h b -> (forall p, In p h -> proper p) -> got c h b.
  Proof.
    induction 1 as [|h b e b' out R IH S]; [intros _; repeat split; discriminate|]. intros PR.
    assert (IH' : got c h b) by (apply IH; intros; apply PR; right; auto). clear IH. destruct IH' as (IH5 & IH3 & IHJ).
    pose proof (run_good _ _ _ _ _ _ R) as G. destruct (run_glob _ _ _ _ _ _ R) as (CF & WG). pose proof (PR _ (or_introl eq_refl)) as PP. pose proof G as [I P].
    split; [|split].
    - intros k s SA. destruct (step_evol _ _ _ _ _ _ _ G S k _ SA) as [(a & A & V)|(x & r & o & A & E & O & J)].
      + pose proof (evol_v _ _ _ _ _ _ _ _ _ V) as AV. destruct a as [s0|s0]; [|discriminate]. destruct (IH5 _ _ A) as (l & L & SR & H).
        destruct (evol_did5 hash5 hash3 pick c e b b' out k s0 s l) as (d & D & SR'); auto. exists (l ++ d). split; [apply lf5_step; auto|]. split; auto.
        pose proof (sess_id_step _ _ _ _ _ _ _ G S A SA) as ID. cbn [a_id] in ID. rewrite ID. cbn [taken_in]. rewrite heard5_app, map_app, H. f_equal. eapply did5_heard; eauto.
      + pose proof (joined_idr _ _ _ _ _ _ _ _ R A J) as ID. cbn [a_id] in ID. pose proof (IHJ _ _ _ A) as T. pose proof (conn_from _ _ _ _ _ _ _ _ R A) as CO. cbn [conn_ok] in CO. subst e.
        destruct x as [cn data|s0]; cbn in J; [|destruct J as (? & ? & ? & _ & _ & X & _); discriminate].
        destruct J as (rc & s1 & ack & RC & SC & _ & X & Oo). injection X as <-. rewrite CF in SC.
        assert (CN : exists q t0 uuid p, made_by h q k /\ w_e q = EConnect5 t0 uuid p data /\ cn = new_conn c uuid t0 p).
        { assert (Y : exists q, made_by h q k /\ connecting (w_b q) (w_e q) (B5 cn data)) by (destruct r; destruct CO as (q & Q1 & Q2 & _); exists q; auto).
          destruct Y as (q & Q1 & Q2). destruct Q2 as [(t0 & uuid & p & data' & E & _ & X)|(t0 & uuid & p & _ & _ & X)]; [|discriminate]. injection X as X1 X2. subst data'.
          exists q, t0, uuid, p. split; auto. split; auto. destruct (run_at _ _ _ _ _ _ _ R (proj1 Q1)) as (h2 & h1 & _ & RQ). rewrite X1. rewrite (proj1 (run_glob _ _ _ _ _ _ RQ)). reflexivity. }
        destruct CN as (q & t0 & uuid & p & Q1 & Q2 & ->). destruct r as [c0|st|st]; inversion RC; subst rc; cbn [told rc_id] in *.
        * assert (AF : afresh k out).
          { left. exists ack. rewrite <- Oo. split; [exact O|]. unfold session_connect5 in SC. cbn in SC. destruct (max_allowed_qos _); [|discriminate]. injection SC as _ <-. reflexivity. }
          exists []. split; [eapply lf5_new; eauto; reflexivity|]. split; [constructor; eapply si_new; eauto|]. rewrite ID. cbn [taken_in taken w_e]. rewrite T. reflexivity.
        * destruct T as (h2 & q2 & h1 & j & on & so & l & -> & G2 & L & G3 & GR & -> & SR & H).
          eexists. split; [eapply lf5_take; eauto; reflexivity|]. split; [eapply sr_snoc; eauto; eapply st_take; eauto|]. rewrite ID. cbn [taken_in taken w_e]. rewrite heard5_app, app_nil_r, H. cbn. now rewrite app_nil_r.
    - intros k s SA. destruct (step_evol _ _ _ _ _ _ _ G S k _ SA) as [(a & A & V)|(x & r & o & A & E & O & J)].
      + pose proof (evol_v _ _ _ _ _ _ _ _ _ V) as AV. destruct a as [s0|s0]; [discriminate|]. destruct (IH3 _ _ A) as (l & L & SR & H).
        destruct (evol_did3 hash5 hash3 pick c e b b' out k s0 s l) as (d & D & SR'); auto. exists (l ++ d). split; [apply lf3_step; auto|]. split; auto.
        pose proof (sess_id_step _ _ _ _ _ _ _ G S A SA) as ID. cbn [a_id] in ID. rewrite ID. cbn [taken_in]. rewrite heard3_app, map_app, H. f_equal. eapply did3_heard; eauto.
      + pose proof (joined_idr _ _ _ _ _ _ _ _ R A J) as ID. cbn [a_id] in ID. pose proof (IHJ _ _ _ A) as T. pose proof (conn_from _ _ _ _ _ _ _ _ R A) as CO. cbn [conn_ok] in CO. subst e.
        destruct x as [cn data|s0]; cbn in J; [destruct J as (? & ? & ? & _ & _ & _ & X & _); discriminate|].
        destruct J as (rc & s1 & ack & RC & SC & X & Oo). injection X as <-.
        assert (CN : exists q t0 uuid p, made_by h q k /\ w_e q = EConnect3 t0 uuid p /\ s0 = connect_sess3 (b_cfg (w_b q)) uuid t0 p /\ prepared3 c s0).
        { assert (Y : exists q, made_by h q k /\ connecting (w_b q) (w_e q) (B3 s0)) by (destruct r; destruct CO as (q & Q1 & Q2 & _); exists q; auto).
          destruct Y as (q & Q1 & Q2). destruct Q2 as [(t0 & uuid & p & data' & _ & _ & X)|(t0 & uuid & p & E & _ & X)]; [discriminate|]. injection X as X1.
          exists q, t0, uuid, p. split; auto. split; auto. split; auto. destruct (run_at _ _ _ _ _ _ _ R (proj1 Q1)) as (h2 & h1 & _ & RQ). exists uuid, t0, p. rewrite X1, (proj1 (run_glob _ _ _ _ _ _ RQ)). reflexivity. }
        destruct CN as (q & t0 & uuid & p & Q1 & Q2 & ES & P3). destruct r as [c0|st|st]; inversion RC; subst rc; cbn [told rc_id] in *.
        * assert (AF : afresh k out).
          { right. exists 0. cbn in SC. injection SC as _ <-. rewrite <- Oo. exact O. }
          exists []. split; [eapply lf3_new; eauto; reflexivity|]. split; [constructor; eapply si3_new; eauto|]. rewrite ID. cbn [taken_in taken w_e]. rewrite T. reflexivity.
        * destruct T as (h2 & q2 & h1 & j & on & so & so' & l & -> & G2 & L & G3 & GR & -> & SR & H).
          destruct ack as [present code]. assert (code = 0) by (unfold session_connect3 in SC; destruct (_ && _); inversion SC; auto). subst code.
          eexists. split; [eapply lf3_take with (online := on) (a := so) (present := present); eauto; cbn [w_out]; rewrite <- Oo; exact O|]. rewrite app_assoc.
          split; [eapply sr3_snoc; [exact SR|]; eapply st3_take; eauto|]. rewrite ID. cbn [taken_in taken w_e]. rewrite heard3_app, app_nil_r, H. cbn. now rewrite app_nil_r.
    - intros k x r A'. pose proof (step_move _ _ _ _ _ _ _ I S k) as M. rewrite A' in M. remember (aget k (b_tasks b)) as ot eqn:A. remember (Some (TJoin x r)) as ot' eqn:E'. remember (wills_of k out) as w eqn:EW. symmetry in A.
      destruct M as [o0|x0 c0 J0 CN KN|x0 c0 J0 CN KN NX| | |x0 c0 k0 on a r0 E B ID V5 HC GI| | | | | | | | | | | | | | | | | | | | | ]; try discriminate E'.
      + rewrite E' in A. apply told_quiet; [|eapply IHJ; exact A].
        assert (O : rl b k = Some (Owns (p_v5 x) (p_ident x) (rc_id r) false)) by (unfold rl; rewrite A; reflexivity).
        destruct (taken_own b e out k _ _ _ _ G O) as [T|[(_ & a & B & _)|(_ & s0 & j & q & ms & o & B & _)]]; [exact T| |]; unfold sess_at in *; rewrite A in B; discriminate.
      + injection E' as <- <-. cbn [told]. cbn [taken_in]. rewrite (taken_none _ _ _ _ R) by lia. destruct CN as [(t0 & uuid & p & data & -> & _)|(t0 & uuid & p & -> & _)]; reflexivity.
      + injection E' as <- <-. subst e. assert (SA : sess_at b k0 = Some a) by (unfold sess_at; rewrite B; destruct on; reflexivity).
        destruct HC as (ch & q & C1 & C2). assert (RQ : requested b a k) by (exists ch, q; rewrite ID; destruct (a_v5 a); auto).
        destruct a as [so|so]; cbn [given] in GI.
        * subst r0. cbn [told]. destruct (IH5 _ _ SA) as (l & L & SR & H). exists [], (Past b (EControl k0) out), h, k0, on, so, l. repeat split; auto.
          rewrite H. cbn [taken_in]. unfold taken. cbn [w_e w_b]. rewrite B. destruct on; [now rewrite app_nil_r|]. now rewrite app_nil_r.
        * destruct (IH3 _ _ SA) as (l & L & SR & H). cbn [a_id a_v5 online_msg] in *. destruct on.
          -- subst r0. cbn [told]. exists [], (Past b (EControl k0) out), h, k0, true, so, so, l. split; [reflexivity|]. split; auto. split; auto. split; auto. split; auto. cbn zeta. split; [reflexivity|].
             rewrite (app_nil_r l). split; auto. rewrite H. cbn [taken_in]. unfold taken. cbn [w_e w_b]. rewrite B, app_nil_r. reflexivity.
          -- destruct GI as (ch' & GC & ->). cbn [told]. eexists [], (Past b (EControl k0) out), h, k0, false, so, _, l. split; [reflexivity|]. split; auto. split; auto. split; auto. split; auto. cbn zeta. split; [reflexivity|].
             cbn [w_b]. split; [unfold waiting; rewrite GC; apply take_all_run; auto|]. rewrite heard3_app, heard3_lost, H.
             assert (Z : st3_id (snd (build_state3 (v3_take_all (seconds b) (ch_norm ch') so))) = z_id so) by (cbn; apply take_all_subs). rewrite Z. cbn [taken_in]. rewrite map_app. f_equal.
             unfold taken. cbn [w_e w_b]. rewrite B, GC. subst c0. rewrite GC in C1. injection C1 as <-. destruct ch' as [cs ms op]. cbn in C2. subst cs. rewrite N.eqb_refl. unfold waiting. rewrite GC. reflexivity.
  Qed.

  (** ** Messages from one client to another *)
  Lemma recv5_lemma c h b k s : brun c h b -> (forall p, In p h -> proper p) -> sess_at b k = Some (A5 s) ->
    exists l, life5 k h l /\ srun5 hash5 c s l /\ heard5 l = map snd (taken_in (s_id s) h).
  Proof. intros R P. apply (got_lemma _ _ _ R P). Qed.
  Lemma recv3_lemma c h b k s : brun c h b -> (forall p, In p h -> proper p) -> sess_at b k = Some (A3 s) ->
    exists l, life3 k h l /\ srun3 hash3 c s l /\ heard3 l = map snd (taken_in (z_id s) h).
  Proof. intros R P. apply (got_lemma _ _ _ R P). Qed.
  Lemma arrived5 c h b k s : brun c h b -> (forall p, In p h -> proper p) -> sess_at b k = Some (A5 s) ->
    exists l, life5 k h l /\ srun5 hash5 c s l /\ map (fun x => snd (snd x)) (passed_in (s_id s) h) = heard5 l ++ map snd (waiting b (s_id s)).
  Proof.
    intros R P A. destruct (recv5_lemma _ _ _ _ _ R P A) as (l & L & SR & H). exists l. split; auto. split; auto. rewrite H, <- map_app, <- (channel_lemma _ _ _ _ _ _ _ R), map_map. reflexivity.
  Qed.
  Lemma arrived3 c h b k s : brun c h b -> (forall p, In p h -> proper p) -> sess_at b k = Some (A3 s) ->
    exists l, life3 k h l /\ srun3 hash3 c s l /\ map (fun x => snd (snd x)) (passed_in (z_id s) h) = heard3 l ++ map snd (waiting b (z_id s)).
  Proof.
    intros R P A. destruct (recv3_lemma _ _ _ _ _ R P A) as (l & L & SR & H). exists l. split; auto. split; auto. rewrite H, <- map_app, <- (channel_lemma _ _ _ _ _ _ _ R), map_map. reflexivity.
  Qed.
  (** A connection that ends in good order has passed on everything. *)
  Lemma done_lemma c h b k b' out d : brun c h b -> bstep (EDone k) b = BOk b' out -> (forall p, In p h -> ~ cut_off k d p) ->
    queued_in k d h b = passed_by k (passed_in d h).
  Proof.
    intros R S NC. assert (A : exists a, sess_at b k = Some a /\ a_bcast a = []).
    { cbn [BrokerModel.bstep] in S. unfold do_done in S. unfold sess_at. destruct (aget k (b_tasks b)) as [[| | | | | |a| |a st]|]; try discriminate; destruct (a_bcast a) eqn:B; try discriminate; exists a; auto. }
    destruct A as (a & A & B). rewrite (sender_lemma _ _ _ _ _ _ _ _ d R A NC), B. cbn. apply app_nil_r.
  Qed.
  (** The number a session keeps of the messages it has queued. *)
  Lemma total_concat (b : bcast) : OnlineModel.total b = N.of_nat (List.length (List.concat (map snd b))).
  Proof. induction b as [|[d l] b IH]; [reflexivity|]. cbn [OnlineModel.total fold_right snd map List.concat]. fold (OnlineModel.total b). rewrite IH, app_length. lia. Qed.
  Lemma count_lemma c h b k a : brun c h b -> sess_at b k = Some a -> a_bcnt a = N.of_nat (List.length (List.concat (map snd (a_bcast a)))).
  Proof. intros R A. rewrite <- total_concat. apply (run_bc _ _ _ _ _ _ _ _ R A). Qed.
  (** What a connection had not passed on when its session went to another connection is lost. *)
  Lemma gone_lemma b h b' k d : good b -> bgo hash5 hash3 pick b h b' -> k < b_conns b -> aget k (b_tasks b) = None -> aget k (b_tasks b') = None /\ passed_by k (passed_in d h) = [].
  Proof.
    intros G R L A. assert (X : good b' /\ k < b_conns b' /\ aget k (b_tasks b') = None /\ passed_by k (passed_in d h) = []); [|tauto].
    induction R as [b|b h b1 e b2 out R IH S]; [auto|]. destruct (IH G L A) as (G1 & L1 & A1 & P1). pose proof G1 as [I1 _].
    split; [eapply good_step; eauto|]. pose proof (step_conns _ _ _ _ _ _ _ S) as C. split; [lia|]. split.
    - pose proof (step_move _ _ _ _ _ _ _ I1 S k) as M. rewrite A1 in M. inversion M; subst; auto; lia.
    - cbn [passed_in]. unfold passed_by in *. rewrite flat_map_app, P1. apply passed_other. intros d' X. cbn in X. subst e. cbn [BrokerModel.bstep] in S. unfold do_flush in S. rewrite A1 in S. discriminate.
  Qed.
  Lemma passed_in_app d h2 h : passed_in d (h2 ++ h) = passed_in d h ++ passed_in d h2.
  Proof. induction h2 as [|p h2 IH]; cbn; [now rewrite app_nil_r|]. now rewrite IH, app_assoc. Qed.
  Lemma lost_lemma c h b k d : brun c h b -> (k <? b_conns b) = true -> aget k (b_tasks b) = None -> passed_by k (passed_in d h) = [] ->
    forall h2 b2, bgo hash5 hash3 pick b h2 b2 -> passed_by k (passed_in d (h2 ++ h)) = [].
  Proof.
    intros R L A P h2 b2 B. apply N.ltb_lt in L. rewrite passed_in_app. unfold passed_by in *. rewrite flat_map_app, P. apply (gone_lemma _ _ _ _ d (run_good _ _ _ _ _ _ R) B L A).
  Qed.
End Recv.
