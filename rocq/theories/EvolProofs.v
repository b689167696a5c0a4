(** How one step changes the session of one connection. *)
From Coq Require Import List Bool NArith String Lia.
From Verif Require Import Base BaseLemmas TopicModel MsgModel OutModel RouteModel RetainModel GlobModel Sess5Model Sess3Model ConnModel RegModel BrokerModel
  BrokerSpec FrameProofs CoreProofs BrokerInv TaskMove StepProofs RunProofs RegProofs TimeProofs WillProofs KeepProofs.
Import ListNotations.
Local Open Scope N_scope.

Section Evol.
  Variables (hash5 : wpub5 -> N) (hash3 : wpub3 -> N) (pick : draw -> broker -> string -> string -> N).
  Notation bstep := (bstep hash5 hash3 pick).
  Notation brun := (brun hash5 hash3 pick).
  Notation bgo := (bgo hash5 hash3 pick).

  (** The step is not a packet, message or start of connection [k]. *)
  Definition idle (k : N) (e : bev) : Prop :=
    match e with EPacket5 j _ _ | EPacket3 j _ _ | EMalformed j _ | ENormal j | EStart j => j <> k | _ => True end.

  (** The session [a] of connection [k] becomes [a']. *)
  Inductive evol (b : broker) (e : bev) (out : list bout) (k : N) : sess -> sess -> Prop :=
  | ev_same a : idle k e -> evol b e out k a a
  | ev_pkt5 len x s s' g o : e = EPacket5 k len x -> aget k (b_tasks b) = Some (TOnline (A5 s)) -> is_disconnected5 s = false ->
      packet_step5 hash5 (pick (DPacket k x) b) (seconds b) len x s (glob_of b) = Go s' g o -> out = map (OPkt5 k) o -> evol b e out k (A5 s) (A5 s')
  | ev_stop5 len x s s' g : e = EPacket5 k len x -> aget k (b_tasks b) = Some (TOnline (A5 s)) -> is_disconnected5 s = false ->
      packet_step5 hash5 (pick (DPacket k x) b) (seconds b) len x s (glob_of b) = Stop s' g -> out = [] -> evol b e out k (A5 s) (A5 s')
  | ev_bad5 reason s s' p : e = EMalformed k reason -> is_disconnected5 s = false -> error_disconnect RC_malformed reason s = (s', p) -> out = [OPkt5 k p] -> evol b e out k (A5 s) (A5 s')
  | ev_pkt3 len x s s' g o : e = EPacket3 k len x -> aget k (b_tasks b) = Some (TOnline (A3 s)) -> z_disc s = false ->
      packet_step3 hash3 (seconds b) len x s (glob_of b) = Go3 s' g o -> out = map (OPkt3 k) o -> evol b e out k (A3 s) (A3 s')
  | ev_stop3 len x s s' g : e = EPacket3 k len x -> aget k (b_tasks b) = Some (TOnline (A3 s)) -> z_disc s = false ->
      packet_step3 hash3 (seconds b) len x s (glob_of b) = Stop3 s' g -> out = [] -> evol b e out k (A3 s) (A3 s')
  | ev_msg (on : bool) a a' cs m r o : e = ENormal k -> aget k (b_tasks b) = Some (if on then TOnline a else TOffline a) -> (on = true -> a_disc a = false) ->
      aget (a_id a) (b_chans b) = Some (Chan cs (m :: r) o) ->
      normal (seconds b) (b_cfg b) k on (snd m) a = (a', out) -> evol b e out k a a'
  | ev_flush d a bc n : e = EFlush k d -> out = [] -> evol b e out k a (a_set_bcast bc n a)
  | ev_start5 s s' o : e = EStart k -> aget k (b_tasks b) = Some (TReady (A5 s)) -> pendings5 (seconds b) (with_last (seconds b) s) = (s', o) -> out = map (OPkt5 k) o -> evol b e out k (A5 s) (A5 s')
  | ev_start3 s s' o : e = EStart k -> aget k (b_tasks b) = Some (TReady (A3 s)) -> after_packet3 (seconds b) s = (s', o) -> out = map (OPkt3 k) o -> evol b e out k (A3 s) (A3 s')
  | ev_will a a' b0 b1 ok : glob_of b0 = glob_of b -> e = EEnd k true \/ e = EControl k -> send_will pick k a b0 = Some (a', b1, out, ok) -> evol b e out k a a'
  | ev_off a : e = EDone k -> out = [] -> evol b e out k a (a_offline a).


  (** Only one task of a step is not just ended or moved on. *)
  Definition evols (b : broker) (e : bev) (out : list bout) (b' : broker) (j : N) : Prop :=
    forall a', sess_at b' j = Some a' -> (exists a, sess_at b j = Some a /\ evol b e out j a a') \/ (exists x r o, aget j (b_tasks b) = Some (TJoin x r) /\ e = EJoin j /\ In o out /\ joined b x r a' o j).

  Lemma evols_one b e out b' k t : (forall j, j <> k -> idle j e) -> b_tasks b' = aset k t (b_tasks b) ->
    (forall a', t_sess t = Some a' -> (exists a, sess_at b k = Some a /\ evol b e out k a a') \/ (exists x r o, aget k (b_tasks b) = Some (TJoin x r) /\ e = EJoin k /\ In o out /\ joined b x r a' o k)) ->
    forall j, evols b e out b' j.
  Proof.
    intros ID E H j a'. unfold sess_at. rewrite E, aget_N. destruct (N.eqb_spec j k) as [->|]; [apply H|]. destruct (aget j (b_tasks b)) as [t0|] eqn:A; [|discriminate].
    intros T. left. exists a'. split; auto. constructor. auto.
  Qed.
  Lemma evols_end b e out b' k : (forall j, idle j e) -> NoDup (keys (b_tasks b)) -> b_tasks b' = adel k (b_tasks b) -> forall j, evols b e out b' j.
  Proof.
    intros ID ND E j a'. unfold sess_at. rewrite E, adel_N by auto. destruct (j =? k); [discriminate|]. destruct (aget j (b_tasks b)) as [t0|] eqn:A; [|discriminate].
    intros T. left. exists a'. split; auto. constructor. auto.
  Qed.
  Lemma evols_same b e out b' : (forall j, idle j e) -> b_tasks b' = b_tasks b -> forall j, evols b e out b' j.
  Proof. intros ID E j a'. unfold sess_at. rewrite E. intros T. left. exists a'. split; auto. constructor. auto. Qed.
  Lemma sess_at_some b k t a : aget k (b_tasks b) = Some t -> t_sess t = Some a -> sess_at b k = Some a.
  Proof. unfold sess_at. intros ->. auto. Qed.

  Lemma step_evol e b b' out : good b -> bstep e b = BOk b' out -> forall j, evols b e out b' j.
  Proof.
    intros [I P] S. pose proof (i_tnd _ I) as TN. pose proof sess_at_some as SA.
    assert (NONE : forall t, t_sess t = None -> forall k a', t_sess t = Some a' -> (exists a, sess_at b k = Some a /\ evol b e out k a a') \/
      (exists x r o, aget k (b_tasks b) = Some (TJoin x r) /\ e = EJoin k /\ In o out /\ joined b x r a' o k)) by (intros; congruence).
    destruct e; cbn [BrokerModel.bstep] in S.
    - destruct (_ <? _); [discriminate|]. unfold add_client in S. destruct (reg_add _ _) as [r []]; inversion S; subst; (eapply evols_one; [intros ? NE; cbn; trivial; exact (not_eq_sym NE)|reflexivity|apply NONE; reflexivity]).
    - destruct (_ <? _); [discriminate|]. unfold add_client in S. destruct (reg_add _ _) as [r []]; inversion S; subst; (eapply evols_one; [intros ? NE; cbn; trivial; exact (not_eq_sym NE)|reflexivity|apply NONE; reflexivity]).
    - unfold do_put in S. destruct (aget k (b_tasks b)) as [[x c| | | | | | | |]|] eqn:A; try discriminate. destruct (aget c _); [|discriminate].
      destruct (negb _); [|destruct (ctl_room _); [|discriminate]]; inversion S; subst; [eapply evols_end; [intros; exact Logic.I|auto|reflexivity]|]. eapply evols_one; [intros ? NE; cbn; trivial; exact (not_eq_sym NE)|reflexivity|apply NONE; reflexivity].
    - unfold do_fail in S. destruct (aget k (b_tasks b)) as [[| x c|x r|a| | | | |]|] eqn:A; try discriminate.
      + destruct (aget c _) as [ch|]; [|discriminate]. destruct (ch_open ch); [discriminate|]. inversion S; subst. eapply evols_end; [intros; exact Logic.I|auto|reflexivity].
      + inversion S; subst. eapply evols_end; [intros; exact Logic.I|auto|rewrite tasks_close; reflexivity].
      + inversion S; subst. eapply evols_end; [intros; exact Logic.I|auto|rewrite tasks_close; reflexivity].
    - intros j a' H. unfold sess_at in H. destruct (aget j (b_tasks b')) as [t'|] eqn:A'; [|discriminate].
      destruct (sess_back hash5 hash3 pick (EJoin k) _ _ _ _ _ _ (conj I P) S A' H) as [(t & a & A & T & SM)|(x & r & A & E & _ & _ & _ & _ & o & O & JO)].
      2:{ right. exists x, r, o. auto. }
      left. exists a'. split; [|(constructor; exact Logic.I)]. unfold do_join in S. destruct (_ <=? _); [discriminate|]. destruct (aget k (b_tasks b)) as [[| |[cn data|s0] r| | | | | |]|] eqn:AK; try discriminate.
      + destruct (match r with RNew c => Some (RcNew c) | ROld5 st => Some (RcPresent st) | ROld3 _ => None end); [|discriminate].
        destruct (session_connect5 _ _ _ _ _ _) as [[s ack]|]; [|discriminate].
        assert (TK : b_tasks (start_keep k (A5 s) b) = b_tasks b) by (unfold start_keep; destruct (0 <? _); reflexivity).
        assert (NE : j <> k) by (intros ->; rewrite AK in A; injection A as <-; discriminate).
        destruct (s_connected s); inversion S; subst; [|rewrite tasks_close in A']; cbn in A'; rewrite TK in A'; [rewrite aget_aset_ne in A' by auto|rewrite aget_adel_ne in A' by auto]; unfold sess_at; rewrite A'; auto.
      + destruct (match r with RNew c => Some (RcNew3 c) | ROld3 st => Some (RcPresent3 st) | ROld5 _ => None end); [|discriminate].
        destruct (session_connect3 _ _ _) as [s ack].
        assert (TK : b_tasks (start_keep k (A3 s) b) = b_tasks b) by (unfold start_keep; destruct (0 <? _); reflexivity).
        assert (NE : j <> k) by (intros ->; rewrite AK in A; injection A as <-; discriminate).
        inversion S; subst. cbn in A'; rewrite TK in A'. rewrite aget_aset_ne in A' by auto. unfold sess_at; rewrite A'; auto.
    - unfold do_start in S. destruct (aget k (b_tasks b)) as [[| | |[s|s]| | | | |]|] eqn:A; try discriminate; [destruct (pendings5 _ _) as [s1 o] eqn:PE|destruct (after_packet3 _ _) as [s1 o] eqn:PE];
        inversion S; subst; (eapply evols_one; [intros ? NE; cbn; trivial; exact (not_eq_sym NE)|reflexivity|]); intros a' T; injection T as <-; left; (eexists; split; [eapply SA; [exact A|reflexivity]|]); [eapply ev_start5|eapply ev_start3]; eauto.
    - unfold do_packet5 in S. destruct (aget k (b_tasks b)) as [[| | | |[s|s]| | | |]|] eqn:A; try discriminate. destruct (is_disconnected5 s) eqn:D; [discriminate|].
      destruct (packet_step5 _ _ _ _ _ _ _) as [s1 g o|s1 g|] eqn:PS; [| |discriminate]; inversion S; subst.
      + eapply evols_one with (k := k) (t := TOnline (A5 s1)); [intros ? NE; exact (not_eq_sym NE)|destruct (is_disconnected5 s1); reflexivity|]. intros a' T; injection T as <-; left. eexists; split; [eapply SA; [exact A|reflexivity]|]. eapply ev_pkt5; eauto.
      + eapply evols_one; [intros ? NE; cbn; trivial; exact (not_eq_sym NE)|reflexivity|]. intros a' T; injection T as <-; left. eexists; split; [eapply SA; [exact A|reflexivity]|]. eapply ev_stop5; eauto.
    - unfold do_packet3 in S. destruct (aget k (b_tasks b)) as [[| | | |[s|s]| | | |]|] eqn:A; try discriminate. destruct (z_disc s) eqn:D; [discriminate|].
      destruct (packet_step3 _ _ _ _ _ _) as [s1 g o|s1 g|] eqn:PS; [| |discriminate]; inversion S; subst.
      + eapply evols_one; [intros ? NE; cbn; trivial; exact (not_eq_sym NE)|reflexivity|]. intros a' T; injection T as <-; left. eexists; split; [eapply SA; [exact A|reflexivity]|]. eapply ev_pkt3; eauto.
      + eapply evols_one; [intros ? NE; cbn; trivial; exact (not_eq_sym NE)|reflexivity|]. intros a' T; injection T as <-; left. eexists; split; [eapply SA; [exact A|reflexivity]|]. eapply ev_stop3; eauto.
    - unfold do_malformed in S. destruct (aget k (b_tasks b)) as [[| | | |[s|s]| | | |]|] eqn:A; try discriminate. destruct (is_disconnected5 s) eqn:D; [discriminate|].
      destruct (error_disconnect _ _ _) as [s1 p] eqn:ED. inversion S; subst. eapply evols_one; [intros ? NE; cbn; trivial; exact (not_eq_sym NE)|reflexivity|]. intros a' T; injection T as <-; left. eexists; split; [eapply SA; [exact A|reflexivity]|]. eapply ev_bad5; eauto.
    - unfold do_close in S. destruct (aget k (b_tasks b)) as [[| | | |a| | | |]|] eqn:A; try discriminate. inversion S; subst. eapply evols_one; [intros ? NE; cbn; trivial; exact (not_eq_sym NE)|reflexivity|]. intros a' T; injection T as <-; left.
      eexists; split; [eapply SA; [exact A|reflexivity]|]. (constructor; exact Logic.I).
    - assert (GO : forall (on : bool) a, aget k (b_tasks b) = Some (if on then TOnline a else TOffline a) -> match aget (a_id a) (b_chans b) with
        | Some (Chan (m :: r) ms o) => control pick on k a m (set_chan (a_id a) (Chan r ms o) b)
        | _ => BNo
        end = BOk b' out -> forall j, evols b (EControl k) out b' j).
      { intros on a A. destruct (aget (a_id a) (b_chans b)) as [[[|m q] ms o]|]; try discriminate.
        set (b0 := set_chan _ _ b). assert (SK : sess_at b k = Some a) by (eapply SA; [exact A|destruct on; reflexivity]).
        assert (STAY : forall t' b1 o', b_tasks b1 = b_tasks b -> BOk (set_task k t' b1) o' = BOk b' out -> (forall a', t_sess t' = Some a' -> evol b (EControl k) out k a a') -> forall j, evols b (EControl k) out b' j).
        { intros t' b1 o' T1 X Y. inversion X; subst. eapply evols_one; [intros ? NE; cbn; trivial; exact (not_eq_sym NE)|cbn; rewrite T1; reflexivity|]. intros a' T. left. exists a. split; auto. }
        assert (HAND : forall b1 j x r, b_tasks b1 = b_tasks b -> hand_over k j x r b1 = BOk b' out -> forall j, evols b (EControl k) out b' j).
        { intros b1 j x r T1 X. unfold hand_over in X. inversion X; subst. intros i a'. unfold sess_at. cbn. rewrite T1, aget_N. destruct (i =? j); [discriminate|]. rewrite adel_N by auto. destruct (i =? k); [discriminate|].
          intros T. left. exists a'. split; auto. (constructor; exact Logic.I). }
        assert (REF : forall j t', t_sess t' = Some a -> BOk (set_task k t' (end_task j b0)) [OClosed j] = BOk b' out -> forall j, evols b (EControl k) out b' j).
        { intros j t' Y X. inversion X; subst. intros i a'. unfold sess_at. cbn. rewrite aget_N. destruct (N.eqb_spec i k) as [->|].
          - intros T. left. exists a. split; auto. rewrite Y in T. injection T as <-. (constructor; exact Logic.I).
          - rewrite adel_N by auto. destruct (i =? j); [discriminate|]. intros T. left. exists a'. split; auto. (constructor; exact Logic.I). }
        assert (SME : forall t', t_sess t' = Some a -> forall a', t_sess t' = Some a' -> evol b (EControl k) out k a a') by (intros t' E a' T; rewrite E in T; injection T as <-; (constructor; exact Logic.I)).
        unfold control. destruct m, a as [s|s]; try discriminate.
        - change (b_tasks b0) with (b_tasks b). destruct (aget k0 (b_tasks b)) as [[]|] eqn:J; try discriminate. apply HAND; eauto.
        - apply REF. destruct on; reflexivity.
        - apply REF. destruct on; reflexivity.
        - change (b_tasks b0) with (b_tasks b). destruct (aget k0 (b_tasks b)) as [[]|] eqn:J; try discriminate. destruct (aget (z_id s) (b_chans b0)) as [ch|]; [|discriminate].
          destruct on; apply HAND; eauto.
        - destruct on; intros X; (eapply STAY; [|exact X|apply SME; reflexivity]; reflexivity).
        - destruct on; intros X; (eapply STAY; [|exact X|apply SME; reflexivity]; reflexivity).
        - destruct (_ && _).
          + destruct (send_will pick k (A5 s) b0) as [[[[a1 b1] o1] ok]|] eqn:W; [|discriminate]. destruct (remove_client a1 b1) as [b2|] eqn:RC; [|discriminate]. intros X.
            assert (T2 : b_tasks b2 = b_tasks b). { apply remove_tasks in RC. destruct RC as (-> & _). destruct (send_will_move _ _ _ _ _ _ _ _ W) as (_ & (rt & rn & ->) & _). reflexivity. }
            eapply STAY; [|exact X|]; auto. intros a' T. injection T as <-. inversion X; subst. eapply ev_will; [| |exact W]; auto.
          + intros X; (eapply STAY; [|exact X|apply SME; destruct on; reflexivity]; reflexivity).
        - destruct (_ && _).
          + destruct (send_will pick k (A5 s) b0) as [[[[a1 b1] o1] ok]|] eqn:W; [|discriminate]. intros X.
            assert (T2 : b_tasks b1 = b_tasks b). { destruct (send_will_move _ _ _ _ _ _ _ _ W) as (_ & (rt & rn & ->) & _). reflexivity. }
            eapply STAY; [|exact X|]; auto. intros a' T. injection T as <-. inversion X; subst. eapply ev_will; [| |exact W]; auto.
          + intros X; (eapply STAY; [|exact X|apply SME; destruct on; reflexivity]; reflexivity). }
      unfold do_control in S. destruct (aget k (b_tasks b)) as [[| | | |a| | |a|]|] eqn:A; try discriminate; [apply (GO true a eq_refl S)|apply (GO false a eq_refl S)].
    - unfold do_normal in S. destruct (aget k (b_tasks b)) as [[| | | |a| | |a|]|] eqn:A; try discriminate.
      + destruct (a_disc a) eqn:D; [discriminate|]. destruct (aget (a_id a) _) as [[cs [|m r] o]|] eqn:C; try discriminate. destruct (normal _ _ _ _ _ _) as [a1 o1] eqn:NM. inversion S; subst.
        eapply evols_one; [intros ? NE; cbn; trivial; exact (not_eq_sym NE)|reflexivity|]. intros a' T; injection T as <-; left. eexists; split; [eapply SA; [exact A|reflexivity]|]. eapply (ev_msg _ _ _ _ true); eauto.
      + destruct (aget (a_id a) _) as [[cs [|m r] o]|] eqn:C; try discriminate. destruct (normal _ _ _ _ _ _) as [a1 o1] eqn:NM. inversion S; subst.
        eapply evols_one; [intros ? NE; cbn; trivial; exact (not_eq_sym NE)|reflexivity|]. intros a' T; injection T as <-; left. eexists; split; [eapply SA; [exact A|reflexivity]|]. eapply (ev_msg _ _ _ _ false); eauto. discriminate.
    - unfold do_flush in S. destruct (aget k (b_tasks b)) as [[| | | |a| |a| |a st]|] eqn:A; try discriminate;
        (destruct (flush d a b) as [[a1 b1]|] eqn:F; [|discriminate]; assert (FX : (exists bc n, a1 = a_set_bcast bc n a) /\ b_tasks b1 = b_tasks b);
         [unfold flush in F; destruct (aget d (a_bcast a)) as [[|m ms]|]; [inversion F; subst; eauto| |destruct (aget d (b_chans b)); discriminate];
          destruct (aget d (b_chans b)) as [ch|]; [|discriminate]; destruct (negb (ch_open ch)); [inversion F; subst; eauto|]; destruct (norm_room ch); [|discriminate]; inversion F; subst; eauto|];
         destruct FX as ((bc & n & ->) & F3); inversion S; subst; (eapply evols_one; [intros ? NE; cbn; trivial; exact (not_eq_sym NE)|cbn; rewrite F3; reflexivity|]); intros a' T; injection T as <-; left;
         (eexists; split; [eapply SA; [exact A|reflexivity]|]); eapply ev_flush; eauto).
    - unfold do_end in S. destruct (aget k (b_tasks b)) as [[| | | | |a| | |]|] eqn:A; try discriminate.
      destruct hook; cbn [negb] in S.
      2:{ inversion S; subst. eapply evols_end; [intros; exact Logic.I|auto|rewrite tasks_close; reflexivity]. }
      assert (SK : sess_at b k = Some a) by (eapply SA; [exact A|reflexivity]).
      assert (DR : forall b1, b_tasks b1 = b_tasks b -> BOk (set_task k (TDrain a) b1) [] = BOk b' out -> forall j, evols b (EEnd k true) out b' j).
      { intros b1 T1 X. inversion X; subst. eapply evols_one; [intros ? NE; cbn; trivial; exact (not_eq_sym NE)|cbn; rewrite T1; reflexivity|]. intros a' T; injection T as <-; left. exists a. split; auto. (constructor; exact Logic.I). }
      assert (NOW : match send_will pick k a b with
        | None => BPanic
        | Some (a1, b1, out, ok) => if ok then BOk (set_task k (TDrain a1) b1) out else BOk (close (a_id a) (end_task k b1)) (out ++ [OClosed k])%list
        end = BOk b' out -> forall j, evols b (EEnd k true) out b' j).
      { destruct (send_will pick k a b) as [[[[a1 b1] o1] ok]|] eqn:SW; [|discriminate].
        destruct (send_will_move _ _ _ _ _ _ _ _ SW) as (SP & (rt & rn & ->) & _). destruct ok; intros X; inversion X; subst.
        - eapply evols_one; [intros ? NE; cbn; trivial; exact (not_eq_sym NE)|reflexivity|]. intros a' T; injection T as <-; left. exists a. split; auto. eapply ev_will; [| |exact SW]; auto.
        - eapply evols_end; [intros; exact Logic.I|auto|rewrite tasks_close; reflexivity]. }
      destruct a as [s|s].
      + destruct (s_cdisc s); [eapply DR; [|exact S]; auto|]. destruct (will_due s) as [d|]; [|apply NOW; auto]. eapply DR; [|exact S]. destruct (_ <? _); auto.
      + destruct (z_disc s); [eapply DR; [|exact S]; auto|apply NOW; auto].
    - unfold do_done in S. destruct (aget k (b_tasks b)) as [[| | | | | |a| |a stop]|] eqn:A; try discriminate.
      + destruct (a_bcast a); [|discriminate]. destruct (a_ends a).
        { destruct (remove_client a b) as [b1|] eqn:RC; [|discriminate]. apply remove_tasks in RC. destruct RC as (R1&_). inversion S; subst. eapply evols_end; [intros; exact Logic.I|auto|rewrite tasks_close; cbn; rewrite R1; reflexivity]. }
        destruct (reg_offline _ _); [|discriminate]. assert (SK : sess_at b k = Some a) by (eapply SA; [exact A|reflexivity]).
        destruct a; inversion S; subst; (eapply evols_one; [intros ? NE; cbn; trivial; exact (not_eq_sym NE)|reflexivity|]); intros a' T; injection T as <-; left; (eexists; split; [exact SK|]);
          [apply (ev_off b (EDone k) [] k (A5 s))|apply (ev_off b (EDone k) [] k (A3 s))]; auto.
      + destruct (a_bcast a); [|discriminate]. destruct stop.
        { destruct (remove_client a b) as [b1|] eqn:RC; [|discriminate]. apply remove_tasks in RC. destruct RC as (R1&_). inversion S; subst. eapply evols_end; [intros; exact Logic.I|auto|rewrite tasks_close; cbn; rewrite R1; reflexivity]. }
        inversion S; subst. eapply evols_one; [intros ? NE; cbn; trivial; exact (not_eq_sym NE)|reflexivity|]. intros a' T; injection T as <-; left. exists a. split; [eapply SA; [exact A|reflexivity]|]. (constructor; exact Logic.I).
    - apply evols_same; [intros; exact Logic.I|]. unfold do_fire in S. destruct (nth_error _ n) as [[c k half due|c t due|c t due|c m]|]; try discriminate.
      + destruct (_ <? _); [discriminate|]. destruct (_ <=? _); [inversion S; subst; auto|]. destruct (in_list _ _); inversion S; subst; auto.
      + destruct (_ <? _); [discriminate|]. destruct (in_list _ _); inversion S; subst; auto.
      + destruct (_ <? _); [discriminate|]. destruct (in_list _ _); inversion S; subst; auto.
      + destruct (aget c _) as [ch|]; [|discriminate]. destruct (negb _); [inversion S; subst; auto|]. destruct (ctl_room ch); inversion S; subst; auto.
    - apply evols_same; [intros; exact Logic.I|]. inversion S; subst. reflexivity.
  Qed.
End Evol.
