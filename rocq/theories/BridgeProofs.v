(** The event loops of v5 and v3 clients do nothing but the broker's steps (for C71). *)
From Coq Require Import List Bool Arith NArith String Lia.
From Verif Require Import Base BaseLemmas TopicModel MsgModel PendingModel OutModel RouteModel RetainModel GlobModel Sess5Model Sess3Model ConnModel RegModel
  OnlineModel HookModel HookFacts OnlineSpec OnlineProofs BrokerModel BrokerSpec CoreProofs BrokerInv FrameProofs RunProofs ApartSpec ApartProofs LifeSpec DelivSpec InSpec AccSpec AccProofs DrainProofs BridgeSpec BridgeLift BridgeSim.
Import ListNotations.
Local Open Scope N_scope.
Local Open Scope list_scope.

Section Inst.
  Variables (hash5 : wpub5 -> N) (hash3 : wpub3 -> N) (pick : string -> string -> N) (enc5 : pkt5 -> option (list N)) (enc3 : pkt3 -> option (list N)).
  Notation bstep := (bstep hash5 hash3 (fun _ _ => pick)).
  Notation brun := (brun hash5 hash3 (fun _ _ => pick)).
  Notation bgo := (bgo hash5 hash3 (fun _ _ => pick)).
  Notation reach := (BridgeSim.reach hash5 hash3 (fun _ _ => pick)).
  Notation i5 := (online5 no_hooks hash5 pick enc5).
  Notation i3 := (online3 no_hooks hash3 enc3).

  Lemma reach_good b : reach b -> good b.
  Proof. intros (c & h & R). eapply run_good; eauto. Qed.

  Lemma own_chan b k a : reach b -> aget k (b_tasks b) = Some (TOnline a) -> exists cq nq, aget (a_id a) (b_chans b) = Some (Chan cq nq true).
  Proof.
    intros R A. pose proof (open_own b a k _ (reach_good _ R) A eq_refl) as O. unfold received_for in O. destruct (aget (a_id a) (b_chans b)) as [[cq nq o]|]; [|discriminate]. cbn in O. subst o. eauto.
  Qed.
  Lemma control_msg b k a m r ms o : reach b -> aget k (b_tasks b) = Some (TOnline a) -> aget (a_id a) (b_chans b) = Some (Chan (m :: r) ms o) ->
    a_conn a = true /\ (for5 m = true -> a_v5 a = true) /\ forall v j, m = online_msg v j -> j <> k /\ exists x, aget j (b_tasks b) = Some (TReply x (a_id a)).
  Proof.
    intros R A C. destruct (reach_good _ R) as [I P]. pose proof (i_core _ I) as K.
    assert (o = true) as -> by (pose proof (open_own b a k _ (conj I P) A eq_refl) as O; unfold received_for in O; rewrite C in O; exact O).
    assert (V : cv b (a_id a) = Some (m :: r, true)) by (unfold cv; rewrite C; reflexivity).
    assert (RL : rl b k = Some (Owns (a_v5 a) (a_ident a) (a_id a) false)) by (unfold rl; rewrite A; reflexivity).
    split; [apply (i_ok _ I _ _ A)|]. split; [intros F; exact (k_v5 _ _ _ _ _ K _ _ m V (or_introl eq_refl) F _ _ _ _ RL)|].
    intros v j ->. destruct (k_online _ _ _ _ _ K _ _ j v V (or_introl eq_refl)) as (i & X). split; [intros ->; rewrite RL in X; discriminate|].
    unfold rl in X. destruct (aget j (b_tasks b)) as [t|] eqn:T; [|discriminate]. cbn in X. injection X as X. destruct t; cbn in X; try discriminate. injection X as _ _ <-. eauto.
  Qed.
  Lemma control_step b k a m r ms o : reach b -> aget k (b_tasks b) = Some (TOnline a) -> aget (a_id a) (b_chans b) = Some (Chan (m :: r) ms o) ->
    exists b' out, bstep (EControl k) b = BOk b' out /\ (forall x, List.In x out -> exists j, x = OClosed j) /\ glob_of b' = glob_of b /\ b_now b' = b_now b /\ b_chans b' = aset (a_id a) (Chan r ms o) (b_chans b) /\
      match m, a with
      | BrokerModel.COnline5 _, A5 _ | BrokerModel.COnline3 _, A3 _ => handed b' k a
      | BrokerModel.CKick, _ => aget k (b_tasks b') = Some (TEnd a)
      | _, _ => aget k (b_tasks b') = Some (TOnline a)
      end.
  Proof.
    intros R A C. destruct (control_msg _ _ _ _ _ _ _ R A C) as (CN & V5 & ON). destruct (reach_good _ R) as [I P]. pose proof (i_tnd _ I) as ND.
    cbn [BrokerModel.bstep]. unfold do_control. rewrite A, C. cbn [control].
    assert (OUT : forall (x : bout) (l : list bout), l = [] -> List.In x l -> exists j, x = OClosed j) by (intros x l -> []).
    assert (HD : forall j x s, j <> k -> handed (set_task j (TJoin x match a with A5 s => ROld5 (snd (build_state5 s)) | A3 s => ROld3 (snd (build_state3 s)) end) (end_task k s)) k a \/ True) by auto. clear HD.
    assert (HAND : forall j x rr, j <> k -> rr = (match a with A5 s => ROld5 (snd (build_state5 s)) | A3 s => ROld3 (snd (build_state3 s)) end) ->
      handed (set_task j (TJoin x rr) (end_task k (set_chan (a_id a) (Chan r ms o) b))) k a).
    { intros j x rr NE ->. split; [cbn; rewrite aget_N, adel_N by exact ND; destruct (N.eqb_spec k j); [congruence|]; rewrite N.eqb_refl; reflexivity|]. exists j, x. cbn. rewrite aget_N, N.eqb_refl. reflexivity. }
    destruct m as [j|j| |t|t]; destruct a as [s|s]; cbn [control];
      try (destruct (ON true j eq_refl) as (NE & x & T)); try (destruct (ON false j eq_refl) as (NE & x & T)).
    - change (b_tasks (set_chan (a_id (A5 s)) (Chan r ms o) b)) with (b_tasks b). rewrite T. unfold hand_over. eexists. eexists. split; [reflexivity|]. split; [intros ? []|]. repeat (split; [reflexivity|]). apply HAND; auto.
    - eexists. eexists. split; [reflexivity|]. split; [intros ? [<-|[]]; eauto|]. repeat (split; [reflexivity|]). cbn. rewrite aget_N, N.eqb_refl. reflexivity.
    - eexists. eexists. split; [reflexivity|]. split; [intros ? [<-|[]]; eauto|]. repeat (split; [reflexivity|]). cbn. rewrite aget_N, N.eqb_refl. reflexivity.
    - change (b_tasks (set_chan (a_id (A3 s)) (Chan r ms o) b)) with (b_tasks b). rewrite T. assert (X : aget (z_id s) (b_chans (set_chan (a_id (A3 s)) (Chan r ms o) b)) = Some (Chan r ms o)) by (cbn; rewrite aget_N, N.eqb_refl; reflexivity).
      rewrite X. unfold hand_over. eexists. eexists. split; [reflexivity|]. split; [intros ? []|]. repeat (split; [reflexivity|]). apply HAND; auto.
    - eexists. eexists. split; [reflexivity|]. split; [intros ? []|]. repeat (split; [reflexivity|]). cbn. rewrite aget_N, N.eqb_refl. reflexivity.
    - eexists. eexists. split; [reflexivity|]. split; [intros ? []|]. repeat (split; [reflexivity|]). cbn. rewrite aget_N, N.eqb_refl. reflexivity.
    - cbn in CN. rewrite CN. cbn [negb andb]. eexists. eexists. split; [reflexivity|]. split; [intros ? []|]. repeat (split; [reflexivity|]). cbn. rewrite aget_N, N.eqb_refl. reflexivity.
    - specialize (V5 eq_refl). discriminate V5.
    - cbn in CN. rewrite CN. cbn [negb andb]. eexists. eexists. split; [reflexivity|]. split; [intros ? []|]. repeat (split; [reflexivity|]). cbn. rewrite aget_N, N.eqb_refl. reflexivity.
    - specialize (V5 eq_refl). discriminate V5.
  Qed.

  Lemma glob_put g b : gkeep (glob_of b) g -> glob_of (put_glob g b) = g.
  Proof. intros (E1 & E2). destruct g. cbn in *. unfold glob_of. cbn. congruence. Qed.

  Section K.
    Variables (k : N) (c : client_id).
    (** ** v5 *)
    Notation at5 := (BridgeSim.at_ i5 k c A5).
    Notation end5 := (BridgeSim.end_ i5 k A5).
    Definition ev5 (x : N * in5) : bev := EPacket5 k (fst x) (snd x).
    Definition err5 (e : derr) : list bev := match e with DMalformed r => [EMalformed k r] | DIo => [] end.
    Lemma L_L5 w H s : BridgeSim.L i5 w H s = L5 w H s. Proof. reflexivity. Qed.
    Lemma disc_none s : disc5 s = None <-> is_disconnected5 s = false.
    Proof. unfold disc5, is_disconnected5. destruct (s_sdisc s), (s_cdisc s); cbn; split; congruence. Qed.

    Lemma packet5_H w H b s x : reach b -> at5 w H b s -> i_disc i5 s = None ->
      match i_packet i5 (seconds b) x s (glob_of b) with
      | HpOk s1 g1 out req => req = None /\ let '(s2, out2) := i_after i5 (seconds b) s1 in
          exists b', bstep (ev5 x) b = BOk b' (map (OPkt5 k) (out ++ out2)) /\ at5 w H b' s2 /\ same b b' g1
      | HpErr s1 g1 out => out = [] /\ exists b', bstep (ev5 x) b = BOk b' [] /\ end5 w H b' s1 /\ same b b' g1
      | HpPanic => bstep (ev5 x) b = BPanic
      end.
    Proof.
      intros R (A & ID & F) D. destruct x as [len x]. rewrite L_L5 in A. apply disc_none in D. cbn [i_packet online5 i_after].
      unfold HookModel.packet5. cbn [hk_publish hk_subscribe hk_unsubscribe no_hooks fst snd].
      assert (X : (if cf_packet_server (g_cfg (glob_of b)) <? len then None else match x with IPub _ | ISub _ _ _ | IUnsub _ _ | _ => @None req5 end) = None) by (destruct (_ <? _); destruct x; reflexivity).
      match goal with |- context[match ?y with Some q => HpOk s (glob_of b) [] (Some q) | None => _ end] => assert (Y : y = None) by (destruct (_ <? _); destruct x; reflexivity); rewrite Y end. clear X Y.
      pose proof (BridgeLift.packet5 w H hash5 pick (seconds b) len x s (glob_of b) F) as PK.
      pose proof (packet_step5_keep hash5 pick (seconds b) len x s (glob_of b)) as KP. unfold packet_step5 in KP.
      assert (ST : bstep (ev5 (len, x)) b = match packet_step5 hash5 pick (seconds b) len x (L5 w H s) (glob_of b) with
          | Go s1 g out => let b1 := set_task k (TOnline (A5 s1)) (put_glob g b) in BOk (if is_disconnected5 s1 then b1 else set_last k (b_now b) b1) (map (OPkt5 k) out)
          | Stop s1 g => BOk (set_task k (TEnd (A5 s1)) (put_glob g b)) []
          | Crash => BPanic end).
      { cbn. unfold do_packet5. rewrite A. change (is_disconnected5 (L5 w H s)) with (is_disconnected5 s). rewrite D. reflexivity. }
      rewrite ST. unfold packet_step5. clear ST.
      destruct (handle_packet5 hash5 pick (seconds b) len x s (glob_of b)) as [s1 g1 out|s1 g1|] eqn:E.
      - destruct PK as (-> & F1). split; [reflexivity|]. pose proof (after5 w H (seconds b) s1) as AF. destruct (after_packet5 (seconds b) s1) as [s2 out2] eqn:EA. destruct AF as (-> & BC2).
        assert (KK : s_id s2 = s_id s /\ gkeep (glob_of b) g1). { unfold step_kept5 in KP. destruct (is_disconnect5 x); [destruct KP as ((? & _) & ? & _); auto|]. destruct KP as ((? & _) & ? & _). auto. }
        destruct KK as (K1 & K2). eexists. split; [reflexivity|]. split.
        + split; [|split; [cbn; cbn in ID; congruence|cbn; rewrite BC2; exact F1]]. destruct (is_disconnected5 (L5 w H s2)); cbn; rewrite aget_N, N.eqb_refl; reflexivity.
        + split; [|destruct (is_disconnected5 (L5 w H s2)); split; reflexivity]. destruct (is_disconnected5 (L5 w H s2)); exact (glob_put g1 b K2).
      - destruct PK as (-> & F1). split; [reflexivity|]. assert (K2 : gkeep (glob_of b) g1). { unfold step_kept5 in KP. destruct (is_disconnect5 x); destruct KP as (_ & ? & _); auto. }
        eexists. split; [reflexivity|]. split.
        + split; [|exact F1]. cbn. rewrite aget_N, N.eqb_refl. reflexivity.
        + split; [|split; reflexivity]. exact (glob_put g1 b K2).
      - rewrite PK. reflexivity.
    Qed.
    Lemma error5_H w H b s e s' out : reach b -> at5 w H b s -> i_disc i5 s = None -> i_decode_error i5 e s = Some (s', out) ->
      exists r b', err5 e = [EMalformed k r] /\ bstep (EMalformed k r) b = BOk b' (map (OPkt5 k) out) /\ at5 w H b' s' /\ same b b' (glob_of b).
    Proof.
      intros R (A & ID & F) D E. rewrite L_L5 in A. apply disc_none in D. cbn [i_decode_error online5] in E. unfold decode_error5 in E. destruct e as [|r]; [discriminate|].
      exists r. destruct (error5 w H RC_malformed r s) as (E1 & E2). destruct (error_disconnect RC_malformed r s) as [s1 p] eqn:ED. cbn [fst snd] in *. injection E as <- <-.
      eexists. split; [reflexivity|]. split; [cbn [BrokerModel.bstep]; unfold do_malformed; rewrite A; change (is_disconnected5 (L5 w H s)) with (is_disconnected5 s); rewrite D, E1; reflexivity|].
      split; [|repeat split]. split; [cbn; rewrite aget_N, N.eqb_refl; reflexivity|]. split; [|cbn; rewrite E2; exact F]. cbn in *. rewrite <- ID. unfold error_disconnect in ED. injection ED as <- _. reflexivity.
    Qed.
    Lemma control5_H w H b s m r ms o : reach b -> at5 w H b s -> aget c (b_chans b) = Some (Chan (m :: r) ms o) ->
      match i_control i5 (seconds b) (plain m) s (glob_of b) with (s', g', stop, taken) => s' = s /\ g' = glob_of b /\
        exists b' out, bstep (EControl k) b = BOk b' out /\ pkts5 k out = [] /\ glob_of b' = glob_of b /\ b_now b' = b_now b /\ b_chans b' = aset c (Chan r ms o) (b_chans b) /\
          if taken then handed b' k (A5 (BridgeSim.L i5 w H s)) else if stop then end5 w H b' s else at5 w H b' s end.
    Proof.
      intros R (A & ID & F) C. rewrite L_L5 in A. assert (ID' : a_id (A5 (L5 w H s)) = c) by exact ID. rewrite <- ID' in C.
      destruct (control_step _ _ _ _ _ _ _ R A C) as (b' & out & ST & O & G & N & CH & X). rewrite ID' in CH.
      assert (PO : pkts5 k out = []). { clear -O. induction out as [|x out IH]; [reflexivity|]. destruct (O x (or_introl eq_refl)) as (j & ->). cbn. apply IH. intros y I. apply O. now right. }
      cbn [i_control online5]. destruct m as [j|j| |t|t]; cbn [plain control5] in *; (split; [reflexivity|]; split; [reflexivity|]; exists b', out; repeat (split; [assumption|]); auto); (split; [exact X|]); auto.
    Qed.
    Lemma normal5_H w H b s m r cs o : reach b -> at5 w H b s -> i_disc i5 s = None -> aget c (b_chans b) = Some (Chan cs (m :: r) o) ->
      match i_normal i5 (seconds b) (fst m) (snd m) s (glob_of b) with (s', g', res) => g' = glob_of b /\
        let '(s2, out) := match res with
          | None => (s', [])
          | Some (q0, po) => if q0 then (s', opt_list po) else let '(s2, more) := i_pendings i5 (seconds b) s' in (s2, opt_list po ++ more)
          end in
        exists b', bstep (ENormal k) b = BOk b' (map (OPkt5 k) out) /\ at5 w H b' s2 /\ glob_of b' = glob_of b /\ b_now b' = b_now b /\ b_chans b' = aset c (Chan cs r o) (b_chans b) end.
    Proof.
      intros R (A & ID & F) D C. rewrite L_L5 in A. apply disc_none in D. cbn [i_normal online5 i_pendings]. assert (ID' : a_id (A5 (L5 w H s)) = c) by exact ID.
      assert (ST : bstep (ENormal k) b = let '(a1, out) := normal (seconds b) (b_cfg b) k true (snd m) (A5 (L5 w H s)) in BOk (set_task k (TOnline a1) (set_chan c (Chan cs r o) b)) out).
      { cbn [BrokerModel.bstep]. unfold do_normal. rewrite A. change (a_disc (A5 (L5 w H s))) with (is_disconnected5 s). rewrite D, ID', C. reflexivity. }
      rewrite ST. clear ST. cbn [normal]. change (g_cfg (glob_of b)) with (b_cfg b).
      pose proof (normal5 w H (seconds b) (b_cfg b) (snd m) s) as NM. pose proof (handle_normal5_keep (seconds b) (b_cfg b) (snd m) s (glob_of b)) as KP.
      destruct (handle_normal5 (seconds b) (b_cfg b) (snd m) s) as [s1 res] eqn:E. destruct NM as (-> & BC). destruct (KP _ _ eq_refl) as ((K1 & _) & _).
      assert (FIN : forall s2 out, s_bcast s2 = s_bcast s -> s_id s2 = s_id s -> exists b', BOk (set_task k (TOnline (A5 (L5 w H s2))) (set_chan c (Chan cs r o) b)) (map (OPkt5 k) out) = BOk b' (map (OPkt5 k) out) /\
        at5 w H b' s2 /\ glob_of b' = glob_of b /\ b_now b' = b_now b /\ b_chans b' = aset c (Chan cs r o) (b_chans b)).
      { intros s2 out B2 I2. eexists. split; [reflexivity|]. split; [|repeat split]. split; [cbn; rewrite aget_N, N.eqb_refl; reflexivity|]. split; [cbn in *; congruence|]. cbn. rewrite B2. exact F. }
      destruct res as [[q po]|]; [|split; [reflexivity|]; apply (FIN s1 []); auto]. split; [reflexivity|]. destruct (qos_eqb q L0).
      - rewrite app_nil_r. apply (FIN s1 (opt_list po)); auto.
      - pose proof (pend5 w H (seconds b) s1) as PN. pose proof (pendings5_keep (seconds b) s1 (glob_of b)) as KP2. destruct (pendings5 (seconds b) s1) as [s2 more]. destruct PN as (-> & BC2). destruct (KP2 _ _ eq_refl) as ((K2 & _) & _).
        apply (FIN s2 (opt_list po ++ more)); congruence.
    Qed.
    Lemma pkts5_say out : pkts5 k (map (OPkt5 k) out) = out.
    Proof. induction out as [|p out IH]; [reflexivity|]. cbn. rewrite N.eqb_refl. cbn. f_equal. exact IH. Qed.

    Definition inner5 (b : broker) (l : lst pkt5 nmsg req5 sess5) : Prop := BridgeSim.agrees_ hash5 hash3 (fun _ _ => pick) i5 k c A5 b l.
    Lemma poll5_sim e b l l' g' t r : inner5 b l -> answers b c e -> poll i5 e l (glob_of b) = (l', g', t, r) ->
      exists h b' n, bgo b h b' /\ own k h /\ pkts5 k (shown h) = OnlineSpec.queued t /\ (forall d, passed_by k (passed_in d h) = delivered_to d t) /\
        arrivals h = flat_map (arrival5 k) (firstn n (e_read e)) /\ glob_of b' = g' /\ b_now b' = b_now b /\
        match r with
        | RPending => inner5 b' l' \/ (l_take l' = Some false /\ handed b' k (seen5 l'))
        | RReady _ => aget k (b_tasks b') = Some (TEnd (seen5 l'))
        | RPanic => exists e, who e = Some k /\ bstep e b' = BPanic
        | _ => False
        end.
    Proof.
      intros AG AN E. assert (CH : exists cq nq o, aget c (b_chans b) = Some (Chan cq nq o)).
      { destruct AG as (R & T & ID & _). destruct (own_chan _ _ _ R T) as (cq & nq & X). exists cq, nq, true. rewrite <- ID. exact X. }
      pose proof AG as (_ & _ & _ & HK & TK & _). rewrite <- (poll_unready i5 e l (glob_of b) HK TK) in E.
      destruct (BridgeSim.poll_sim hash5 hash3 (fun _ _ => pick) i5 k c A5 (OPkt5 k) (pkts5 k) ev5 err5) with (e := unready e) (b := b) (l := l) (l' := l') (g' := g') (t := t) (r := r)
        as (h & b' & n & (T1 & T2 & T3 & T4 & T5) & G & N & O); auto.
      - apply online5_well.
      - exact pkts5_say.
      - intros. apply flat_map_app.
      - intros x. exact Logic.I.
      - exact packet5_H.
      - exact error5_H.
      - intros [|x] s; cbn; [reflexivity|]. discriminate.
      - exact control5_H.
      - exact normal5_H.
      - exists h, b', n. repeat (split; [assumption|]). split; [|auto]. rewrite T5. cbn [e_read unready]. clear. revert n. induction (e_read e) as [|x rs IH]; intros [|n]; cbn [firstn flat_map]; auto.
        rewrite IH. f_equal. destruct x as [[len x] hr|[|]]; reflexivity.
    Qed.

    (** ** v3 *)
    Notation at3 := (BridgeSim.at_ i3 k c A3).
    Notation end3 := (BridgeSim.end_ i3 k A3).
    Definition ev3 (x : N * in3) : bev := EPacket3 k (fst x) (snd x).
    Definition err3 (e : derr) : list bev := [].
    Lemma L_L3 w H s : BridgeSim.L i3 w H s = L3 w H s. Proof. reflexivity. Qed.
    Lemma disc_none3 s : i_disc i3 s = None <-> z_disc s = false.
    Proof. cbn. destruct (z_disc s); split; congruence. Qed.

    Lemma packet3_H w H b s x : reach b -> at3 w H b s -> i_disc i3 s = None ->
      match i_packet i3 (seconds b) x s (glob_of b) with
      | HpOk s1 g1 out req => req = None /\ let '(s2, out2) := i_after i3 (seconds b) s1 in
          exists b', bstep (ev3 x) b = BOk b' (map (OPkt3 k) (out ++ out2)) /\ at3 w H b' s2 /\ same b b' g1
      | HpErr s1 g1 out => out = [] /\ exists b', bstep (ev3 x) b = BOk b' [] /\ end3 w H b' s1 /\ same b b' g1
      | HpPanic => bstep (ev3 x) b = BPanic
      end.
    Proof.
      intros R (A & ID & F) D. destruct x as [len x]. rewrite L_L3 in A. apply disc_none3 in D. cbn [i_packet online3 i_after].
      unfold HookModel.packet3. cbn [hk_publish hk_subscribe hk_unsubscribe no_hooks fst snd].
      assert (X : (if cf_packet_server (g_cfg (glob_of b)) <? len then None else match x with _ => @None req3 end) = None) by (destruct (_ <? _); destruct x; reflexivity).
      match goal with |- context[match ?y with Some q => HpOk s (glob_of b) [] (Some q) | None => _ end] => assert (Y : y = None) by (destruct (_ <? _); destruct x; reflexivity); rewrite Y end. clear X Y.
      pose proof (BridgeLift.packet3 w H hash3 (seconds b) len x s (glob_of b) F) as PK.
      pose proof (packet_step3_keep hash3 (seconds b) len x s (glob_of b)) as KP. unfold packet_step3 in KP.
      assert (ST : bstep (ev3 (len, x)) b = match packet_step3 hash3 (seconds b) len x (L3 w H s) (glob_of b) with
          | Go3 s1 g out => let b1 := set_task k (TOnline (A3 s1)) (put_glob g b) in BOk (set_last k (b_now b) b1) (map (OPkt3 k) out)
          | Stop3 s1 g => BOk (set_task k (TEnd (A3 s1)) (put_glob g b)) []
          | Crash3 => BPanic end).
      { cbn. unfold do_packet3. rewrite A. change (z_disc (L3 w H s)) with (z_disc s). rewrite D. reflexivity. }
      rewrite ST. unfold packet_step3. clear ST.
      destruct (handle_packet3 hash3 (seconds b) len x s (glob_of b)) as [s1 g1 out|s1 g1|] eqn:E.
      - destruct PK as (-> & F1). split; [reflexivity|]. pose proof (after3 w H (seconds b) s1) as AF. destruct (after_packet3 (seconds b) s1) as [s2 out2] eqn:EA. destruct AF as (-> & BC2).
        assert (KK : z_id s2 = z_id s /\ gkeep (glob_of b) g1). { unfold step_kept3 in KP. destruct (is_disconnect3 x); [destruct KP as ((? & _) & ? & _); auto|]. destruct KP as ((? & _) & ? & _). auto. }
        destruct KK as (K1 & K2). eexists. split; [reflexivity|]. split.
        + split; [|split; [cbn; cbn in ID; congruence|cbn; rewrite BC2; exact F1]]. cbn; rewrite aget_N, N.eqb_refl; reflexivity.
        + split; [|split; reflexivity]. exact (glob_put g1 b K2).
      - destruct PK as (-> & F1). split; [reflexivity|]. assert (K2 : gkeep (glob_of b) g1). { unfold step_kept3 in KP. destruct (is_disconnect3 x); destruct KP as (_ & ? & _); auto. }
        eexists. split; [reflexivity|]. split.
        + split; [|exact F1]. cbn. rewrite aget_N, N.eqb_refl. reflexivity.
        + split; [|split; reflexivity]. exact (glob_put g1 b K2).
      - rewrite PK. reflexivity.
    Qed.
    Lemma control3_H w H b s m r ms o : reach b -> at3 w H b s -> aget c (b_chans b) = Some (Chan (m :: r) ms o) ->
      match i_control i3 (seconds b) (plain m) s (glob_of b) with (s', g', stop, taken) => s' = s /\ g' = glob_of b /\
        exists b' out, bstep (EControl k) b = BOk b' out /\ pkts3 k out = [] /\ glob_of b' = glob_of b /\ b_now b' = b_now b /\ b_chans b' = aset c (Chan r ms o) (b_chans b) /\
          if taken then handed b' k (A3 (BridgeSim.L i3 w H s)) else if stop then end3 w H b' s else at3 w H b' s end.
    Proof.
      intros R (A & ID & F) C. rewrite L_L3 in A. assert (ID' : a_id (A3 (L3 w H s)) = c) by exact ID. rewrite <- ID' in C.
      destruct (control_step _ _ _ _ _ _ _ R A C) as (b' & out & ST & O & G & N & CH & X). rewrite ID' in CH.
      assert (PO : pkts3 k out = []). { clear -O. induction out as [|x out IH]; [reflexivity|]. destruct (O x (or_introl eq_refl)) as (j & ->). cbn. apply IH. intros y I. apply O. now right. }
      cbn [i_control online3]. destruct m as [j|j| |t|t]; cbn [plain control3] in *; (split; [reflexivity|]; split; [reflexivity|]; exists b', out; repeat (split; [assumption|]); auto); (split; [exact X|]); auto.
    Qed.
    Lemma normal3_H w H b s m r cs o : reach b -> at3 w H b s -> i_disc i3 s = None -> aget c (b_chans b) = Some (Chan cs (m :: r) o) ->
      match i_normal i3 (seconds b) (fst m) (snd m) s (glob_of b) with (s', g', res) => g' = glob_of b /\
        let '(s2, out) := match res with
          | None => (s', [])
          | Some (q0, po) => if q0 then (s', opt_list po) else let '(s2, more) := i_pendings i3 (seconds b) s' in (s2, opt_list po ++ more)
          end in
        exists b', bstep (ENormal k) b = BOk b' (map (OPkt3 k) out) /\ at3 w H b' s2 /\ glob_of b' = glob_of b /\ b_now b' = b_now b /\ b_chans b' = aset c (Chan cs r o) (b_chans b) end.
    Proof.
      intros R (A & ID & F) D C. rewrite L_L3 in A. apply disc_none3 in D. cbn [i_normal online3 i_pendings]. assert (ID' : a_id (A3 (L3 w H s)) = c) by exact ID.
      assert (ST : bstep (ENormal k) b = let '(a1, out) := normal (seconds b) (b_cfg b) k true (snd m) (A3 (L3 w H s)) in BOk (set_task k (TOnline a1) (set_chan c (Chan cs r o) b)) out).
      { cbn [BrokerModel.bstep]. unfold do_normal. rewrite A. change (a_disc (A3 (L3 w H s))) with (z_disc s). rewrite D, ID', C. reflexivity. }
      rewrite ST. clear ST. cbn [normal]. 
      pose proof (normal3 w H (seconds b) (snd m) s) as NM. pose proof (handle_normal3_keep (seconds b) (snd m) s (glob_of b)) as KP.
      destruct (handle_normal3 (seconds b) (snd m) s) as [s1 res] eqn:E. destruct NM as (-> & BC). destruct (KP _ _ eq_refl) as ((K1 & _) & _).
      assert (FIN : forall s2 out, z_bcast s2 = z_bcast s -> z_id s2 = z_id s -> exists b', BOk (set_task k (TOnline (A3 (L3 w H s2))) (set_chan c (Chan cs r o) b)) (map (OPkt3 k) out) = BOk b' (map (OPkt3 k) out) /\
        at3 w H b' s2 /\ glob_of b' = glob_of b /\ b_now b' = b_now b /\ b_chans b' = aset c (Chan cs r o) (b_chans b)).
      { intros s2 out B2 I2. eexists. split; [reflexivity|]. split; [|repeat split]. split; [cbn; rewrite aget_N, N.eqb_refl; reflexivity|]. split; [cbn in *; congruence|]. cbn. rewrite B2. exact F. }
      destruct res as [[q po]|]; [|split; [reflexivity|]; apply (FIN s1 []); auto]. split; [reflexivity|]. destruct (qos_eqb q L0).
      - rewrite app_nil_r. apply (FIN s1 (opt_list po)); auto.
      - pose proof (pend3 w H (seconds b) s1) as PN. pose proof (pendings3_keep (seconds b) s1 (glob_of b)) as KP2. destruct (pendings3 (seconds b) s1) as [s2 more]. destruct PN as (-> & BC2). destruct (KP2 _ _ eq_refl) as ((K2 & _) & _).
        apply (FIN s2 (opt_list po ++ more)); congruence.
    Qed.
    Lemma pkts3_say out : pkts3 k (map (OPkt3 k) out) = out.
    Proof. induction out as [|p out IH]; [reflexivity|]. cbn. rewrite N.eqb_refl. cbn. f_equal. exact IH. Qed.

    Definition inner3 (b : broker) (l : lst pkt3 nmsg req3 sess3) : Prop := BridgeSim.agrees_ hash5 hash3 (fun _ _ => pick) i3 k c A3 b l.
    Lemma poll3_sim e b l l' g' t r : inner3 b l -> answers b c e -> poll i3 e l (glob_of b) = (l', g', t, r) ->
      exists h b' n, bgo b h b' /\ own k h /\ pkts3 k (shown h) = OnlineSpec.queued t /\ (forall d, passed_by k (passed_in d h) = delivered_to d t) /\
        arrivals h = flat_map (arrival3 k) (firstn n (e_read e)) /\ glob_of b' = g' /\ b_now b' = b_now b /\
        match r with
        | RPending => inner3 b' l' \/ (l_take l' = Some false /\ handed b' k (seen3 l'))
        | RReady _ => aget k (b_tasks b') = Some (TEnd (seen3 l'))
        | RPanic => exists e, who e = Some k /\ bstep e b' = BPanic
        | _ => False
        end.
    Proof.
      intros AG AN E. assert (CH : exists cq nq o, aget c (b_chans b) = Some (Chan cq nq o)).
      { destruct AG as (R & T & ID & _). destruct (own_chan _ _ _ R T) as (cq & nq & X). exists cq, nq, true. rewrite <- ID. exact X. }
      pose proof AG as (_ & _ & _ & HK & TK & _). rewrite <- (poll_unready i3 e l (glob_of b) HK TK) in E.
      destruct (BridgeSim.poll_sim hash5 hash3 (fun _ _ => pick) i3 k c A3 (OPkt3 k) (pkts3 k) ev3 err3) with (e := unready e) (b := b) (l := l) (l' := l') (g' := g') (t := t) (r := r)
        as (h & b' & n & (T1 & T2 & T3 & T4 & T5) & G & N & O); auto.
      - apply online3_well.
      - exact pkts3_say.
      - intros. apply flat_map_app.
      - intros x. exact Logic.I.
      - exact packet3_H.
      - intros. discriminate.
      - exact control3_H.
      - exact normal3_H.
      - exists h, b', n. repeat (split; [assumption|]). split; [|auto]. rewrite T5. cbn [e_read unready]. clear. revert n. induction (e_read e) as [|x rs IH]; intros [|n]; cbn [firstn flat_map]; auto.
        rewrite IH. f_equal. destruct x as [[len x] hr|[|]]; reflexivity.
    Qed.
  End K.

  (** ** In the words of BridgeSpec *)
  Notation agrees5 := (BridgeSpec.agrees5 hash5 hash3 pick enc5).
  Notation agrees3 := (BridgeSpec.agrees3 hash5 hash3 pick enc3).
  Lemma agrees5_inner k b l : agrees5 k b l <-> inner5 k (s_id (l_s l)) b l.
  Proof. unfold BridgeSpec.agrees5, inner5, agrees_, orderly, J, wfq. split; [intros (R & T & HK & TK & W & TD & IN)|intros (R & T & _ & HK & TK & W & TD & IN)]; repeat (split; [assumption || reflexivity|]); (split; [destruct (l_wp l) as [|[]]; exact W|]); try (split; [exact TD|]); exact IN. Qed.
  Lemma agrees3_inner k b l : agrees3 k b l <-> inner3 k (z_id (l_s l)) b l.
  Proof. unfold BridgeSpec.agrees3, inner3, agrees_, orderly, J, wfq. split; [intros (R & T & HK & TK & W & TD & IN)|intros (R & T & _ & HK & TK & W & TD & IN)]; repeat (split; [assumption || reflexivity|]); (split; [destruct (l_wp l) as [|[]]; exact W|]); try (split; [exact TD|]); exact IN. Qed.

  Lemma outgoing_none (bc : bcast) : outgoing [] bc = bc.
  Proof. unfold outgoing. rewrite <- (map_id bc) at 2. apply map_ext. intros [d q]. reflexivity. Qed.
  Lemma start5 k b s : reach b -> aget k (b_tasks b) = Some (TOnline (A5 s)) -> agrees5 k b (lst_new s).
  Proof.
    intros R A. split; [exact R|]. destruct R as (c0 & h0 & R). assert (SA : sess_at b k = Some (A5 s)) by (unfold sess_at; rewrite A; reflexivity).
    destruct (run_bc _ _ _ _ _ _ _ _ R SA) as (ND & CN). cbn [a_bcast a_bcnt] in ND, CN.
    split; [|split; [reflexivity|split; [reflexivity|split; [constructor|split; [split; assumption|intros d []]]]]].
    rewrite A. unfold seen5. cbn [l_sinks l_s lst_new]. rewrite outgoing_none, <- CN. destruct s; reflexivity.
  Qed.
  Lemma start3 k b s : reach b -> aget k (b_tasks b) = Some (TOnline (A3 s)) -> agrees3 k b (lst_new s).
  Proof.
    intros R A. split; [exact R|]. destruct R as (c0 & h0 & R). assert (SA : sess_at b k = Some (A3 s)) by (unfold sess_at; rewrite A; reflexivity).
    destruct (run_bc _ _ _ _ _ _ _ _ R SA) as (ND & CN). cbn [a_bcast a_bcnt] in ND, CN.
    split; [|split; [reflexivity|split; [reflexivity|split; [constructor|split; [split; assumption|intros d []]]]]].
    rewrite A. unfold seen3. cbn [l_sinks l_s lst_new]. rewrite outgoing_none, <- CN. destruct s; reflexivity.
  Qed.
  Lemma reach_step b e b' out : reach b -> bstep e b = BOk b' out -> reach b'.
  Proof. intros (c & h & R) S. exists c. eexists. econstructor; eauto. Qed.
  Lemma others5 k b l e b' out : agrees5 k b l -> bstep e b = BOk b' out -> who e <> Some k -> agrees5 k b' l.
  Proof. intros (R & T & X) S W. split; [eapply reach_step; eauto|]. split; [|exact X]. apply (step_only _ _ _ _ _ _ _ _ _ _ (reach_good _ R) S T eq_refl W). Qed.
  Lemma others3 k b l e b' out : agrees3 k b l -> bstep e b = BOk b' out -> who e <> Some k -> agrees3 k b' l.
  Proof. intros (R & T & X) S W. split; [eapply reach_step; eauto|]. split; [|exact X]. apply (step_only _ _ _ _ _ _ _ _ _ _ (reach_good _ R) S T eq_refl W). Qed.

  Lemma poll5 k e b l l' g' t r : agrees5 k b l -> answers b (s_id (l_s l)) e -> poll i5 e l (glob_of b) = (l', g', t, r) ->
    exists h b' n, bgo b h b' /\ own k h /\ pkts5 k (shown h) = OnlineSpec.queued t /\ (forall d, passed_by k (passed_in d h) = delivered_to d t) /\
      arrivals h = flat_map (arrival5 k) (firstn n (e_read e)) /\ glob_of b' = g' /\ b_now b' = b_now b /\
      match r with
      | RPending => agrees5 k b' l' \/ (l_take l' = Some false /\ handed b' k (seen5 l'))
      | RReady _ => aget k (b_tasks b') = Some (TEnd (seen5 l'))
      | RPanic => exists e, who e = Some k /\ bstep e b' = BPanic
      | _ => False
      end.
  Proof.
    intros AG AN E. apply agrees5_inner in AG. destruct (poll5_sim k _ e b l l' g' t r AG AN E) as (h & b' & n & X1 & X2 & X3 & X4 & X5 & X6 & X7 & X8).
    exists h, b', n. repeat (split; [assumption|]). destruct r; auto. destruct X8 as [X8|X8]; [left|right; exact X8]. apply agrees5_inner. pose proof X8 as (_ & _ & ID & _). cbn in ID. rewrite ID. exact X8.
  Qed.
  Lemma poll3 k e b l l' g' t r : agrees3 k b l -> answers b (z_id (l_s l)) e -> poll i3 e l (glob_of b) = (l', g', t, r) ->
    exists h b' n, bgo b h b' /\ own k h /\ pkts3 k (shown h) = OnlineSpec.queued t /\ (forall d, passed_by k (passed_in d h) = delivered_to d t) /\
      arrivals h = flat_map (arrival3 k) (firstn n (e_read e)) /\ glob_of b' = g' /\ b_now b' = b_now b /\
      match r with
      | RPending => agrees3 k b' l' \/ (l_take l' = Some false /\ handed b' k (seen3 l'))
      | RReady _ => aget k (b_tasks b') = Some (TEnd (seen3 l'))
      | RPanic => exists e, who e = Some k /\ bstep e b' = BPanic
      | _ => False
      end.
  Proof.
    intros AG AN E. apply agrees3_inner in AG. destruct (poll3_sim k _ e b l l' g' t r AG AN E) as (h & b' & n & X1 & X2 & X3 & X4 & X5 & X6 & X7 & X8).
    exists h, b', n. repeat (split; [assumption|]). destruct r; auto. destruct X8 as [X8|X8]; [left|right; exact X8]. apply agrees3_inner. pose proof X8 as (_ & _ & ID & _). cbn in ID. rewrite ID. exact X8.
  Qed.
End Inst.
