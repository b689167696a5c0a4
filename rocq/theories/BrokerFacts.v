(** Corollaries about runs of the broker, in the form in which BrokerProps states them. *)
From Coq Require Import List Bool NArith String Lia.
From Verif Require Import Base BaseLemmas TopicModel MsgModel PendingModel OutModel RouteModel RetainModel GlobModel Sess5Model Sess3Model ConnModel RegModel BrokerModel
  BrokerSpec FrameProofs CoreProofs BrokerInv TaskMove StepProofs RunProofs RegProofs GaugeProofs TimeProofs WillProofs KeepProofs EvolProofs HistProofs.
Import ListNotations.
Local Open Scope N_scope.

Section Facts.
  Variables (hash5 : wpub5 -> N) (hash3 : wpub3 -> N) (pick : draw -> broker -> string -> string -> N).
  Local Notation bstep := (bstep hash5 hash3 pick).
  Local Notation brun := (brun hash5 hash3 pick).
  Local Notation bgo := (bgo hash5 hash3 pick).
  Local Notation exec := (exec hash5 hash3 pick).

  Lemma exec_go es : forall b b' out, exec es b = Some (b', out) -> exists h, bgo b h b'.
  Proof.
    induction es as [|e es IH]; cbn; intros b b' out E; [injection E as <- _; exists []; constructor|].
    destruct (bstep e b) as [|b1 o1|] eqn:S; try discriminate. destruct (exec es b1) as [[b2 o2]|] eqn:E1; [|discriminate]. injection E as <- _.
    destruct (IH _ _ _ E1) as (h & G). exists (h ++ [Past b e o1])%list. eapply go_trans; eauto. apply (go_cons _ _ _ b [] b e b1 o1); [constructor|auto].
  Qed.
  Lemma exec_run c es b out : exec es (broker_new c) = Some (b, out) -> exists h, brun c h b.
  Proof. intros E. destruct (exec_go _ _ _ _ E) as (h & G). exists (h ++ [])%list. eapply run_go; eauto. constructor. Qed.

  Lemma trace_run c es : forall h b h' b', brun c h b -> trace hash5 hash3 pick es h b = Some (h', b') -> brun c h' b'.
  Proof.
    induction es as [|e es IH]; cbn; intros h b h' b' R E; [injection E as <- <-; auto|].
    destruct (bstep e b) as [|b1 o1|] eqn:S; try discriminate. eapply IH; [|exact E]. constructor; auto.
  Qed.
  Lemma trace_new c es h b : trace hash5 hash3 pick es [] (broker_new c) = Some (h, b) -> brun c h b.
  Proof. apply trace_run. constructor. Qed.

  (** ** Identifiers *)
  Lemma ids_bijective c h b i j d d' : brun c h b -> known b i d -> known b j d' -> (i = j <-> d = d').
  Proof.
    intros R K K'. pose proof (proj1 (run_good _ _ _ _ _ _ R)) as I. split.
    - intros <-. unfold known in *. congruence.
    - intros <-. eapply known_inj; eauto.
  Qed.
  Lemma ids_stay c h b p i j d : brun c h b -> In p h -> known (w_b p) i d -> known b j d -> i = j.
  Proof.
    intros R P K K'. destruct (run_past _ _ _ _ _ _ _ R P) as (h1 & R1 & h2 & G). eapply id_stays; eauto. eapply run_good; eauto.
  Qed.
  Lemma connect_fine c h b e i : brun c h b -> asks e = Some i -> bstep e b <> BPanic.
  Proof.
    intros R A. pose proof (run_good _ _ _ _ _ _ R) as G. destruct e; try discriminate; cbn [BrokerModel.bstep]; destruct (_ <? _); try discriminate; apply connect_no_panic; auto.
  Qed.
  Lemma session_id c h b k a : brun c h b -> sess_at b k = Some a -> (forall a', aget k (b_tasks b) <> Some (TOffDrain a' true)) -> known b (a_ident a) (a_id a).
  Proof.
    unfold sess_at. intros R A N0. destruct (aget k (b_tasks b)) as [t|] eqn:T; [|discriminate]. apply (sess_known b k t); auto; [apply (run_good _ _ _ _ _ _ R)|].
    intros a' ->. eapply N0; eauto.
  Qed.

  (** ** Lock-out *)
  Lemma dead_for_good b h b' i cid : good b -> dead b i cid -> (forall k a, sess_at b k = Some a -> a_ident a <> i) -> bgo b h b' ->
    forall k a, sess_at b' k = Some a -> a_ident a <> i.
  Proof.
    intros G D N0 R. induction R as [|b0 h b e b' out R IH S]; auto. pose proof (go_good _ _ _ _ _ _ G R) as G1. pose proof (dead_go _ _ _ _ _ _ _ _ G R D) as D1.
    pose proof (dead_step _ _ _ _ _ _ _ _ _ G1 S D1) as D2. pose proof (good_step _ _ _ _ _ _ _ G1 S) as G2.
    intros k a A. unfold sess_at in A. destruct (aget k (b_tasks b')) as [t|] eqn:T; [|discriminate].
    destruct (sess_back _ _ _ _ _ _ _ _ _ _ G1 S T A) as [(t0 & a0 & A0 & T0 & SM)|(x & r & A0 & E & -> & _)].
    - destruct SM as (-> & _). apply (IH G D N0 k). unfold sess_at. rewrite A0. auto.
    - eapply (dead_nobody b' i cid k); [apply G2|exact D2|exact T|reflexivity|discriminate].
  Qed.

  (** ** Takeover succeeds when the holder listens *)
  Lemma takeover c h b k j x a (on : bool) ms : brun c h b -> aget k (b_tasks b) = Some (if on then TOnline a else TOffline a) -> aget j (b_tasks b) = Some (TSend x (a_id a)) -> k <> j ->
    aget (a_id a) (b_chans b) = Some (Chan [] ms true) -> a_v5 a = p_v5 x ->
    exists b' r, exec [EPut j; EControl k] b = Some (b', []) /\ aget k (b_tasks b') = None /\ aget j (b_tasks b') = Some (TJoin x r) /\ rc_id r = a_id a.
  Proof.
    intros R A J KJ CH V. cbn [BrokerSpec.exec BrokerModel.bstep]. unfold do_put. rewrite J, CH. cbn [ch_open negb ctl_room ch_ctl].
    unfold do_control. cbn [b_tasks b_chans set_task set_chan set_tasks set_chans]. rewrite aget_aset_ne, A by auto.
    assert (X : forall on', match aget (a_id a) (aset (a_id a) (push_ctl (if p_v5 x then COnline5 j else COnline3 j) (Chan [] ms true)) (b_chans b)) with
       | Some (Chan (m :: r) ms0 o) => control pick on' k a m (set_chan (a_id a) (Chan r ms0 o) (set_task j (TReply x (a_id a)) (set_chan (a_id a) (push_ctl (if p_v5 x then COnline5 j else COnline3 j) (Chan [] ms true)) b)))
       | _ => BNo end = control pick on' k a (if p_v5 x then COnline5 j else COnline3 j)
           (set_chan (a_id a) (Chan [] ms true) (set_task j (TReply x (a_id a)) (set_chan (a_id a) (push_ctl (if p_v5 x then COnline5 j else COnline3 j) (Chan [] ms true)) b)))).
    { intros on'. rewrite aget_aset_eq. reflexivity. }
    assert (AD : aget j (adel k (aset j (TReply x (a_id a)) (b_tasks b))) = Some (TReply x (a_id a))) by (rewrite aget_adel_ne, aget_aset_eq; auto).
    assert (DK : forall t0, aget k (aset j t0 (adel k (aset j (TReply x (a_id a)) (b_tasks b)))) = None).
    { intros t0. rewrite aget_aset_ne by auto. apply aget_adel_eq. apply NoDup_aset. apply (i_tnd _ (proj1 (run_good _ _ _ _ _ _ R))). }
    destruct on; cbv iota; rewrite X; destruct a as [s|s], x as [cn data|s0]; try discriminate V; cbn [p_v5 control];
      cbn [b_tasks set_task set_chan set_tasks set_chans b_chans]; rewrite aget_aset_eq; cbn [a_id]; rewrite ?aget_aset_eq; unfold hand_over;
      (eexists; eexists; split; [reflexivity|]; cbn [b_tasks set_task end_task set_tasks set_chan set_chans]; split; [apply DK|split; [apply aget_aset_eq|]]; try reflexivity).
    cbn [rc_id build_state3 snd st3_id]. match goal with |- context[v3_take_all ?n ?l s] => generalize n l end. clear. intros n l. revert s.
    induction l as [|m l IH]; intros s; auto. unfold v3_take_all in *. cbn [fold_left]. rewrite IH.
    destruct (handle_normal3 _ (snd m) s) as [s2 r] eqn:H. apply InRun3.normal3_frame in H. destruct H as (o & ->). reflexivity.
  Qed.

  (** ** Wills *)
  Lemma will_once c h b k : brun c h b -> (List.length (wills_in k h) <= 1)%nat /\ forall w, In w (wills_in k h) -> asked_will k h = [w].
  Proof.
    intros R. destruct (will_account _ _ _ _ _ _ k R) as (_ & [(-> & _)|(w & -> & -> & _)]); cbn; split; auto; intros w' []; subst; auto. contradiction.
  Qed.
  Lemma disconnect_no_will c h b k e b1 out a hh b2 : brun c h b -> bstep e b = BOk b1 out ->
    ((exists len x, e = EPacket5 k len (IDisconnect 0 x)) \/ (exists len, e = EPacket3 k len YDisconnect)) ->
    sess_at b1 k = Some a -> a_quit a = true -> bgo b1 hh b2 -> wills_in k hh = [] /\ wills_of k out = [].
  Proof.
    intros R S E A Q G. pose proof (run_good _ _ _ _ _ _ R) as GB. pose proof (good_step _ _ _ _ _ _ _ GB S) as GB1.
    unfold sess_at in A. destruct (aget k (b_tasks b1)) as [t|] eqn:T; [|discriminate].
    assert (L : k < b_conns b1) by (apply (task_num b1 k t); auto).
    assert (O : wills_of k out = [] /\ t_will t = None).
    { assert (A0 : exists a0, aget k (b_tasks b) = Some (TOnline a0) /\ a_quit a0 = false).
      { destruct E as [(len & x & ->)|(len & ->)]; cbn [BrokerModel.bstep] in S.
        - unfold do_packet5 in S. destruct (aget k (b_tasks b)) as [[| | | |[s|s]| | | |]|] eqn:A0; try discriminate. destruct (is_disconnected5 s) eqn:D; [discriminate|].
          unfold is_disconnected5 in D. apply orb_false_iff in D. eexists; split; [reflexivity|apply D].
        - unfold do_packet3 in S. destruct (aget k (b_tasks b)) as [[| | | |[s|s]| | | |]|] eqn:A0; try discriminate. destruct (z_disc s) eqn:D; [discriminate|]. eauto. }
      destruct A0 as (a0 & A0 & Q0). pose proof (step_move _ _ _ _ _ _ _ (proj1 GB) S k) as M. rewrite A0, T in M.
      inversion M; subst; try (match goal with H : EControl _ = _ |- _ => destruct E as [(? & ? & E)|(? & E)]; discriminate E | H : _ = EControl _ |- _ => destruct E as [(? & ? & E)|(? & E)]; discriminate E end).
      - cbn in A. congruence.
      - cbn in A. match goal with H : akept _ _ |- _ => apply akept_quit in H; destruct H as (X & _) end. congruence.
      - destruct E as [(? & ? & E)|(? & E)]; inversion E; subst. cbn in A. inversion A; subst. cbn in Q. match goal with H : if s_cdisc s' then _ else _ |- _ => rewrite Q in H; destruct H as (H & _) end.
        cbn. match goal with H : s_will s' = _ |- _ => rewrite H end. auto.
      - cbn. match goal with H : z_will s' = _ |- _ => rewrite H end. auto.
      - cbn in A. match goal with H : akept _ _ |- _ => apply akept_quit in H; destruct H as (X & _) end. congruence. }
    destruct O as [O1 O2]. split; auto. apply (no_will_later _ _ _ b1 hh b2 k GB1 G L). unfold will_at. rewrite T. auto.
  Qed.
  Lemma disconnect_zero c h b k b1 out len code x s s1 : brun c h b -> bstep (EPacket5 k len (IDisconnect code x)) b = BOk b1 out ->
    aget k (b_tasks b) = Some (TOnline (A5 s)) -> aget k (b_tasks b1) = Some (TOnline (A5 s1)) -> s_expiry s = 0 -> s_expiry s1 = 0.
  Proof.
    intros R S A A1 Z. pose proof (run_good _ _ _ _ _ _ R) as GB. pose proof (step_move _ _ _ _ _ _ _ (proj1 GB) S k) as M. rewrite A, A1 in M. inversion M; subst; auto.
    - match goal with H : akept _ _ |- _ => apply akept_expiry in H; cbn in H end. congruence.
    - match goal with H : if s_cdisc s1 then _ else _ |- _ => destruct (s_cdisc s1); decompose [and] H end; auto; try congruence.
  Qed.

  (** ** Keep-alive *)
  Lemma regular_kept c h b k t a : brun c h b -> aget k (b_tasks b) = Some t -> t_sess t = Some a -> t_going t = true ->
    (forall q, In q h -> asks (w_e q) = Some (a_ident a) -> b_conns (w_b q) = k) ->
    (forall h2 p h1, h = (h2 ++ p :: h1)%list -> k < b_conns (w_b p) -> b_now (w_b p) <= heard k h1 + a_keep a * 1500) ->
    ~ kick_coming b (a_id a).
  Proof.
    intros R A T G ON RG K. destruct (kick_reason _ _ _ _ _ _ _ _ _ R A T G K) as (h2 & p & h1 & n & k0 & half & due & E & _ & NE & [(-> & PK & L)|(NK & q & Q1 & Q2 & Q3)]).
    - assert (KL : k < b_conns (w_b p)).
      { assert (P : In p h) by (rewrite E; apply in_or_app; right; left; auto). destruct (run_past _ _ _ _ _ _ _ R P) as (h3 & R3 & _).
        apply nth_error_In in NE. apply (run_keep _ _ _ _ _ _ _ _ _ _ R3) in NE. apply NE. }
      specialize (RG _ _ _ E KL). lia.
    - apply NK. rewrite <- Q3. auto.
  Qed.
  Lemma zero_kept c h b k t a : brun c h b -> aget k (b_tasks b) = Some t -> t_sess t = Some a -> t_going t = true ->
    (forall q, In q h -> asks (w_e q) = Some (a_ident a) -> b_conns (w_b q) = k) -> a_keep a = 0 -> ~ kick_coming b (a_id a).
  Proof.
    intros R A T G ON Z K. destruct (kick_reason _ _ _ _ _ _ _ _ _ R A T G K) as (h2 & p & h1 & n & k0 & half & due & E & _ & NE & [(-> & L & _)|(NK & q & Q1 & Q2 & Q3)]).
    - lia.
    - apply NK. rewrite <- Q3. auto.
  Qed.
  Lemma silent_kicked c h b k a : brun c h b -> aget k (b_tasks b) = Some (TOnline a) -> a_disc a = false -> 0 < a_keep a ->
    heard k h + a_keep a * 2000 <= b_now b ->
    kick_coming b (a_id a) \/ exists n b', bstep (EFire n) b = BOk b' [] /\ kick_coming b' (a_id a).
  Proof.
    intros R A D P L. assert (TG : t_going (TOnline a) = true) by (cbn; rewrite D; auto).
    destruct (keep_watch _ _ _ _ _ _ _ _ _ R A eq_refl TG P) as [(due & I & LD)|]; auto. specialize (LD eq_refl). right.
    destruct (In_nth_error _ _ I) as (n & NE). pose proof (run_good _ _ _ _ _ _ R) as G.
    pose proof (last_heard _ _ _ _ _ _ _ _ R A TG) as LH. pose proof (heard_le _ _ _ _ _ _ k R) as HL.
    assert (BG : a_keep a * 500 * 3 < b_now b - match aget k (b_last b) with Some t => t | None => 0 end) by (rewrite LH; lia).
    assert (KN : known b (a_ident a) (a_id a)) by (apply (sess_known b k (TOnline a) a (proj1 G) A eq_refl); intros; discriminate).
    assert (S : exists b', bstep (EFire n) b = BOk b' []).
    { cbn [BrokerModel.bstep]. unfold do_fire. rewrite NE. destruct (N.ltb_spec (b_now b) due); [lia|].
      destruct (N.leb_spec (b_now b - match aget k (b_last b) with Some t => t | None => 0 end) (a_keep a * 500 * 3)); [lia|].
      destruct (in_list _ _); eexists; reflexivity. }
    destruct S as (b' & S). exists n, b'. split; auto. apply (fire_kicks _ _ _ _ _ _ _ _ _ _ _ _ _ G S NE A eq_refl); auto; intros; discriminate.
  Qed.
  (** ** More *)
  Lemma kicked_ends k b b' out a ch : bstep (EControl k) b = BOk b' out -> aget k (b_tasks b) = Some (TOnline a) ->
    aget (a_id a) (b_chans b) = Some ch -> ch_ctl ch = [CKick] -> aget k (b_tasks b') = Some (TEnd a).
  Proof.
    intros S A C E. cbn [BrokerModel.bstep] in S. unfold do_control in S. rewrite A, C in S. destruct ch as [cs ms o]. cbn in E. subst cs. cbn [control] in S.
    destruct a; inversion S; subst; apply aget_aset_eq.
  Qed.
  Lemma expiry_gone c h b k b' out a ct ch : brun c h b -> bstep (EControl k) b = BOk b' out -> aget k (b_tasks b) = Some (TOffline a) -> a_v5 a = true ->
    a_ctime a = Some ct -> aget (a_id a) (b_chans b) = Some ch -> ch_ctl ch = [CExpired ct] -> forall i, ~ known b' i (a_id a).
  Proof.
    intros R S A V CT C E. pose proof (run_good _ _ _ _ _ _ R) as G. apply (expired_gone _ _ _ k b b' out a ct G S A V CT).
    assert (O : exists q, cv b (a_id a) = Some (q, true)).
    { eapply (owner_open _ _ _ _ _ (i_core _ (proj1 G)) k). rewrite (rl_of _ _ _ A). reflexivity. }
    destruct O as (q & O). unfold cv in *. rewrite C in *. cbn in *. inversion O. unfold cview. rewrite E. f_equal.
  Qed.
  Lemma expiry_coming c h b k a ct : brun c h b -> aget k (b_tasks b) = Some (TOffline a) -> a_v5 a = true -> a_ctime a = Some ct ->
    exists d p a0, token b (a_id a) (CExpired ct) d /\ In p h /\ w_e p = EDone k /\ aget k (b_tasks (w_b p)) = Some (TDrain a0) /\ a_expiry a0 = a_expiry a /\
      forall due, d = Some due -> due = b_now (w_b p) + a_expiry a * 1000.
  Proof.
    intros R A V CT. destruct (expiry_pending _ _ _ _ _ _ _ _ _ R (or_introl A) V CT) as (d & T).
    destruct (t_due _ _ (run_tinv _ _ _ _ _ _ R) k _ a ct _ _ A eq_refl eq_refl CT T) as (p & a0 & P & E & A0 & EX & _ & TO).
    exists d, p, a0. repeat split; auto. intros due ->. cbn in TO. congruence.
  Qed.
  Lemma zero_gone c h b k b' out a : brun c h b -> bstep (EDone k) b = BOk b' out -> aget k (b_tasks b) = Some (TDrain a) -> a_ends a = true ->
    aget k (b_tasks b') = None /\ forall i, ~ known b' i (a_id a).
  Proof.
    intros R S A E. pose proof (run_good _ _ _ _ _ _ R) as G. split; [|eapply ends_gone; eauto].
    pose proof (step_move _ _ _ _ _ _ _ (proj1 G) S k) as M. rewrite A in M. pose proof (done_drain _ _ _ _ _ _ _ _ G S A) as [D|D]; auto.
    pose proof (done_reg _ _ _ _ _ _ _ _ S A) as DR. rewrite E in DR. destruct DR as (_ & ->). apply aget_adel_eq. apply (i_tnd _ (proj1 G)).
  Qed.
  Lemma clean_subs c h b k q a f : brun c h b -> made_by h q k -> e_clean (w_e q) = Some true -> sess_at b k = Some a ->
    In f (a_filters a) -> exists p, In p h /\ asked_filter k f p.
  Proof.
    intros R M E A F. eapply sub_own; eauto. destruct (clean_from _ _ _ _ _ _ _ _ R A) as (q' & Q1 & Q2).
    assert (X : e_clean (w_e q) = e_clean (w_e q')) by (eapply made_once; eauto; congruence). congruence.
  Qed.
  Lemma charge_owns t i : in_charge t i -> exists v c, role_of t = Owns v i c false.
  Proof. destruct t as [| | | | | | | |a []]; cbn; try contradiction; intros <-; eauto. Qed.
  Lemma one_charge c h b k1 k2 t1 t2 i : brun c h b -> aget k1 (b_tasks b) = Some t1 -> aget k2 (b_tasks b) = Some t2 -> in_charge t1 i -> in_charge t2 i -> k1 = k2.
  Proof.
    intros R A1 A2 C1 C2. pose proof (proj1 (run_good _ _ _ _ _ _ R)) as I. apply charge_owns in C1, C2. destruct C1 as (v1 & c1 & R1), C2 as (v2 & c2 & R2).
    assert (K1 : known b i c1) by (apply known_iff; auto; eapply (k_reg _ _ _ _ _ (i_core _ I) k1); rewrite (rl_of _ _ _ A1), R1; reflexivity).
    assert (K2 : known b i c2) by (apply known_iff; auto; eapply (k_reg _ _ _ _ _ (i_core _ I) k2); rewrite (rl_of _ _ _ A2), R2; reflexivity).
    assert (c1 = c2) by (unfold known in *; congruence). subst c2.
    eapply (k_one _ _ _ _ _ (i_core _ I) k1 k2); [rewrite (rl_of _ _ _ A1), R1|rewrite (rl_of _ _ _ A2), R2]; reflexivity.
  Qed.
  Lemma served_by c h b i d : brun c h b -> known b i d -> (forall p, In p h -> ~ gave_up i p) -> exists k t, aget k (b_tasks b) = Some t /\ in_charge t i.
  Proof. intros R K N0. destruct (run_served _ _ _ _ _ _ _ _ R K N0) as (k & t & A & C & _). eauto. Qed.
  Lemma gauge_exact c h b : brun c h b -> (forall p, In p h -> calm p) ->
    (forall k t, aget k (b_tasks b) = Some t -> t_connecting t = false) -> N.of_nat (connected_count b) = r_online (b_reg b).
  Proof.
    intros R C T. pose proof (run_good _ _ _ _ _ _ R) as G. pose proof (run_exact _ _ _ _ _ _ R C) as E.
    assert (X : connected_count b = N.to_nat (r_online (b_reg b))) by (eapply exact_count; eauto). rewrite X. lia.
  Qed.
End Facts.
