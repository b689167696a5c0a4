(** How the routing table follows the sessions in a run of the broker. *)
From Coq Require Import List Bool NArith String Lia.
From Verif Require Import Base BaseLemmas TopicModel MsgModel PendingModel OutModel RouteModel RouteSpec RouteInv RetainModel GlobModel Sess5Model Sess3Model ConnModel
  InSpec RecvSpec InProofs InRun InRun3 SubFacts RegModel BrokerModel
  BrokerSpec FrameProofs CoreProofs BrokerInv TaskMove StepProofs RunProofs RegProofs TimeProofs WillProofs KeepProofs EvolProofs HistProofs LifeSpec TabProofs.
Import ListNotations.
Local Open Scope N_scope.
Local Open Scope list_scope.

Lemma qmap_keys m : keys (qmap m) = keys m.
Proof. unfold qmap, keys. rewrite map_map. reflexivity. Qed.
Lemma qmap_aset f v m : qmap (aset f v m) = aset f (sq5 v) (qmap m).
Proof. induction m as [|[f' v'] m IH]; cbn; auto. destruct (String.eqb f f'); cbn; [reflexivity|]. f_equal. exact IH. Qed.
Lemma qmap_adel f m : qmap (adel f m) = adel f (qmap m).
Proof. induction m as [|[f' v'] m IH]; cbn; auto. destruct (String.eqb f f'); cbn; [reflexivity|]. f_equal. exact IH. Qed.
Lemma qmap_aget f m : aget f (qmap m) = option_map sq5 (aget f m).
Proof. induction m as [|[f' v'] m IH]; cbn; auto. destruct (String.eqb f f'); cbn; auto. Qed.
Lemma qmap_sync c m t ops m' t' : sync sq5 c m t ops m' t' -> sync sq3 c (qmap m) t ops (qmap m') t'.
Proof.
  induction 1; [constructor| |].
  - apply (sy_sub sq3 c _ _ f (sq5 v) t1); auto. rewrite <- qmap_aset. auto.
  - eapply (sy_unsub sq3 c); eauto. rewrite <- qmap_adel. auto.
Qed.
Lemma keys_subs a : keys (a_subs a) = a_filters a.
Proof. destruct a; cbn; [apply qmap_keys|reflexivity]. Qed.

Lemma held_owner b k c m : held b k = Some (c, m) -> exists v i, rl b k = Some (Owns v i c false).
Proof.
  unfold held, rl. destruct (aget k (b_tasks b)) as [t|]; [|discriminate]. cbn [option_map].
  destruct t as [x0 c0|x0 c0|x0 r|a|a|a|a|a|a []]; cbn; intros H; inversion H; subst; eauto.
Qed.
Lemma held_one b j k c m m' : inv b -> held b j = Some (c, m) -> held b k = Some (c, m') -> j = k.
Proof.
  intros I A B. destruct (held_owner _ _ _ _ A) as (v & i & A'). destruct (held_owner _ _ _ _ B) as (v' & i' & B').
  eapply (k_one _ _ _ _ _ (i_core _ I)); eauto.
Qed.
Lemma held_lt b j c m : inv b -> held b j = Some (c, m) -> c < r_next (b_reg b).
Proof. intros I A. destruct (held_owner _ _ _ _ A) as (v & i & A'). eapply (k_own _ _ _ _ _ (i_core _ I)); eauto. Qed.

Lemma unroute_run c fs : forall t t' p, unroute c fs t = (t', p) -> forall h, t = rt_run h -> t' = rt_run (h ++ map (fun f => Unsub f c) fs).
Proof.
  unfold unroute. intros t t' p. generalize false. revert t t' p.
  induction fs as [|f fs IH]; intros t t' p b0; cbn; [intros H; inversion H; subst; intros h ->; now rewrite app_nil_r|].
  destruct (rt_unsubscribe t f c) as [t1 p1] eqn:U. cbn. intros H h ->. rewrite snoc_app. eapply IH; [exact H|].
  rewrite rt_run_snoc. cbn [rt_step]. rewrite U. reflexivity.
Qed.
Lemma remove_route a b b' : remove_client a b = Some b' -> b_retain b' = b_retain b /\ b_cfg b' = b_cfg b /\
  forall h, b_route b = rt_run h -> b_route b' = rt_run (h ++ map (fun f => Unsub f (a_id a)) (a_filters a)).
Proof.
  unfold remove_client. destruct (reg_remove _ _); [|discriminate]. destruct (unroute _ _ _) as [t p] eqn:U. destruct p; [discriminate|].
  intros H; inversion H; subst. cbn. split; auto. split; auto. intros h E. eapply unroute_run; eauto.
Qed.

Section Tab.
  Variables (hash5 : wpub5 -> N) (hash3 : wpub3 -> N) (pick : draw -> broker -> string -> string -> N).
  Notation bstep := (bstep hash5 hash3 pick).
  Notation brun := (brun hash5 hash3 pick).

  (** Shared filters cannot be subscribed to with [e]. *)
  Definition strict (c : config) (e : bev) : bool := match e with EPacket5 _ _ x => strict5 c x | _ => true end.
  (** What happens to the subscriptions held by task [k]. *)
  Inductive tkind (b : broker) (e : bev) (out : list bout) (b' : broker) (k : N) : option (client_id * list (string * qos)) -> option (client_id * list (string * qos)) -> list rop -> Prop :=
  | tk_same o : b_route b' = b_route b -> tkind b e out b' k o o []
  | tk_new : b_route b' = b_route b -> tkind b e out b' k None (Some (r_next (b_reg b), [])) []
  | tk_sync c m m' ops : sync sq3 c m (b_route b) ops m' (b_route b') -> Forall (op_in (named e) (strict (b_cfg b) e)) ops -> tkind b e out b' k (Some (c, m)) (Some (c, m')) ops
  | tk_reset x r : e = EJoin k -> aget k (b_tasks b) = Some (TJoin x r) -> (forall c, r <> RNew c) -> afresh k out -> b_route b' = b_route b -> tkind b e out b' k (Some (rc_id r, r_subs r)) (Some (rc_id r, [])) []
  | tk_gone c m : (forall h, b_route b = rt_run h -> b_route b' = rt_run (h ++ map (fun f => Unsub f c) (keys m))) -> (forall i, ~ known b' i c) ->
      tkind b e out b' k (Some (c, m)) None (map (fun f => Unsub f c) (keys m))
  | tk_again c fs : (forall h, b_route b = rt_run h -> b_route b' = rt_run (h ++ map (fun f => Unsub f c) fs)) -> (forall j m, held b j <> Some (c, m)) -> (forall i, ~ known b i c) -> (* removed a second time *)
      tkind b e out b' k None None (map (fun f => Unsub f c) fs)
  | tk_close o : In (OClosed k) out -> b_route b' = b_route b -> tkind b e out b' k o None [].
  Inductive tabmove (b : broker) (e : bev) (out : list bout) (b' : broker) : list rop -> Prop :=
  | tb_set k o' ops : (forall j, held b' j = if j =? k then o' else held b j) -> tkind b e out b' k (held b k) o' ops -> tabmove b e out b' ops
  | tb_two k o' i : (forall j, held b' j = if j =? k then o' else if j =? i then None else held b j) -> k <> i -> held b i = None -> tkind b e out b' k (held b k) o' [] -> tabmove b e out b' []
  | tb_pass k i c m : b_route b' = b_route b -> held b k = Some (c, m) -> held b i = None -> k <> i ->
      (forall j, held b' j = if j =? k then None else if j =? i then Some (c, m) else held b j) -> tabmove b e out b' [].

  Lemma held_set b b' k t : b_tasks b' = aset k t (b_tasks b) -> forall j, held b' j = if j =? k then t_held t else held b j.
  Proof. intros E j. unfold held. rewrite E, aget_N. destruct (j =? k); reflexivity. Qed.
  Lemma held_del b b' k : NoDup (keys (b_tasks b)) -> b_tasks b' = adel k (b_tasks b) -> forall j, held b' j = if j =? k then None else held b j.
  Proof. intros ND E j. unfold held. rewrite E, adel_N by auto. destruct (j =? k); reflexivity. Qed.
  Lemma held_at b k t : aget k (b_tasks b) = Some t -> held b k = t_held t.
  Proof. unfold held. intros ->. reflexivity. Qed.
  Lemma held_same b b' : b_tasks b' = b_tasks b -> forall j, held b' j = held b j.
  Proof. unfold held. intros ->. reflexivity. Qed.

  Definition pre_subs (x : pre) : list (string * qos) := match x with B5 cn _ => qmap (s_subs (cn_s cn)) | B3 s => z_subs s end.
  Lemma joined_subs b x r a o k : joined b x r a o k -> pre_subs x = [] -> a_id a = rc_id r /\ (a_subs a = r_subs r \/ a_subs a = [] /\ (forall c, r <> RNew c) /\ afresh k [o]).
  Proof.
    destruct x as [cn data|s0]; cbn [joined].
    - intros (rc & s & ack & R & S & _ & -> & ->) E. pose proof (session_connect5_facts _ _ _ _ _ _ _ S) as (ID & _). cbn [pre_subs] in E. unfold session_connect5 in S. cbn [a_id a_subs].
      destruct (match rc with RcNew id => _ | RcPresent st => _ end) as [s1 pr] eqn:S1. destruct (max_allowed_qos _); [|discriminate].
      assert (SS : s_subs s = s_subs s1). { injection S as S _. rewrite <- S. destruct (_ =? _), (_ <? _); reflexivity. }
      assert (PR : ka_present ack = pr) by (injection S as _ S; rewrite <- S; reflexivity).
      rewrite SS. destruct r as [c|st|st]; inversion R; subst rc; (split; [exact ID|]).
      + inversion S1; subst. left. exact E.
      + destruct (negb _); inversion S1; subst; [left; reflexivity|right]. split; [exact E|]. split; [discriminate|]. left. exists ack. split; [left; reflexivity|congruence].
    - intros (rc & s & ack & R & S & -> & ->) E. pose proof (session_connect3_facts _ _ _ _ _ S) as (ID & _). cbn [pre_subs] in E. unfold session_connect3 in S. cbn [a_id a_subs].
      destruct r as [c|st|st]; inversion R; subst rc; (split; [exact ID|]).
      + inversion S; subst. left. exact E.
      + destruct (_ && _); inversion S; subst; [left; reflexivity|right]. split; [exact E|]. split; [discriminate|]. right. eexists. left. reflexivity.
  Qed.

  Lemma will_moved k a b a' b' out ok : send_will pick k a b = Some (a', b', out, ok) -> a_id a' = a_id a /\ a_subs a' = a_subs a /\ b_cfg b' = b_cfg b /\ b_route b' = b_route b /\ rmoved (b_retain b) (b_retain b').
  Proof.
    unfold send_will. destruct a as [s|s].
    - destruct (send_will5 (pick (DWill k) b) s (glob_of b)) as [[[s1 g] o]|] eqn:S; [|discriminate]. apply (will5_moved true) in S. destruct S as (A & B & _ & D & ops & E & F). intros H; inversion H; subst. cbn. split; auto.
      destruct ops as [|op ops]; [|inversion F as [|? ? [FX _]]; contradiction]. inversion E as [m t E1 E2 E3 E4| |]. cbn in *. repeat split; auto; congruence.
    - destruct (send_will3 s (glob_of b)) as [[[s1 g] o]|] eqn:S; [|discriminate]. apply will3_moved in S. destruct S as (A & B & _ & D & ops & E & F). intros H; inversion H; subst. cbn. split; auto.
      destruct ops as [|op ops]; [|inversion F as [|? ? [FX _]]; contradiction]. inversion E as [m t E1 E2 E3 E4| |]. cbn in *. repeat split; auto; congruence.
  Qed.
  Lemma normal_moved now c k on m a a' out : normal now c k on m a = (a', out) -> a_id a' = a_id a /\ a_subs a' = a_subs a.
  Proof.
    unfold normal. destruct a as [s|s].
    - destruct (handle_normal5 now c m s) as [s1 r] eqn:HN. apply normal_frame in HN. destruct HN as (o & ->).
      destruct r as [[q p]|]; [destruct on; [destruct (qos_eqb q L0)|]|]; try (intros H; inversion H; subst; auto; fail).
      destruct (pendings5 now _) as [s2 more] eqn:P. apply pendings_frame in P. destruct P as (o2 & ->). intros H; inversion H; auto.
    - destruct (handle_normal3 now m s) as [s1 r] eqn:HN. apply normal3_frame in HN. destruct HN as (o & ->).
      destruct r as [[q p]|]; [destruct on; [destruct (qos_eqb q L0)|]|]; try (intros H; inversion H; subst; auto; fail).
      destruct (pendings3 now _) as [s2 more] eqn:P. apply pendings3_frame in P. destruct P as ((o2 & ->) & _). intros H; inversion H; auto.
  Qed.
  Lemma take_all_subs now ms : forall s, z_subs (v3_take_all now ms s) = z_subs s /\ z_id (v3_take_all now ms s) = z_id s.
  Proof.
    unfold v3_take_all. induction ms as [|m ms IH]; intros s; cbn; auto. destruct (handle_normal3 now (snd m) s) as [s1 r] eqn:HN. apply normal3_frame in HN. destruct HN as (o & ->). cbn. apply (IH (zwith_out o s)).
  Qed.
  Lemma given_subs b on a r : given b on a r -> rc_id r = a_id a /\ r_subs r = a_subs a.
  Proof.
    destruct a as [s|s]; cbn; [intros ->; cbn; auto|]. destruct on; [intros ->; cbn; auto|]. intros (ch & _ & ->). cbn.
    destruct (take_all_subs (seconds b) (ch_norm ch) s) as (-> & ->). auto.
  Qed.
  Lemma close_tabs c b : b_cfg (close c b) = b_cfg b /\ b_route (close c b) = b_route b /\ b_retain (close c b) = b_retain b.
  Proof. unfold close. destruct (aget c (b_chans b)); auto. Qed.
  Lemma removed_unknown a b b' : inv b -> remove_client a b = Some b' -> forall i, ~ known b' i (a_id a).
  Proof.
    intros I R i K. pose proof (remove_reg _ _ _ R) as G. destruct (i_core _ I) as [? IN IV].
    exact (reg_remove_gone _ _ _ i IN IV G K).
  Qed.
  Lemma t_same b e out b' k t t' : aget k (b_tasks b) = Some t -> b_tasks b' = aset k t' (b_tasks b) -> t_held t' = t_held t -> b_route b' = b_route b -> tabmove b e out b' [].
  Proof. intros A T H R. eapply tb_set with (k := k); [apply held_set; exact T|]. rewrite (held_at _ _ _ A), H. now constructor. Qed.
  Lemma t_close b e out b' k : NoDup (keys (b_tasks b)) -> b_tasks b' = adel k (b_tasks b) -> In (OClosed k) out -> b_route b' = b_route b -> tabmove b e out b' [].
  Proof. intros A T H R. eapply tb_set with (k := k); [apply held_del; auto|]. now constructor. Qed.

  Lemma step_tab e b b' out : good b -> (forall k x r, aget k (b_tasks b) = Some (TJoin x r) -> pre_subs x = []) -> bstep e b = BOk b' out ->
    b_cfg b' = b_cfg b /\ rmoved (b_retain b) (b_retain b') /\ exists ops, tabmove b e out b' ops.
  Proof.
    intros [I P] PE S. pose proof (i_tnd _ I) as TN. pose proof rmoved_refl as RR.
    assert (NK : aget (b_conns b) (b_tasks b) = None).
    { destruct (aget (b_conns b) (b_tasks b)) as [t|] eqn:E; auto. pose proof (task_num _ _ _ (conj I P) E). lia. }
    assert (NH : held b (b_conns b) = None) by (unfold held; rewrite NK; auto).
    assert (CON : forall t0 x, add_client t0 x b = BOk b' out -> b_cfg b' = b_cfg b /\ rmoved (b_retain b) (b_retain b') /\ exists ops, tabmove b e out b' ops).
    { intros t0 x. unfold add_client, reg_add. destruct (aget (p_ident x) (r_idents (b_reg b))); [destruct (in_list _ _)|]; intros H; inversion H; subst; (split; [reflexivity|]; split; [apply RR|]; exists []).
      - eapply tb_set with (k := b_conns b); [apply held_set; reflexivity|]. rewrite NH. now constructor.
      - eapply tb_set with (k := b_conns b); [apply held_set; reflexivity|]. rewrite NH. now constructor. }
    destruct e; cbn [BrokerModel.bstep] in S.
    - destruct (_ <? _); [discriminate|]. eapply CON; eauto.
    - destruct (_ <? _); [discriminate|]. eapply CON; eauto.
    - unfold do_put in S. destruct (aget k (b_tasks b)) as [[x c| | | | | | | |]|] eqn:A; try discriminate. destruct (aget c _); [|discriminate].
      destruct (negb _); [|destruct (ctl_room _); [|discriminate]]; inversion S; subst; (split; [reflexivity|]; split; [apply RR|]; exists []).
      + eapply t_close; eauto; [reflexivity|left; reflexivity].
      + eapply t_same; [exact A|reflexivity|reflexivity|reflexivity].
    - unfold do_fail in S. destruct (aget k (b_tasks b)) as [[| x c|x r|a| | | | |]|] eqn:A; try discriminate.
      + destruct (aget c _) as [ch|]; [|discriminate]. destruct (ch_open ch); [discriminate|]. inversion S; subst; (split; [reflexivity|]; split; [apply RR|]; exists []). eapply t_close; eauto; [reflexivity|left; reflexivity].
      + inversion S; subst. destruct (close_tabs (rc_id r) (end_task k b)) as (-> & E2 & ->). split; [reflexivity|]. split; [apply RR|]. exists [].
        eapply t_close; eauto; [rewrite tasks_close; reflexivity|left; reflexivity].
      + inversion S; subst. destruct (close_tabs (a_id a) (end_task k b)) as (-> & E2 & ->). split; [reflexivity|]. split; [apply RR|]. exists [].
        eapply t_close; eauto; [rewrite tasks_close; reflexivity|left; reflexivity].
    - unfold do_join in S. destruct (_ <=? _); [discriminate|]. destruct (aget k (b_tasks b)) as [[| |x r| | | | | |]|] eqn:A; try discriminate.
      pose proof (PE _ _ _ A) as E0.
      assert (J : forall a o, joined b x r a o k -> out = [o] -> forall b1, b_tasks b1 = b_tasks b -> b_route b1 = b_route b -> tabmove b (EJoin k) out (set_task k (TReady a) b1) []).
      { intros a o JO OO b1 T1 R1. destruct (joined_subs _ _ _ _ _ _ JO E0) as (ID & SB). eapply tb_set with (k := k); [apply held_set; cbn; rewrite T1; reflexivity|]. rewrite (held_at _ _ _ A). cbn [t_held]. rewrite ID.
        destruct SB as [->|(-> & N1 & N2)]; [constructor; exact R1|apply (tk_reset _ _ _ _ _ x r); auto]. rewrite OO. exact N2. }
      destruct x as [cn data|s0].
      + destruct (match r with RNew c => Some (RcNew c) | ROld5 st => Some (RcPresent st) | ROld3 _ => None end) as [rc|] eqn:RC; [|discriminate].
        destruct (session_connect5 _ _ _ _ _ _) as [[s ack]|] eqn:SC; [|discriminate].
        assert (TK : let b1 := start_keep k (A5 s) b in b_tasks b1 = b_tasks b /\ b_cfg b1 = b_cfg b /\ b_route b1 = b_route b /\ b_retain b1 = b_retain b) by (unfold start_keep; destruct (0 <? _); cbn; auto).
        destruct TK as (T1 & T2 & T3 & T4).
        destruct (s_connected s) eqn:CN; inversion S; subst.
        * cbn [set_task set_tasks set_stamp b_cfg b_retain]. split; [exact T2|]. split; [rewrite T4; apply RR|]. exists []. eapply (J (A5 s) (OConnack5 k ack)); [|reflexivity|exact T1|exact T3].
          cbn. exists rc, s, ack. repeat split; auto.
        * set (b1 := end_task k (set_stamp (b_now b) (start_keep k (A5 s) b))). destruct (close_tabs (s_id s) b1) as (E1 & E2 & E3). rewrite E1, E3. split; [exact T2|]. split; [cbn; rewrite T4; apply RR|]. exists [].
          eapply t_close with (k := k); eauto; [rewrite tasks_close; unfold b1; cbn; rewrite T1; reflexivity|right; left; reflexivity|rewrite E2; exact T3].
      + destruct (match r with RNew c => Some (RcNew3 c) | ROld3 st => Some (RcPresent3 st) | ROld5 _ => None end) as [rc|] eqn:RC; [|discriminate].
        destruct (session_connect3 _ _ _) as [s ack] eqn:SC.
        assert (TK : let b1 := start_keep k (A3 s) b in b_tasks b1 = b_tasks b /\ b_cfg b1 = b_cfg b /\ b_route b1 = b_route b /\ b_retain b1 = b_retain b) by (unfold start_keep; destruct (0 <? _); cbn; auto).
        destruct TK as (T1 & T2 & T3 & T4). inversion S; subst.
        cbn [set_task set_tasks set_stamp b_cfg b_retain]. split; [exact T2|]. split; [rewrite T4; apply RR|]. exists []. eapply (J (A3 s) (OConnack3 k ack)); [|reflexivity|exact T1|exact T3].
        cbn. exists rc, s, ack. repeat split; auto.
    - unfold do_start in S. destruct (aget k (b_tasks b)) as [[| | |[s|s]| | | | |]|] eqn:A; try discriminate; [destruct (pendings5 _ _) as [s1 o] eqn:PE1|destruct (after_packet3 _ _) as [s1 o] eqn:PE1];
        inversion S; subst; (split; [reflexivity|]; split; [apply RR|]; exists []); (eapply t_same; [exact A|reflexivity| |reflexivity]); cbn.
      + apply pendings_frame in PE1. destruct PE1 as (oo & ->). reflexivity.
      + apply after3_frame in PE1. destruct PE1 as ((oo & tt & ->) & _). reflexivity.
    - unfold do_packet5 in S. destruct (aget k (b_tasks b)) as [[| | | |[s|s]| | | |]|] eqn:A; try discriminate. destruct (is_disconnected5 s) eqn:D; [discriminate|].
      pose proof (packet5_moved hash5 (pick (DPacket k x) b) (seconds b) len x s (glob_of b)) as M.
      destruct (packet_step5 _ _ _ _ _ _ _) as [s1 g o|s1 g|] eqn:PS; [| |discriminate]; destruct M as (M1 & M2 & M3 & M4 & ops & M5 & M6); inversion S; subst.
      + split; [destruct (is_disconnected5 s1); reflexivity|]. split; [destruct (is_disconnected5 s1); exact M4|]. exists ops.
        eapply tb_set with (k := k) (o' := Some (s_id s, qmap (s_subs s1))); [intros j; rewrite <- M1; revert j; apply (held_set _ _ _ (TOnline (A5 s1))); destruct (is_disconnected5 s1); reflexivity|]. rewrite (held_at _ _ _ A).
        apply tk_sync; [apply qmap_sync; destruct (is_disconnected5 s1); exact M5|exact M6].
      + split; [reflexivity|]. split; [exact M4|]. exists ops. eapply tb_set with (k := k) (o' := Some (s_id s, qmap (s_subs s1))); [intros j; rewrite <- M1; revert j; apply (held_set _ _ _ (TEnd (A5 s1))); reflexivity|]. rewrite (held_at _ _ _ A).
        apply tk_sync; [apply qmap_sync; exact M5|exact M6].
    - unfold do_packet3 in S. destruct (aget k (b_tasks b)) as [[| | | |[s|s]| | | |]|] eqn:A; try discriminate. destruct (z_disc s) eqn:D; [discriminate|].
      pose proof (packet3_moved hash3 (seconds b) len x s (glob_of b)) as M.
      destruct (packet_step3 _ _ _ _ _ _) as [s1 g o|s1 g|] eqn:PS; [| |discriminate]; destruct M as (M1 & M2 & M3 & M4 & ops & M5 & M6); inversion S; subst; (split; [reflexivity|]; split; [exact M4|]; exists ops).
      + eapply tb_set with (k := k) (o' := Some (z_id s, z_subs s1)); [intros j; rewrite <- M1; revert j; apply (held_set _ _ _ (TOnline (A3 s1))); reflexivity|]. rewrite (held_at _ _ _ A).
        apply tk_sync; [exact M5|exact M6].
      + eapply tb_set with (k := k) (o' := Some (z_id s, z_subs s1)); [intros j; rewrite <- M1; revert j; apply (held_set _ _ _ (TEnd (A3 s1))); reflexivity|]. rewrite (held_at _ _ _ A).
        apply tk_sync; [exact M5|exact M6].
    - unfold do_malformed in S. destruct (aget k (b_tasks b)) as [[| | | |[s|s]| | | |]|] eqn:A; try discriminate. destruct (is_disconnected5 s) eqn:D; [discriminate|].
      inversion S; subst; (split; [reflexivity|]; split; [apply RR|]; exists []). eapply t_same; [exact A|reflexivity| |reflexivity]. reflexivity.
    - unfold do_close in S. destruct (aget k (b_tasks b)) as [[| | | |a| | | |]|] eqn:A; try discriminate. inversion S; subst; (split; [reflexivity|]; split; [apply RR|]; exists []). eapply t_same; [exact A|reflexivity| |reflexivity]. reflexivity.
    - assert (GO : forall (on : bool) a, aget k (b_tasks b) = Some (if on then TOnline a else TOffline a) -> match aget (a_id a) (b_chans b) with
        | Some (Chan (m :: r) ms o) => control pick on k a m (set_chan (a_id a) (Chan r ms o) b)
        | _ => BNo
        end = BOk b' out -> b_cfg b' = b_cfg b /\ rmoved (b_retain b) (b_retain b') /\ exists ops, tabmove b (EControl k) out b' ops).
      { intros on a A. destruct (aget (a_id a) (b_chans b)) as [[[|m q] ms o]|] eqn:CH; try discriminate.
        set (b0 := set_chan _ _ b). assert (HK : held b k = Some (a_id a, a_subs a)) by (rewrite (held_at _ _ _ A); destruct on; reflexivity).
        assert (STAY : forall t' b1 o', b_tasks b1 = b_tasks b -> b_cfg b1 = b_cfg b -> b_route b1 = b_route b -> rmoved (b_retain b) (b_retain b1) -> t_held t' = Some (a_id a, a_subs a) ->
          BOk (set_task k t' b1) o' = BOk b' out -> b_cfg b' = b_cfg b /\ rmoved (b_retain b) (b_retain b') /\ exists ops, tabmove b (EControl k) out b' ops).
        { intros t' b1 o' T1 T2 T3 T4 T5 X. inversion X; subst. split; [exact T2|]. split; [exact T4|]. exists []. eapply tb_set with (k := k); [apply held_set; cbn; rewrite T1; reflexivity|]. rewrite HK, T5. now constructor. }
        assert (HAND : forall b1 j x c r, b_tasks b1 = b_tasks b -> b_cfg b1 = b_cfg b -> b_route b1 = b_route b -> b_retain b1 = b_retain b -> aget j (b_tasks b) = Some (TReply x c) -> rc_id r = a_id a -> r_subs r = a_subs a ->
          hand_over k j x r b1 = BOk b' out -> b_cfg b' = b_cfg b /\ rmoved (b_retain b) (b_retain b') /\ exists ops, tabmove b (EControl k) out b' ops).
        { intros b1 j x c r T1 T2 T3 T4 J R1 R2 X. unfold hand_over in X. inversion X; subst. split; [exact T2|]. split; [cbn; rewrite T4; apply RR|]. exists [].
          assert (JK : k <> j) by (intros ->; rewrite A in J; destruct on; discriminate).
          eapply tb_pass with (k := k) (i := j); [exact T3|exact HK|rewrite (held_at _ _ _ J); reflexivity|exact JK|].
          intros i. unfold held. cbn. rewrite T1, aget_N, adel_N by auto. destruct (N.eqb_spec i j) as [E1|E1], (N.eqb_spec i k) as [E2|E2]; [congruence| |reflexivity|reflexivity].
          cbn. rewrite R1, R2. reflexivity. }
        assert (REF : forall j t', In j (match m with COnline5 i | COnline3 i => [i] | _ => [] end) -> t_held t' = Some (a_id a, a_subs a) -> BOk (set_task k t' (end_task j b0)) [OClosed j] = BOk b' out -> b_cfg b' = b_cfg b /\ rmoved (b_retain b) (b_retain b') /\ exists ops, tabmove b (EControl k) out b' ops).
        { intros j t' J Y X. assert (exists v i c, rl b j = Some (Waits true v i c)) as (v & i & c & RJ).
          { assert (CV : cv b (a_id a) = Some (m :: q, true)). { destruct (owner_open _ _ _ _ _ (i_core _ I) k (a_v5 a) (a_ident a) (a_id a) false) as (q' & C'); [rewrite (rl_of _ _ _ A); destruct on; reflexivity|]. rewrite (cv_of _ _ _ CH) in C'. cbn in C'. rewrite (cv_of _ _ _ CH). cbn. congruence. }
            destruct m; cbn in J; try contradiction; destruct J as [->|[]].
            - destruct (k_online _ _ _ _ _ (i_core _ I) _ _ j true CV) as (i & RI); [left; reflexivity|eauto].
            - destruct (k_online _ _ _ _ _ (i_core _ I) _ _ j false CV) as (i & RI); [left; reflexivity|eauto]. }
          assert (JK : k <> j). { intros ->. rewrite (rl_of _ _ _ A) in RJ. destruct on; discriminate. }
          assert (HJ : held b j = None). { unfold held. unfold rl in RJ. destruct (aget j (b_tasks b)) as [t|]; [|reflexivity]. injection RJ as RJ. destruct t; try discriminate; reflexivity. }
          inversion X; subst. split; [reflexivity|]. split; [apply RR|]. exists [].
          eapply tb_two with (k := k) (i := j) (o' := Some (a_id a, a_subs a)); [|exact JK|exact HJ|rewrite HK; constructor; reflexivity].
          intros l. unfold held. cbn. rewrite aget_N, adel_N by auto. destruct (N.eqb_spec l k) as [->|]; [exact Y|]. destruct (l =? j); reflexivity. }
        unfold control. destruct m, a as [s|s]; try discriminate.
        - change (b_tasks b0) with (b_tasks b). destruct (aget k0 (b_tasks b)) as [[]|] eqn:J; try discriminate. eapply HAND; eauto.
        - apply REF; [left; reflexivity|]. destruct on; reflexivity.
        - apply REF; [left; reflexivity|]. destruct on; reflexivity.
        - change (b_tasks b0) with (b_tasks b). destruct (aget k0 (b_tasks b)) as [[]|] eqn:J; try discriminate. destruct (aget (z_id s) (b_chans b0)) as [ch|]; [|discriminate].
          destruct on; (eapply HAND; eauto); try reflexivity; cbn [rc_id r_subs build_state3 snd st3_id st3_subs]; apply take_all_subs.
        - destruct on; intros X; (eapply STAY; [| | | | |exact X]; try reflexivity; apply RR).
        - destruct on; intros X; (eapply STAY; [| | | | |exact X]; try reflexivity; apply RR).
        - destruct (_ && _).
          + destruct (send_will pick k (A5 s) b0) as [[[[a1 b1] o1] ok]|] eqn:W; [|discriminate]. destruct (remove_client a1 b1) as [b2|] eqn:RC; [|discriminate]. intros X.
            destruct (will_moved _ _ _ _ _ _ _ W) as (W1 & W2 & W3 & W4 & W5).
            assert (T1 : b_tasks b1 = b_tasks b) by (destruct (send_will_move _ _ _ _ _ _ _ _ W) as (_ & (rt & rn & ->) & _); reflexivity).
            assert (G1 : b_reg b1 = b_reg b) by (destruct (send_will_move _ _ _ _ _ _ _ _ W) as (_ & (rt & rn & ->) & _); reflexivity).
            pose proof (remove_tasks _ _ _ RC) as (T2 & _). destruct (remove_route _ _ _ RC) as (R1 & R2 & R3). inversion X; subst.
            split; [cbn; rewrite R2; exact W3|]. split; [cbn; rewrite R1; exact W5|]. eexists. eapply tb_set with (k := k) (o' := None); [apply (held_set _ _ _ (TOffDrain a1 true)); cbn; rewrite T2, T1; reflexivity|]. rewrite HK.
            apply tk_gone.
            * intros h E. cbn. rewrite (R3 h) by (rewrite W4; exact E). rewrite W1, <- keys_subs, W2. reflexivity.
            * intros i K. assert (K' : known b2 i (a_id (A5 s))) by exact K. pose proof (remove_reg _ _ _ RC) as G. destruct (i_core _ I) as [? IN IV]. rewrite G1 in G. rewrite W1 in G. exact (reg_remove_gone _ _ _ i IN IV G K').
          + intros X; (eapply STAY; [| | | | |exact X]; try reflexivity; [apply RR|destruct on; reflexivity]).
        - destruct (_ && _).
          + destruct (send_will pick k (A5 s) b0) as [[[[a1 b1] o1] ok]|] eqn:W; [|discriminate]. intros X.
            destruct (will_moved _ _ _ _ _ _ _ W) as (W1 & W2 & W3 & W4 & W5).
            assert (T1 : b_tasks b1 = b_tasks b) by (destruct (send_will_move _ _ _ _ _ _ _ _ W) as (_ & (rt & rn & ->) & _); reflexivity).
            eapply STAY; [| | | | |exact X]; auto. cbn. rewrite W1, W2. reflexivity.
          + intros X; (eapply STAY; [| | | | |exact X]; try reflexivity; [apply RR|destruct on; reflexivity]). }
      unfold do_control in S. destruct (aget k (b_tasks b)) as [[| | | |a| | |a|]|] eqn:A; try discriminate; [apply (GO true a eq_refl S)|apply (GO false a eq_refl S)].
    - unfold do_normal in S. destruct (aget k (b_tasks b)) as [[| | | |a| | |a|]|] eqn:A; try discriminate.
      + destruct (a_disc a) eqn:D; [discriminate|]. destruct (aget (a_id a) _) as [[cs [|m r] o]|] eqn:C; try discriminate. destruct (normal _ _ _ _ _ _) as [a1 o1] eqn:NM. destruct (normal_moved _ _ _ _ _ _ _ _ NM) as (N1 & N2). inversion S; subst.
        split; [reflexivity|]. split; [apply RR|]. exists []. eapply t_same; [exact A|reflexivity| |reflexivity]. cbn. rewrite N1, N2. reflexivity.
      + destruct (aget (a_id a) _) as [[cs [|m r] o]|] eqn:C; try discriminate. destruct (normal _ _ _ _ _ _) as [a1 o1] eqn:NM. destruct (normal_moved _ _ _ _ _ _ _ _ NM) as (N1 & N2). inversion S; subst.
        split; [reflexivity|]. split; [apply RR|]. exists []. eapply t_same; [exact A|reflexivity| |reflexivity]. cbn. rewrite N1, N2. reflexivity.
    - unfold do_flush in S. destruct (aget k (b_tasks b)) as [[| | | |a| |a| |a st]|] eqn:A; try discriminate;
        (destruct (flush d a b) as [[a1 b1]|] eqn:F; [|discriminate]; assert (FX : (a_id a1 = a_id a /\ a_subs a1 = a_subs a) /\ b_tasks b1 = b_tasks b /\ b_cfg b1 = b_cfg b /\ b_route b1 = b_route b /\ b_retain b1 = b_retain b);
         [unfold flush in F; destruct (aget d (a_bcast a)) as [[|m ms]|]; [inversion F; subst; destruct a; auto| |destruct (aget d (b_chans b)); discriminate];
          destruct (aget d (b_chans b)) as [ch|]; [|discriminate]; destruct (negb (ch_open ch)); [inversion F; subst; destruct a; auto|]; destruct (norm_room ch); [|discriminate]; inversion F; subst; destruct a; auto|];
         destruct FX as ((F1 & F2) & F3 & F4 & F5 & F6); inversion S; subst; (split; [exact F4|]; split; [cbn; rewrite F6; apply RR|]; exists []); (eapply t_same; [exact A|cbn; rewrite F3; reflexivity| |exact F5]); cbn; rewrite F1, F2; reflexivity).
    - unfold do_end in S. destruct (aget k (b_tasks b)) as [[| | | | |a| | |]|] eqn:A; try discriminate.
      destruct hook; cbn [negb] in S.
      2:{ inversion S; subst. destruct (close_tabs (a_id a) (end_task k b)) as (-> & E2 & ->). split; [reflexivity|]. split; [apply RR|]. exists []. eapply t_close; eauto; [rewrite tasks_close; reflexivity|left; reflexivity]. }
      assert (NOW : match send_will pick k a b with None => BPanic | Some (a1, b1, out, ok) => if ok then BOk (set_task k (TDrain a1) b1) out else BOk (close (a_id a) (end_task k b1)) (out ++ [OClosed k])%list end = BOk b' out ->
        b_cfg b' = b_cfg b /\ rmoved (b_retain b) (b_retain b') /\ exists ops, tabmove b (EEnd k true) out b' ops).
      { destruct (send_will pick k a b) as [[[[a1 b1] o1] ok]|] eqn:W; [|discriminate]. destruct (will_moved _ _ _ _ _ _ _ W) as (W1 & W2 & W3 & W4 & W5).
        assert (T1 : b_tasks b1 = b_tasks b) by (destruct (send_will_move _ _ _ _ _ _ _ _ W) as (_ & (rt & rn & ->) & _); reflexivity).
        destruct ok; intros X; inversion X; subst.
        - split; [exact W3|]. split; [exact W5|]. exists []. eapply t_same; [exact A|cbn; rewrite T1; reflexivity| |exact W4]. cbn. rewrite W1, W2. reflexivity.
        - destruct (close_tabs (a_id a) (end_task k b1)) as (-> & E2 & ->). split; [exact W3|]. split; [exact W5|]. exists []. eapply t_close with (k := k); eauto; [rewrite tasks_close; cbn; rewrite T1; reflexivity|apply in_or_app; right; left; reflexivity|rewrite E2; exact W4]. }
      assert (SAME : forall b1 o1, b_tasks b1 = b_tasks b -> b_cfg b1 = b_cfg b -> b_route b1 = b_route b -> b_retain b1 = b_retain b -> BOk (set_task k (TDrain a) b1) o1 = BOk b' out ->
        b_cfg b' = b_cfg b /\ rmoved (b_retain b) (b_retain b') /\ exists ops, tabmove b (EEnd k true) out b' ops).
      { intros b1 o1 T1 T2 T3 T4 X. inversion X; subst. split; [exact T2|]. split; [cbn; rewrite T4; apply RR|]. exists []. eapply t_same; [exact A|cbn; rewrite T1; reflexivity|reflexivity|exact T3]. }
      destruct a as [s|s].
      + destruct (s_cdisc s); [eapply SAME; [| | | |exact S]; reflexivity|]. destruct (will_due s) as [d|]; [|apply NOW; exact S].
        destruct (d <? s_expiry s); (eapply SAME; [| | | |exact S]; reflexivity).
      + destruct (z_disc s); [eapply SAME; [| | | |exact S]; reflexivity|apply NOW; exact S].
    - assert (FIN : forall a, match aget k (b_tasks b) with Some t => t_held t | None => None end = Some (a_id a, a_subs a) \/ (aget k (b_tasks b) = Some (TOffDrain a true)) -> match remove_client a b with None => BPanic | Some b1 => BOk (close (a_id a) (end_task k b1)) [] end = BOk b' out ->
        b_cfg b' = b_cfg b /\ rmoved (b_retain b) (b_retain b') /\ exists ops, tabmove b (EDone k) out b' ops).
      { intros a HK. destruct (remove_client a b) as [b1|] eqn:RC; [|discriminate]. intros X. inversion X; subst. destruct (close_tabs (a_id a) (end_task k b1)) as (E1 & E2 & E3). rewrite E1, E3.
        destruct (remove_route _ _ _ RC) as (R1 & R2 & R3). pose proof (remove_tasks _ _ _ RC) as (T2 & _). split; [exact R2|]. split; [cbn; rewrite R1; apply RR|].
        assert (HD : forall j, held (close (a_id a) (end_task k b1)) j = if j =? k then None else held b j) by (apply held_del; auto; rewrite tasks_close; cbn; rewrite T2; reflexivity).
        eexists. eapply tb_set with (k := k); [exact HD|].
        destruct HK as [HK|HK].
        - unfold held at 1. rewrite HK. apply tk_gone.
          + intros h E. rewrite E2. cbn. rewrite keys_subs. apply R3. exact E.
          + intros i K. pose proof (removed_unknown _ _ _ I RC i) as U. apply U. unfold known in *. destruct (close_same (a_id a) (end_task k b1)) as (G & _). rewrite G in K. exact K.
        - rewrite (held_at _ _ _ HK). assert (RK : rl b k = Some (Owns (a_v5 a) (a_ident a) (a_id a) true)) by (rewrite (rl_of _ _ _ HK); reflexivity). apply (tk_again _ _ _ _ _ (a_id a) (keys (a_subs a))).
          + intros h E. rewrite E2. cbn. rewrite keys_subs. apply R3. exact E.
          + intros j m H. destruct (held_owner _ _ _ _ H) as (v & i & RJ). pose proof (k_one _ _ _ _ _ (i_core _ I) _ _ _ _ _ _ _ _ _ RK RJ). subst j. congruence.
          + intros i K. apply (known_iff _ _ _ I) in K. destruct K as (o & K). pose proof (k_drop _ _ _ _ _ (i_core _ I) _ _ _ _ RK). congruence. }
      unfold do_done in S. destruct (aget k (b_tasks b)) as [[| | | | | |a| |a st]|] eqn:A; try discriminate.
      + destruct (a_bcast a); [|discriminate]. destruct (a_ends a); [apply (FIN a); auto|]. destruct (reg_offline _ _) as [r|]; [|discriminate].
        destruct a as [s|s]; inversion S; subst; (split; [reflexivity|]; split; [apply RR|]; exists []); (eapply t_same; [exact A|reflexivity|reflexivity|reflexivity]).
      + destruct (a_bcast a); [|discriminate]. destruct st; [apply (FIN a); auto|]. inversion S; subst. split; [reflexivity|]. split; [apply RR|]. exists []. eapply t_same; [exact A|reflexivity|reflexivity|reflexivity].
    - assert (SM : b_tasks b' = b_tasks b /\ b_cfg b' = b_cfg b /\ b_route b' = b_route b /\ b_retain b' = b_retain b).
      { unfold do_fire in S. destruct (nth_error _ _) as [[c k half due|c t due|c t due|c m]|]; [| | | |discriminate].
        - destruct (_ <? _); [discriminate|]. destruct (_ <=? _); [inversion S; subst; auto|]. destruct (in_list _ _); inversion S; subst; auto.
        - destruct (_ <? _); [discriminate|]. destruct (in_list _ _); inversion S; subst; auto.
        - destruct (_ <? _); [discriminate|]. destruct (in_list _ _); inversion S; subst; auto.
        - destruct (aget _ _); [|discriminate]. destruct (negb _); [inversion S; subst; auto|]. destruct (ctl_room _); [|discriminate]. inversion S; subst; auto. }
      destruct SM as (T1 & T2 & T3 & T4). split; [exact T2|]. split; [rewrite T4; apply RR|]. exists []. eapply tb_set with (k := b_conns b); [|constructor; exact T3]. intros j. rewrite (held_same _ _ T1). destruct (N.eqb_spec j (b_conns b)) as [->|]; reflexivity.
    - inversion S; subst. split; [reflexivity|]. split; [apply RR|]. exists []. eapply tb_set with (k := b_conns b); [|constructor; reflexivity]. intros j. destruct (N.eqb_spec j (b_conns b)) as [->|]; reflexivity.
  Qed.
End Tab.
