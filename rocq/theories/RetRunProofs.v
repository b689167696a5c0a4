(** Proofs for RetRunProps. *)
From Coq Require Import List Bool NArith Lia String.
From Verif Require Import Base BaseLemmas TopicModel TopicSpec MsgModel PendingModel OutModel RouteModel RouteSpec RetainModel RetainSpec RetainProofs GlobModel Sess5Model Sess3Model ConnModel
  OutSpec DelivSpec DelivFacts InSpec InProofs InRun InRun3 InFacts RegModel BrokerModel
  BrokerSpec FrameProofs CoreProofs BrokerInv TaskMove StepProofs RunProofs RegProofs EvolProofs LifeSpec LifeProofs TabProofs TabInv RouteRun ReplySpec WillWaySpec RetRunSpec.
Import ListNotations.
Local Open Scope N_scope.
Local Open Scope list_scope.

(** ** Packets other than PUBLISH *)
Lemma sub_all_retain now id fs : forall s g s' g' codes out, subscribe_all now id fs s g = Done (s', g', codes, out) -> g_retain g' = g_retain g.
Proof.
  induction fs as [|(f, o) fs IH]; intros s g s' g' codes out; cbn [subscribe_all]; [intros E; injection E as _ <- _ _; reflexivity|].
  destruct (subscribe_one now id f o s g) as [(((s1, g1), c1), k1)|] eqn:S1; [|discriminate].
  destruct (subscribe_all now id fs s1 g1) as [(((s2, g2), c2), k2)|] eqn:S2; [|discriminate]. intros E. injection E as _ <- _ _. rewrite (IH _ _ _ _ _ _ S2).
  clear S2. unfold subscribe_one in S1. destruct (max_allowed_qos _); [|discriminate]. destruct (_ <? 0x80); [|injection S1 as _ <- _ _; reflexivity].
  destruct (rt_subscribe _ _ _ _) as (t, p). destruct p; [discriminate|]. destruct (_ && _); [|injection S1 as _ <- _ _; reflexivity].
  destruct (ret_get_matches _ _); [|discriminate]. destruct (send_retained _ _ _ _ _) as ((s3, k), pe). destruct pe; [destruct (pendings5 now _)|]; injection S1 as _ <- _ _; reflexivity.
Qed.
Lemma unsub_all_retain fs : forall s g s' g' codes, unsubscribe_all fs s g = Done (s', g', codes) -> g_retain g' = g_retain g.
Proof.
  induction fs as [|f fs IH]; intros s g s' g' codes; cbn [unsubscribe_all]; [intros E; injection E as _ <- _; reflexivity|].
  destruct (rt_unsubscribe _ _ _) as (t, p). destruct p; [discriminate|]. destruct (unsubscribe_all fs _ _) as [((s2, g2), c2)|] eqn:S2; [|discriminate].
  intros E. injection E as _ <- _. rewrite (IH _ _ _ _ _ S2). reflexivity.
Qed.
Lemma sub_all3_retain now fs : forall s g s' g' r, subscribe_all3 now fs s g = (s', g', r) -> g_retain g' = g_retain g.
Proof.
  induction fs as [|(f, o) fs IH]; intros s g s' g' r; cbn [subscribe_all3]; [intros E; injection E as _ <- _; reflexivity|].
  destruct (subscribe_one3 now f o s g) as [(((s1, g1), c1), k1)| |] eqn:S1; [|intros E; injection E as _ <- _; reflexivity..].
  destruct (subscribe_all3 now fs s1 g1) as ((s2, g2), r2) eqn:S2. intros E. assert (g' = g2) as -> by (destruct r2 as [(?, ?)| |]; injection E as _ <- _; reflexivity). rewrite (IH _ _ _ _ _ S2).
  clear S2 E. unfold subscribe_one3 in S1. destruct (is_shared f); [discriminate|]. destruct (max_allowed_qos _); [|discriminate].
  destruct (rt_subscribe _ _ _ _) as (t, p). destruct p; [discriminate|].
  destruct (ret_get_matches _ _); [|discriminate]. destruct (send_retained3 _ _ _ _ _) as ((s3, k), pe). destruct pe; [destruct (pendings3 now _)|]; injection S1 as _ <- _ _; reflexivity.
Qed.
Lemma unsub_all3_retain fs : forall s g s' g', unsubscribe_all3 fs s g = Done (s', g') -> g_retain g' = g_retain g.
Proof.
  induction fs as [|f fs IH]; intros s g s' g'; cbn [unsubscribe_all3]; [intros E; injection E as _ <-; reflexivity|].
  destruct (rt_unsubscribe _ _ _) as (t, p). destruct p; [discriminate|]. intros E. rewrite (IH _ _ _ _ E). reflexivity.
Qed.

Lemma packet5_retain hash pick now len x s g : match x with IPub _ => False | _ => True end ->
  match packet_step5 hash pick now len x s g with Go _ g' _ | Stop _ g' => g_retain g' = g_retain g | Crash => True end.
Proof.
  intros NP. unfold packet_step5.
  assert (H : match handle_packet5 hash pick now len x s g with Go _ g' _ | Stop _ g' => g_retain g' = g_retain g | Crash => True end).
  { unfold handle_packet5. destruct (_ <? len); [reflexivity|]. destruct x; try contradiction; try reflexivity.
    - destruct (handle_pubrec5 _ _ _). reflexivity.
    - destruct (handle_pubrel5 _ _). reflexivity.
    - unfold handle_subscribe5. assert (K : match match subscribe_all now id fs s g with Panic => Panic | Done (s', g', codes, out) => Done (s', g', (out ++ [KSuback p codes])%list) end with Done (_, g', _) => g_retain g' = g_retain g | Panic => True end).
      { destruct (subscribe_all now id fs s g) as [(((s1, g1), cs), o)|] eqn:E; [|exact Logic.I]. exact (sub_all_retain _ _ _ _ _ _ _ _ _ E). }
      destruct id as [[|i]|]; cbn [error_disconnect]; [reflexivity| |]; (destruct (negb _ && _); [reflexivity|]);
        destruct (subscribe_all _ _ _ _ _) as [(((s1, g1), cs), o)|]; auto.
    - unfold handle_unsubscribe5. destruct (unsubscribe_all fs s g) as [((s1, g1), cs)|] eqn:E; [|exact Logic.I]. exact (unsub_all_retain _ _ _ _ _ _ E).
    - destruct (handle_disconnect5 _ _ _). reflexivity. }
  destruct (handle_packet5 hash pick now len x s g) as [s1 g1 o|s1 g1|]; [|exact H|exact Logic.I]. destruct (after_packet5 _ _). exact H.
Qed.
Lemma packet3_retain hash now len x s g : match x with YPub _ => False | _ => True end ->
  match packet_step3 hash now len x s g with Go3 _ g' _ | Stop3 _ g' => g_retain g' = g_retain g | Crash3 => True end.
Proof.
  intros NP. unfold packet_step3.
  assert (H : match handle_packet3 hash now len x s g with Go3 _ g' _ | Stop3 _ g' => g_retain g' = g_retain g | Crash3 => True end).
  { unfold handle_packet3. destruct (_ <? len); [reflexivity|]. destruct x; try contradiction; try reflexivity.
    - destruct (handle_pubrel3 p s) as [(?, ?)|]; reflexivity.
    - unfold handle_subscribe3. destruct (subscribe_all3 now fs s g) as ((s1, g1), r) eqn:E. apply sub_all3_retain in E. destruct r as [(?, ?)| |]; auto.
    - unfold handle_unsubscribe3. destruct (unsubscribe_all3 fs s g) as [(s1, g1)|] eqn:E; [|exact Logic.I]. exact (unsub_all3_retain _ _ _ _ _ E). }
  destruct (handle_packet3 hash now len x s g) as [s1 g1 o|s1 g1|]; [|exact H|exact Logic.I]. destruct (after_packet3 _ _). exact H.
Qed.

Section Run.
  Variables (hash5 : wpub5 -> N) (hash3 : wpub3 -> N) (pick : draw -> broker -> string -> string -> N).
  Local Notation bstep := (BrokerModel.bstep hash5 hash3 pick).
  Local Notation brun := (BrokerSpec.brun hash5 hash3 pick).

  Lemma no_will_nil : no_will []. Proof. intros k. split; intros w []. Qed.
  Lemma no_will_map5 k l : no_will (map (OPkt5 k) l).
  Proof. intros j. split; intros w I; apply in_map_iff in I as (? & X & _); discriminate. Qed.
  Lemma no_will_map3 k l : no_will (map (OPkt3 k) l).
  Proof. intros j. split; intros w I; apply in_map_iff in I as (? & X & _); discriminate. Qed.
  Lemma no_will_cons o l : match o with OWill5 _ _ | OWill3 _ _ => False | _ => True end -> no_will l -> no_will (o :: l).
  Proof. intros H N k. destruct (N k) as (A & B). split; intros w [->|I]; auto; try contradiction; [eapply A|eapply B]; eauto. Qed.
  Hint Resolve no_will_nil no_will_map5 no_will_map3 : core.

  (** A step changes the retained messages only by a packet or a will. *)
  Inductive rmove (e : bev) (b b' : broker) (out : list bout) : Prop :=
  | rm_same : b_retain b' = b_retain b -> no_will out -> ~ publishes e -> rmove e b b' out
  | rm_pkt5 k len x s : e = EPacket5 k len x -> sess_at b k = Some (A5 s) -> is_disconnected5 s = false ->
      match packet_step5 hash5 (pick (DPacket k x) b) (seconds b) len x s (glob_of b) with
      | Go s1 g o => out = map (OPkt5 k) o /\ b_retain b' = g_retain g
      | Stop s1 g => out = [] /\ b_retain b' = g_retain g
      | Crash => False
      end -> rmove e b b' out
  | rm_pkt3 k len x s : e = EPacket3 k len x -> sess_at b k = Some (A3 s) -> z_disc s = false ->
      match packet_step3 hash3 (seconds b) len x s (glob_of b) with
      | Go3 s1 g o => out = map (OPkt3 k) o /\ b_retain b' = g_retain g /\ over b' k = false
      | Stop3 s1 g => out = [] /\ b_retain b' = g_retain g /\ over b' k = true
      | Crash3 => False
      end -> rmove e b b' out
  | rm_will k a b0 a1 b1 o1 ok more : ~ publishes e -> glob_of b0 = glob_of b -> sess_at b k = Some a -> send_will pick k a b0 = Some (a1, b1, o1, ok) ->
      b_retain b' = b_retain b1 -> out = o1 ++ more -> no_will more -> rmove e b b' out.

  Lemma step_retain e b b' out : bstep e b = BOk b' out -> rmove e b b' out.
  Proof.
    intros S. assert (NP : publishes e -> match e with EPacket5 _ _ _ | EPacket3 _ _ _ => True | _ => False end) by (destruct e; auto).
    assert (CON : forall t0 x, ~ publishes e -> add_client t0 x b = BOk b' out -> rmove e b b' out).
    { intros t0 x N. unfold add_client. destruct (reg_add _ _) as (r & [d|d|]); intros H; inversion H; subst; apply rm_same; auto. }
    destruct e; cbn [BrokerModel.bstep] in S.
    - destruct (_ <? _); [discriminate|]. eapply CON; eauto.
    - destruct (_ <? _); [discriminate|]. eapply CON; eauto.
    - unfold do_put in S. destruct (aget k (b_tasks b)) as [[x c| | | | | | | |]|]; try discriminate. destruct (aget c _); [|discriminate].
      destruct (negb _); [|destruct (ctl_room _); [|discriminate]]; inversion S; subst; apply rm_same; auto. apply no_will_cons; [exact Logic.I|auto].
    - unfold do_fail in S. destruct (aget k (b_tasks b)) as [[| x c|x r|a| | | | |]|]; try discriminate.
      + destruct (aget c _) as [ch|]; [|discriminate]. destruct (ch_open ch); [discriminate|]. inversion S; subst; apply rm_same; auto. apply no_will_cons; [exact Logic.I|auto].
      + inversion S; subst. apply rm_same; [destruct (close_tabs (rc_id r) (end_task k b)) as (_ & _ & ->); reflexivity| |auto]. apply no_will_cons; [exact Logic.I|auto].
      + inversion S; subst. apply rm_same; [destruct (close_tabs (a_id a) (end_task k b)) as (_ & _ & ->); reflexivity| |auto]. apply no_will_cons; [exact Logic.I|auto].
    - unfold do_join in S. destruct (_ <=? _); [discriminate|]. destruct (aget k (b_tasks b)) as [[| |x r| | | | | |]|]; try discriminate.
      assert (SK : forall a, b_retain (start_keep k a b) = b_retain b) by (intros a; unfold start_keep; destruct (0 <? _); reflexivity).
      destruct x as [cn data|s0].
      + destruct (match r with RNew c => Some (RcNew c) | ROld5 st => Some (RcPresent st) | ROld3 _ => None end) as [rc|]; [|discriminate].
        destruct (session_connect5 _ _ _ _ _ _) as [[s ack]|]; [|discriminate]. destruct (s_connected s); inversion S; subst; apply rm_same; auto.
        * apply (SK (A5 s)).
        * apply no_will_cons; [exact Logic.I|auto].
        * set (b1 := end_task k (set_stamp (b_now b) (start_keep k (A5 s) b))). destruct (close_tabs (s_id s) b1) as (_ & _ & ->). apply (SK (A5 s)).
        * repeat (apply no_will_cons; [exact Logic.I|]). auto.
      + destruct (match r with RNew c => Some (RcNew3 c) | ROld3 st => Some (RcPresent3 st) | ROld5 _ => None end) as [rc|]; [|discriminate].
        destruct (session_connect3 _ _ _) as [s ack]. inversion S; subst. apply rm_same; auto; [apply (SK (A3 s))|]. apply no_will_cons; [exact Logic.I|auto].
    - unfold do_start in S. destruct (aget k (b_tasks b)) as [[| | |[s|s]| | | | |]|]; try discriminate; [destruct (pendings5 _ _) as [s1 o]|destruct (after_packet3 _ _) as [s1 o]]; inversion S; subst; apply rm_same; auto.
    - unfold do_packet5 in S. destruct (aget k (b_tasks b)) as [[| | | |[s|s]| | | |]|] eqn:A; try discriminate. destruct (is_disconnected5 s) eqn:D; [discriminate|].
      eapply rm_pkt5; [reflexivity|unfold sess_at; rewrite A; reflexivity|exact D|]. destruct (packet_step5 _ _ _ _ _ _ _) as [s1 g o|s1 g|]; [| |discriminate]; inversion S; subst; split; auto.
      destruct (is_disconnected5 s1); reflexivity.
    - unfold do_packet3 in S. destruct (aget k (b_tasks b)) as [[| | | |[s|s]| | | |]|] eqn:A; try discriminate. destruct (z_disc s) eqn:D; [discriminate|].
      eapply rm_pkt3; [reflexivity|unfold sess_at; rewrite A; reflexivity|exact D|]. destruct (packet_step3 _ _ _ _ _ _) as [s1 g o|s1 g|]; [| |discriminate]; inversion S; subst; (split; [reflexivity|]; split; [reflexivity|]);
        unfold over; cbn; rewrite aget_aset, eqb_refl; reflexivity.
    - unfold do_malformed in S. destruct (aget k (b_tasks b)) as [[| | | |[s|s]| | | |]|]; try discriminate. destruct (is_disconnected5 s); [discriminate|]. cbn in S. inversion S; subst. apply rm_same; auto. apply no_will_cons; [exact Logic.I|auto].
    - unfold do_close in S. destruct (aget k (b_tasks b)) as [[| | | |a| | | |]|]; try discriminate. inversion S; subst. apply rm_same; auto.
    - assert (GO : forall (on : bool) a, sess_at b k = Some a -> match aget (a_id a) (b_chans b) with
        | Some (Chan (m :: r) ms o) => control pick on k a m (set_chan (a_id a) (Chan r ms o) b)
        | _ => BNo
        end = BOk b' out -> rmove (EControl k) b b' out).
      { intros on a A. destruct (aget (a_id a) (b_chans b)) as [[[|m q] ms o]|]; try discriminate. set (b0 := set_chan _ _ b).
        unfold control. destruct m, a as [s|s]; try discriminate.
        - destruct (aget k0 (b_tasks b0)) as [[]|]; try discriminate. intros X. inversion X; subst. apply rm_same; auto.
        - intros X. inversion X; subst. apply rm_same; auto. apply no_will_cons; [exact Logic.I|auto].
        - intros X. inversion X; subst. apply rm_same; auto. apply no_will_cons; [exact Logic.I|auto].
        - destruct (aget k0 (b_tasks b0)) as [[]|]; try discriminate. destruct (aget (z_id s) (b_chans b0)) as [ch|]; [|discriminate]. destruct on; intros X; inversion X; subst; apply rm_same; auto.
        - destruct on; intros X; inversion X; subst; apply rm_same; auto.
        - destruct on; intros X; inversion X; subst; apply rm_same; auto.
        - destruct (_ && _); [|destruct on; intros X; inversion X; subst; apply rm_same; auto].
          destruct (send_will pick k (A5 s) b0) as [[[[a1 b1] o1] ok]|] eqn:W; [|discriminate]. destruct (remove_client a1 b1) as [b2|] eqn:RC; [|discriminate]. intros X. inversion X; subst.
          destruct (remove_route _ _ _ RC) as (R1 & _). eapply (rm_will _ _ _ _ k (A5 s) b0 a1 b1 out ok []); auto; [now rewrite app_nil_r].
        - destruct (_ && _); [|destruct on; intros X; inversion X; subst; apply rm_same; auto].
          destruct (send_will pick k (A5 s) b0) as [[[[a1 b1] o1] ok]|] eqn:W; [|discriminate]. intros X. inversion X; subst.
          eapply (rm_will _ _ _ _ k (A5 s) b0 a1 b1 out ok []); auto; [now rewrite app_nil_r]. }
      unfold do_control in S. destruct (aget k (b_tasks b)) as [[| | | |a| | |a|]|] eqn:A; try discriminate; [apply (GO true a); auto; unfold sess_at; now rewrite A|apply (GO false a); auto; unfold sess_at; now rewrite A].
    - assert (NO : forall on m a a1 o1, normal (seconds b) (b_cfg b) k on m a = (a1, o1) -> no_will o1).
      { intros on m a a1 o1 NM. unfold normal in NM. destruct a as [s|s]; [destruct (handle_normal5 _ _ _ _) as (s1 & [(q & p)|])|destruct (handle_normal3 _ _ _) as (s1 & [(q & p)|])]; destruct on;
          try (injection NM as _ NM; subst o1; auto; fail); destruct (if qos_eqb q L0 then _ else _) as (s2, more); injection NM as _ NM; subst o1; auto. }
      unfold do_normal in S. destruct (aget k (b_tasks b)) as [[| | | |a| | |a|]|]; try discriminate.
      + destruct (a_disc a); [discriminate|]. destruct (aget (a_id a) _) as [[cs [|m r] o]|]; try discriminate. destruct (normal _ _ _ _ _ _) as [a1 o1] eqn:NM. inversion S; subst. apply rm_same; eauto.
      + destruct (aget (a_id a) _) as [[cs [|m r] o]|]; try discriminate. destruct (normal _ _ _ _ _ _) as [a1 o1] eqn:NM. inversion S; subst. apply rm_same; eauto.
    - assert (FL : forall a a1 b1, flush d a b = Some (a1, b1) -> b_retain b1 = b_retain b).
      { intros a a1 b1 F. unfold flush in F. destruct (aget d (a_bcast a)) as [[|m ms]|]; [inversion F; subst; auto| |destruct (aget d (b_chans b)); discriminate].
        destruct (aget d (b_chans b)) as [ch|]; [|discriminate]; destruct (negb (ch_open ch)); [inversion F; subst; auto|]; destruct (norm_room ch); [|discriminate]; inversion F; subst; auto. }
      unfold do_flush in S. destruct (aget k (b_tasks b)) as [[| | | |a| |a| |a st]|]; try discriminate; (destruct (flush d a b) as [[a1 b1]|] eqn:F; [|discriminate]); inversion S; subst; apply rm_same; auto; exact (FL _ _ _ F).
    - unfold do_end in S. destruct (aget k (b_tasks b)) as [[| | | | |a| | |]|] eqn:A; try discriminate.
      assert (SA : sess_at b k = Some a) by (unfold sess_at; now rewrite A).
      destruct hook; cbn [negb] in S.
      2:{ inversion S; subst. apply rm_same; auto; [destruct (close_tabs (a_id a) (end_task k b)) as (_ & _ & ->); reflexivity|]. apply no_will_cons; [exact Logic.I|auto]. }
      assert (NOW : match send_will pick k a b with None => BPanic | Some (a1, b1, out, ok) => if ok then BOk (set_task k (TDrain a1) b1) out else BOk (close (a_id a) (end_task k b1)) (out ++ [OClosed k]) end = BOk b' out -> rmove (EEnd k true) b b' out).
      { destruct (send_will pick k a b) as [[[[a1 b1] o1] ok]|] eqn:W; [|discriminate]. destruct ok; intros X; inversion X; subst.
        - eapply (rm_will _ _ _ _ k a b a1 b1 out true []); auto; now rewrite app_nil_r.
        - eapply (rm_will _ _ _ _ k a b a1 b1 o1 false [OClosed k]); auto; [|apply no_will_cons; [exact Logic.I|auto]]. destruct (close_tabs (a_id a) (end_task k b1)) as (_ & _ & ->). reflexivity. }
      destruct a as [s|s].
      + destruct (s_cdisc s); [inversion S; subst; apply rm_same; auto|]. destruct (will_due s) as [d|]; [|apply NOW; exact S]. destruct (d <? s_expiry s); inversion S; subst; apply rm_same; auto.
      + destruct (z_disc s); [inversion S; subst; apply rm_same; auto|apply NOW; exact S].
    - assert (FIN : forall a, match remove_client a b with None => BPanic | Some b1 => BOk (close (a_id a) (end_task k b1)) [] end = BOk b' out -> rmove (EDone k) b b' out).
      { intros a. destruct (remove_client a b) as [b1|] eqn:RC; [|discriminate]. intros X. inversion X; subst. destruct (remove_route _ _ _ RC) as (R1 & _). apply rm_same; auto.
        destruct (close_tabs (a_id a) (end_task k b1)) as (_ & _ & ->). exact R1. }
      unfold do_done in S. destruct (aget k (b_tasks b)) as [[| | | | | |a| |a st]|]; try discriminate.
      + destruct (a_bcast a); [|discriminate]. destruct (a_ends a); [apply (FIN a); auto|]. destruct (reg_offline _ _) as [r|]; [|discriminate]. destruct a as [s|s]; inversion S; subst; apply rm_same; auto.
      + destruct (a_bcast a); [|discriminate]. destruct st; [apply (FIN a); auto|]. inversion S; subst. apply rm_same; auto.
    - unfold do_fire in S. destruct (nth_error _ _) as [[c k half due|c t due|c t due|c m]|]; [| | | |discriminate].
      + destruct (_ <? _); [discriminate|]. destruct (_ <=? _); [inversion S; subst; apply rm_same; auto|]. destruct (in_list _ _); inversion S; subst; apply rm_same; auto.
      + destruct (_ <? _); [discriminate|]. destruct (in_list _ _); inversion S; subst; apply rm_same; auto.
      + destruct (_ <? _); [discriminate|]. destruct (in_list _ _); inversion S; subst; apply rm_same; auto.
      + destruct (aget _ _); [|discriminate]. destruct (negb _); [inversion S; subst; apply rm_same; auto|]. destruct (ctl_room _); [|discriminate]. inversion S; subst; apply rm_same; auto.
    - inversion S; subst. apply rm_same; auto.
  Qed.


  Lemma will5_store pk (s : sess5) g s1 g1 ok hr : send_will5 pk s g = Done (s1, g1, ok) -> g_retain g = ret_run hr ->
    match s_will s with
    | Some w => if ok then exists n, enc_len5 (will_packet5 w) = Some n /\ g_retain g1 = ret_run (hr ++ retained_op (s_ident s) (will_message5 w) n) else g_retain g1 = g_retain g
    | None => g_retain g1 = g_retain g
    end.
  Proof.
    unfold send_will5. destruct (s_will s) as [w|]; [|intros E; injection E as _ <- _; reflexivity]. intros E H. fold (will_packet5 w) in E.
    destruct (enc_len5 (will_packet5 w)) as [n|]; [|injection E as _ <- <-; reflexivity]. unfold send_publish5 in E. cbn [sp_topic sp_retain sp_qos sp_payload sp_props sp_len] in E.
    destruct (collect_senders _ _ _ _) as [l|]; [|discriminate]. destruct (fold_left _ _ _) as (bb, cnt). injection E as _ <- <-. exists n. split; [reflexivity|].
    apply (proj2 (proj2 (proj2 (store_tables (s_ident s) (will_message5 w) n g))) hr H).
  Qed.
  Lemma will3_store (s : sess3) g s1 g1 ok hr : send_will3 s g = Done (s1, g1, ok) -> g_retain g = ret_run hr ->
    match z_will s with
    | Some w => if ok then exists n, enc_len3 (will_packet3 w) = Some n /\ g_retain g1 = ret_run (hr ++ retained_op (z_ident s) (will_message3 w) n) else g_retain g1 = g_retain g
    | None => g_retain g1 = g_retain g
    end.
  Proof.
    unfold send_will3. destruct (z_will s) as [w|]; [|intros E; injection E as _ <- _; reflexivity]. intros E H. fold (will_packet3 w) in E.
    destruct (enc_len3 (will_packet3 w)) as [n|]; [|injection E as _ <- <-; reflexivity]. unfold send_publish3 in E. cbn [sp3_topic sp3_retain sp3_qos sp3_payload sp3_len] in E.
    destruct (collect3 _) as [l|]; [|discriminate]. destruct (fold_left _ _ _) as (bb, cnt). injection E as _ <- <-. exists n. split; [reflexivity|].
    apply (proj2 (proj2 (proj2 (store_tables (z_ident s) (will_message3 w) n g))) hr H).
  Qed.

  Lemma answers_not k out : (forall code r, ~ In (KDisconnect code r) (answers out)) -> ~ refused_at k (map (OPkt5 k) out).
  Proof.
    intros H (code & r & I). apply in_map_iff in I as (x & X & I). injection X as ->. apply (H code r). apply filter_In. split; [exact I|reflexivity].
  Qed.
  Lemma answers_refused k out code r : answers out = [KDisconnect code r] -> refused_at k (map (OPkt5 k) out).
  Proof.
    intros H. assert (I : In (KDisconnect code r) (answers out)) by (rewrite H; left; reflexivity). apply filter_In in I as (I & _). exists code, r. apply in_map_iff. eauto.
  Qed.

  Lemma update_run c h b e b' out hr : brun c h b -> (forall p, In p (Past b e out :: h) -> proper p) -> bstep e b = BOk b' out -> b_retain b = ret_run hr ->
    exists ops, updates c h (Past b e out) b' ops /\ b_retain b' = ret_run (hr ++ ops).
  Proof.
    intros R PR S RE. assert (PR' : forall p, In p h -> proper p) by (intros p I; apply PR; right; exact I).
    destruct (run_tables _ _ _ _ _ _ R) as (ops & _ & BC & RT & _). pose proof (PR _ (or_introl eq_refl)) as PP. unfold proper in PP. cbn [w_e] in PP.
    assert (NONE : b_retain b' = b_retain b -> b_retain b' = ret_run (hr ++ [])) by (intros ->; rewrite app_nil_r; exact RE).
    destruct (step_retain _ _ _ _ S) as [SR NW NP|k len x s E SA D P|k len x s E SA D P|k a b0 a1 b1 o1 ok more NP GB SA W E1 E2 NM].
    - exists []. split; [apply up_none; auto|auto].
    - subst e. assert (X : match x with IPub _ => False | _ => True end \/ exists w, x = IPub w) by (destruct x; eauto). destruct X as [X|(w & ->)].
      + exists []. pose proof (packet5_retain hash5 (pick (DPacket k x) b) (seconds b) len x s (glob_of b) X) as Q. destruct (packet_step5 _ _ _ _ _ _ _) as [s1 g o|s1 g|]; [| |contradiction]; destruct P as (-> & P); cbn in Q; (split; [apply up_none; [destruct x; cbn in X |- *; tauto|cbn [w_out]; auto]|apply NONE; congruence]).
      + destruct (life5_lemma _ _ _ _ _ _ _ _ R PR' SA) as (l & LI & SR). cbn in PP.
        destruct (N.ltb_spec (cf_packet_server c) len) as [LL|LL].
        * destruct (c48_large hash5 (pick (DPacket k (IPub w)) b) c s l (seconds b) len (IPub w) (glob_of b) SR BC LL) as (s3 & g3 & o3 & E3 & ((rs & RF) & _ & NF & _)). rewrite E3 in P. destruct P as (-> & P). subst g3.
          exists []. split; [|apply NONE; exact P]. eapply up_not5; [reflexivity|]. left. exact (answers_refused _ _ _ _ RF).
        * destruct (incoming_result hash5 (pick (DPacket k (IPub w)) b) c s l (seconds b) len w (glob_of b) ops SR D) as (s3 & g3 & o3 & E3 & PU & _ & TO & OP & _).
          { destruct PP as (V1 & V2). exact (conj V1 (conj V2 (conj BC (conj RT LL)))). }
          rewrite E3 in P. destruct P as (-> & P).
          destruct PU as [code _ ((rs & RF) & _ & NF & _) _|T i hh _ Q2i HH _ _ (NF & _) _ _|T i _ Q2i DU _ _ (NF & _) _ _|T n (_ & _ & AC & _) EN NQ (_ & TA) OUT _ _ _ _].
          -- subst g3. exists []. split; [|apply NONE; exact P]. eapply up_not5; [reflexivity|]. left. exact (answers_refused _ _ _ _ RF).
          -- subst g3. exists []. split; [|apply NONE; exact P]. eapply up_not5; [reflexivity|]. right. exists l. split; [exact LI|]. exists i. split; [exact Q2i|]. left. rewrite OP in HH. destruct (opener l i); discriminate.
          -- subst g3. exists []. split; [|apply NONE; exact P]. eapply up_not5; [reflexivity|]. right. exists l. split; [exact LI|]. exists i. split; [exact Q2i|]. right. exact DU.
          -- exists (retained_op (s_ident s) (message5 T w) n). split; [|rewrite P; apply (proj2 (proj2 (proj2 TA))); exact RE].
             apply up_pub5 with (k := k) (len := len) (l := l); [reflexivity|exact SA|exact LI| | | |exact EN].
             ++ apply answers_not. intros cd r I. rewrite OUT in I. unfold ack_of in I. destruct (w5_qp w); cbn in I; intuition discriminate.
             ++ intros (i & Q2i & C). destruct (NQ i Q2i) as (N1 & N2 & _). rewrite OP in N1. destruct C as [C|C]; [destruct (opener l i); [discriminate|congruence]|congruence].
             ++ rewrite <- TO. change (g_cfg (glob_of b)) with (b_cfg b) in AC. rewrite BC in AC. exact AC.
    - subst e. assert (X : match x with YPub _ => False | _ => True end \/ exists w, x = YPub w) by (destruct x; eauto). destruct X as [X|(w & ->)].
      + exists []. pose proof (packet3_retain hash3 (seconds b) len x s (glob_of b) X) as Q. destruct (packet_step3 _ _ _ _ _ _) as [s1 g o|s1 g|]; [| |contradiction]; destruct P as (-> & P & _); cbn in Q; (split; [apply up_none; [destruct x; cbn in X |- *; tauto|cbn [w_out]; auto]|apply NONE; congruence]).
      + destruct (life3_lemma _ _ _ _ _ _ _ _ R PR' SA) as (l & LI & SR). cbn in PP.
        destruct (N.ltb_spec (cf_packet_server c) len) as [LL|LL].
        * unfold packet_step3, handle_packet3 in P. change (g_cfg (glob_of b)) with (b_cfg b) in P. rewrite BC, (proj2 (N.ltb_lt _ _) LL) in P. destruct P as (-> & P & O).
          exists []. split; [|apply NONE; exact P]. eapply up_not3; [reflexivity|]. left. exact O.
        * destruct (incoming_result3 hash3 c s l (seconds b) len w (glob_of b) ops SR D) as (OP & Q).
          { destruct PP as (V1 & V2). exact (conj V1 (conj V2 (conj BC (conj RT LL)))). }
          destruct Q as [(E3 & _)|(s3 & g3 & o3 & E3 & PU)]; rewrite E3 in P; destruct P as (-> & P & O).
          -- exists []. split; [|apply NONE; exact P]. eapply up_not3; [reflexivity|]. left. exact O.
          -- inversion PU as [|s' p _ _ Q2i DU _ _ _ _|s' g' n _ _ EN NQ (_ & TA) _ _]; subst.
             ++ exists []. split; [|apply NONE; exact P]. eapply up_not3; [reflexivity|]. right. split; eauto.
             ++ exists (retained_op (z_ident s) (message3 w) n). split; [|rewrite P; apply (proj2 (proj2 (proj2 TA))); exact RE].
                apply up_pub3 with (k := k) (len := len); [reflexivity|exact SA|exact O| |exact EN]. intros (DU & i & Q2i). destruct (NQ i Q2i) as (_ & N2). congruence.
    - assert (RE0 : g_retain (glob_of b0) = ret_run hr) by (rewrite GB; exact RE).
      assert (SAME : no_will o1 -> b_retain b1 = b_retain b0 -> exists ops, updates c h (Past b e out) b' ops /\ b_retain b' = ret_run (hr ++ ops)).
      { intros NW SR. exists []. split; [apply up_none; [exact NP|]|]. { cbn [w_out]. subst out. intros j. destruct (NW j) as (A1 & A2), (NM j) as (A3 & A4). split; intros w I; apply in_app_or in I as [I|I]; [exact (A1 w I)|exact (A3 w I)|exact (A2 w I)|exact (A4 w I)]. }
        apply NONE. rewrite E1, SR. change (g_retain (glob_of b0) = g_retain (glob_of b)). now rewrite GB. }
      unfold send_will in W. destruct a as [s|s].
      + destruct (send_will5 _ s (glob_of b0)) as [[[s1 g] ok']|] eqn:SW; [|discriminate]. injection W as _ <- <- _. pose proof (will5_store _ _ _ _ _ _ _ SW RE0) as Q.
        destruct (s_will s) as [w|]; [destruct ok'|]; [|apply SAME; [auto|exact Q]..]. destruct Q as (n & EN & Q). exists (retained_op (s_ident s) (will_message5 w) n). split; [|rewrite E1; exact Q].
        apply up_will5 with (k := k); auto. cbn. rewrite E2. left. reflexivity.
      + destruct (send_will3 s (glob_of b0)) as [[[s1 g] ok']|] eqn:SW; [|discriminate]. injection W as _ <- <- _. pose proof (will3_store _ _ _ _ _ _ SW RE0) as Q.
        destruct (z_will s) as [w|]; [destruct ok'|]; [|apply SAME; [auto|exact Q]..]. destruct Q as (n & EN & Q). exists (retained_op (z_ident s) (will_message3 w) n). split; [|rewrite E1; exact Q].
        apply up_will3 with (k := k); auto. cbn. rewrite E2. left. reflexivity.
  Qed.

  Lemma keeps_run c h b : brun c h b -> (forall p, In p h -> proper p) -> exists hr, keeps c h b hr /\ b_retain b = ret_run hr.
  Proof.
    induction 1 as [|h b e b' out R IH S]; intros PR.
    - exists []. split; [constructor|reflexivity].
    - destruct IH as (hr & K & RE); [intros p I; apply PR; right; exact I|]. destruct (update_run _ _ _ _ _ _ _ R PR S RE) as (ops & U & E).
      exists (hr ++ ops). split; [econstructor; eauto|exact E].
  Qed.

  Lemma kept_lemma c h b : brun c h b -> (forall p, In p h -> proper p) -> exists hr, keeps c h b hr /\
    forall f, valid_filter f -> exists l, ret_get_matches (b_retain b) f = Some l /\ NoDup (map rc_topic l) /\ forall m, In m l <-> retained hr (rc_topic m) = Some m /\ topic_matches f (rc_topic m).
  Proof.
    intros R PR. destruct (keeps_run _ _ _ R PR) as (hr & K & ->). exists hr. split; [exact K|]. intros f V. exact (retained_lookup_lemma hr f V).
  Qed.
  Lemma untouched_lemma c h b e b' out : brun c h b -> (forall p, In p (Past b e out :: h) -> proper p) -> bstep e b = BOk b' out ->
    ~ publishes e -> no_will out -> b_retain b' = b_retain b.
  Proof.
    intros R PR S NP NW. destruct (keeps_run _ _ _ R (fun p I => PR p (or_intror I))) as (hr & _ & RE). destruct (update_run _ _ _ _ _ _ _ R PR S RE) as (ops & U & E).
    rewrite E, RE. f_equal. inversion U as [k len w s l T n E1|k len w E1|k len w s n E1|k len w E1|k w s n I|k w s n I|]; cbn [w_e w_out] in *; subst; try (exfalso; apply NP; exact Logic.I); [exfalso; exact (proj1 (NW k) w I)|exfalso; exact (proj2 (NW k) w I)|apply app_nil_r].
  Qed.
End Run.
