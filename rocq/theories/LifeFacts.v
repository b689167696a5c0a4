(** Sessions of a broker run: what the history says about them. *)
From Coq Require Import List Bool NArith String Lia.
From Verif Require Import Base BaseLemmas TopicModel MsgModel PendingModel OutModel RouteModel RouteSpec RouteInv RetainModel GlobModel Sess5Model Sess3Model ConnModel
  OutSpec InSpec RecvSpec SubFacts LinkSpec LinkProofs LinkProofs3 LinkFacts RegModel BrokerModel
  BrokerSpec FrameProofs CoreProofs BrokerInv TaskMove StepProofs RunProofs RegProofs EvolProofs HistProofs LifeSpec TabProofs TabInv RouteRun LifeProofs.
Import ListNotations.
Local Open Scope N_scope.
Local Open Scope list_scope.

Section Facts.
  Variables (hash5 : wpub5 -> N) (hash3 : wpub3 -> N) (pick : draw -> broker -> string -> string -> N).
  Notation bstep := (bstep hash5 hash3 pick).
  Notation brun := (brun hash5 hash3 pick).
  Notation evol := (evol hash5 hash3 pick).

  (** ** Before a connection has a session nothing is written to it *)
  Definition unborn (b : broker) (k : N) : Prop :=
    match aget k (b_tasks b) with None => b_conns b <= k | Some t => t_connecting t = true end.
  Lemma unborn_back e b b' out k : good b -> bstep e b = BOk b' out -> unborn b' k -> unborn b k.
  Proof.
    intros G S U. pose proof G as [I P]. pose proof (step_move _ _ _ _ _ _ _ I S k) as M. pose proof (step_conns _ _ _ _ _ _ _ S) as C. unfold unborn in *.
    assert (LT : forall t, aget k (b_tasks b) = Some t -> k < b_conns b) by (intros; eapply task_num; eauto).
    destruct (aget k (b_tasks b')) as [t'|].
    - destruct (aget k (b_tasks b)) as [t|]; inversion M; subst; auto; try discriminate; try lia; destruct on; discriminate.
    - destruct (aget k (b_tasks b)) as [t|]; [specialize (LT _ eq_refl); lia|lia].
  Qed.
  Lemma unborn_idle e b b' out k : bstep e b = BOk b' out -> unborn b k -> idle k e.
  Proof.
    unfold unborn. intros S U. destruct e; cbn [idle]; auto; intros ->; cbn [BrokerModel.bstep] in S.
    - unfold do_start in S. destruct (aget k _) as [[]|]; discriminate.
    - unfold do_packet5 in S. destruct (aget k _) as [[]|]; discriminate.
    - unfold do_packet3 in S. destruct (aget k _) as [[]|]; discriminate.
    - unfold do_malformed in S. destruct (aget k _) as [[]|]; discriminate.
    - unfold do_normal in S. destruct (aget k _) as [[]|]; discriminate.
  Qed.
  Lemma unborn_unacked c h b k cfg : brun c h b -> unborn b k -> unacked5 cfg k h = [] /\ unacked3 cfg k h = [].
  Proof.
    induction 1 as [|h b e b' out R IH S]; [auto|]. intros U. pose proof (run_good _ _ _ _ _ _ R) as G. pose proof (unborn_back _ _ _ _ _ G S U) as U0. destruct (IH U0) as (A & B).
    pose proof (unborn_idle _ _ _ _ _ S U0) as ID. destruct (step_quiet _ _ _ _ _ _ _ _ S ID) as (Q5 & Q3). cbn [unacked5 unacked3 w_e w_out]. rewrite A, B, Q5, Q3.
    destruct e; auto; cbn [idle] in ID; destruct (N.eqb_spec k0 k); try contradiction; auto.
  Qed.
  Lemma join_unborn b b' out k : bstep (EJoin k) b = BOk b' out -> unborn b k.
  Proof. cbn [BrokerModel.bstep]. unfold do_join, unborn. destruct (_ <=? _); [discriminate|]. destruct (aget k (b_tasks b)) as [[| |x r| | | | | |]|]; try discriminate. reflexivity. Qed.
  Lemma join_unacked c h p k b cfg : brun c (p :: h) b -> w_e p = EJoin k -> unacked5 cfg k (p :: h) = [] /\ unacked3 cfg k (p :: h) = [].
  Proof.
    intros R E. inversion R as [|h0 b0 e b1 out R0 ST]; subst. cbn [w_e] in E. subst e. pose proof (join_unborn _ _ _ _ ST) as U. destruct (unborn_unacked _ _ _ _ cfg R0 U) as (A & B).
    destruct (step_quiet _ _ _ _ _ _ _ k ST Logic.I) as (Q5 & Q3). cbn [unacked5 unacked3 w_e w_out]. rewrite A, B, Q5, Q3. auto.
  Qed.

  Lemma still5_inflight cfg d l : Forall still5 d -> fold_left (inflight5_step cfg) d l = l.
  Proof. intros F. revert l. induction F as [|[e o] d E F IH]; intros l; [reflexivity|]. cbn [fold_left]. rewrite IH. destruct e; try contradiction; destruct o; try contradiction; reflexivity. Qed.
  Lemma still3_inflight cfg d l : Forall still3 d -> fold_left (inflight3_step cfg) d l = l.
  Proof. intros F. revert l. induction F as [|[e o] d E F IH]; intros l; [reflexivity|]. cbn [fold_left]. rewrite IH. destruct e; try contradiction; destruct o; try contradiction; reflexivity. Qed.

  Lemma life5_inflight c k h l b : brun c h b -> life5 k h l -> inflight5 c l = unacked5 c k h.
  Proof.
    intros R L. revert b R. induction L as [k p h q t0 uuid pc data E Q1 Q2|k p h2 q j on so h1 l q0 t0 uuid pc data E E1 L IH AJ RQ M E2|k p h l d L IH D]; intros b R.
    - rewrite (proj1 (join_unacked _ _ _ _ _ c R E)). reflexivity.
    - rewrite (proj1 (join_unacked _ _ _ _ _ c R E)). unfold inflight5. rewrite fold_left_app. reflexivity.
    - inversion R as [|h0 b0 e b1 out R0 ST]; subst. specialize (IH _ R0). unfold inflight5 in *. rewrite fold_left_app, IH. cbn [unacked5].
      inversion D as [len x E|reason E|a cc m r E|a cc m r E|a cc m r E A W N|E|d0 P Q F]; cbn [w_e w_b w_out] in *; subst; cbn [fold_left inflight5_step fst snd flat_map]; try reflexivity.
      + rewrite N.eqb_refl. reflexivity.
      + rewrite N. reflexivity.
      + rewrite still5_inflight by auto. rewrite Q. destruct e; try reflexivity. destruct (N.eqb_spec k0 k); [|reflexivity]. subst. destruct x; cbn in P; try contradiction. cbn. unfold ack5. destruct (_ <? _); reflexivity.
  Qed.
  Lemma life3_inflight c k h l b : brun c h b -> life3 k h l -> inflight3 c l = unacked3 c k h.
  Proof.
    intros R L. revert b R. induction L as [k p h q t0 uuid pc E Q1 Q2|k p h2 q j online a h1 l q0 t0 uuid pc s0 present E E1 L IH M E2 E3 A RQ O|k p h l d L IH D]; intros b R.
    - rewrite (proj2 (join_unacked _ _ _ _ _ c R E)). reflexivity.
    - rewrite (proj2 (join_unacked _ _ _ _ _ c R E)). unfold inflight3. rewrite app_assoc, fold_left_app. reflexivity.
    - inversion R as [|h0 b0 e b1 out R0 ST]; subst. specialize (IH _ R0). unfold inflight3 in *. rewrite fold_left_app, IH. cbn [unacked3].
      inversion D as [len x E|a cc m r E|a cc m r E|a cc m r E A W N|E|d0 P Q F]; cbn [w_e w_b w_out] in *; subst; cbn [fold_left inflight3_step fst snd flat_map]; try reflexivity.
      + rewrite N.eqb_refl. reflexivity.
      + rewrite N. reflexivity.
      + rewrite still3_inflight by auto. rewrite Q. destruct e; try reflexivity. cbn in P. destruct (N.eqb_spec k0 k); [contradiction|reflexivity].
  Qed.

  (** ** The clock *)
  Lemma late_seconds p : after_1970 p -> match w_e p with ETick _ => True | _ => 0 < seconds (w_b p) end.
  Proof. unfold after_1970, seconds. destruct (w_e p); auto; intros H; apply N.div_str_pos; lia. Qed.
  Lemma life5_clocked k h l : life5 k h l -> (forall p, In p h -> after_1970 p) -> Forall clocked5 l.
  Proof.
    induction 1 as [k p h q t0 uuid pc data E Q1 Q2|k p h2 q j on so h1 l q0 t0 uuid pc data E E1 L IH AJ RQ M E2|k p h l d L IH D]; intros C.
    - constructor.
    - apply Forall_app. split; [apply IH; intros; apply C; right; apply in_or_app; right; right; auto|]. repeat constructor.
    - apply Forall_app. split; [apply IH; intros; apply C; right; auto|]. pose proof (late_seconds _ (C p (or_introl eq_refl))) as LS.
      inversion D as [len x E|reason E|a cc m r E|a cc m r E|a cc m r E A W N|E|d0 P Q F]; subst; try (rewrite E in LS; repeat (apply Forall_cons; [first [exact LS|exact Logic.I]|]); apply Forall_nil).
      eapply Forall_impl; [|exact F]. intros [e o]. unfold still5, clocked5. cbn. destruct e; try contradiction; auto.
  Qed.
  Lemma life3_clocked k h l : life3 k h l -> (forall p, In p h -> after_1970 p) -> Forall clocked3 l.
  Proof.
    induction 1 as [k p h q t0 uuid pc E Q1 Q2|k p h2 q j online a h1 l q0 t0 uuid pc s0 present E E1 L IH M E2 E3 A RQ O|k p h l d L IH D]; intros C.
    - constructor.
    - apply Forall_app. split; [apply IH; intros; apply C; right; apply in_or_app; right; right; auto|]. apply Forall_app. split; [|repeat constructor].
      destruct online; [constructor|]. assert (LS := late_seconds q (C q ltac:(right; apply in_or_app; right; left; reflexivity))). rewrite E1 in LS. apply Forall_forall. intros x X. apply in_map_iff in X. destruct X as (m & <- & _). exact LS.
    - apply Forall_app. split; [apply IH; intros; apply C; right; auto|]. pose proof (late_seconds _ (C p (or_introl eq_refl))) as LS.
      inversion D as [len x E|a cc m r E|a cc m r E|a cc m r E A W N|E|d0 P Q F]; subst; try (rewrite E in LS; repeat (apply Forall_cons; [first [exact LS|exact Logic.I]|]); apply Forall_nil).
      eapply Forall_impl; [|exact F]. intros [e o]. unfold still3, clocked3. cbn. destruct e; try contradiction; auto.
  Qed.

  (** ** The receive maximum of a connection is that of its CONNECT *)
  Lemma normal_rmax now c m s s' r : handle_normal5 now c m s = (s', r) -> s_rmax s' = s_rmax s.
  Proof.
    assert (RP : forall rp, recv_publish5 now rp s = (s', r) -> s_rmax s' = s_rmax s).
    { intros rp. unfold recv_publish5. destruct (match rp_ids rp with Precomputed l => Some l | Lookup f => _ end); [|intros E; inversion E; auto].
      destruct (negb _); [destruct (_ <? _); [intros E; inversion E; auto|]; destruct (out5_push _ _ _); intros E; inversion E; reflexivity|].
      destruct (_ && _); [|intros E; inversion E; auto]. destruct (_ <? _); [intros E; inversion E; auto|]. destruct (out5_qos0 _ _ _ _ _); intros E; inversion E; reflexivity. }
    unfold handle_normal5. destruct m as [m|m].
    - destruct (aget _ _); [apply RP|intros E; inversion E; auto].
    - destruct (filters_info _ _) as [[[] rap] ids]; [apply RP|intros E; inversion E; auto].
  Qed.
  Lemma pendings_rmax now s s' o : pendings5 now s = (s', o) -> s_rmax s' = s_rmax s.
  Proof. unfold pendings5. destruct (handle_pendings5 _ _). intros E; inversion E; reflexivity. Qed.
  Lemma evol_rmax b e out k s s' : evol b e out k (A5 s) (A5 s') -> s_rmax s' = s_rmax s.
  Proof.
    intros V. remember (A5 s) as a eqn:EA. remember (A5 s') as a' eqn:EA'.
    destruct V as [a ID|len x s1 s2 g o E A D PS O|len x s1 s2 g E A D PS O|reason s1 s2 p E D ED O|len x s1 s2 g o E A D PS O|len x s1 s2 g E A D PS O
      |on a a' cs [c0 m] r o E A D CH NM|d a bc n E O|s1 s2 o E A PE O|s1 s2 o E A PE O|a a' b0 b1 ok GB E SW|a E O]; try discriminate EA; try discriminate EA'.
    - congruence.
    - injection EA as ->. injection EA' as ->. eapply packet_rmax; eauto.
    - injection EA as ->. injection EA' as ->. unfold packet_step5 in PS. destruct (handle_packet5 _ _ _ _ _ _ _) eqn:HP; [destruct (after_packet5 _ _); discriminate| |discriminate]. inversion PS; subst.
      unfold handle_packet5 in HP. destruct (_ <? _); [destruct (error_disconnect _ _ _); discriminate|]. destruct x; try discriminate; [| | | | | |inversion HP; auto];
          repeat match goal with H : match ?y with _ => _ end = _ |- _ => destruct y; try discriminate end.
    - injection EA as ->. injection EA' as ->. unfold error_disconnect in ED. inversion ED; reflexivity.
    - subst a a'. cbn [snd normal] in NM. destruct (handle_normal5 (seconds b) (b_cfg b) m s) as [s1 res] eqn:HN. apply normal_rmax in HN. rewrite <- HN.
      destruct res as [[q pk]|]; [|injection NM as -> _; auto]. destruct on; [|injection NM as -> _; auto]. destruct (qos_eqb q L0); [injection NM as -> _; auto|].
      destruct (pendings5 (seconds b) s1) as [s2 more] eqn:PE. injection NM as -> _. eapply pendings_rmax; eauto.
    - subst a. injection EA' as <-. reflexivity.
    - injection EA as ->. injection EA' as ->. apply pendings_rmax in PE. exact PE.
    - destruct (will_steps5 _ _ _ _ _ _ _ _ _ SW EA') as (s0 & bc & n & X & ->). rewrite X in EA. injection EA as ->. reflexivity.
    - subst a. injection EA' as <-. reflexivity.
  Qed.

  Definition connects (e : bev) : Prop := match e with EConnect5 _ _ _ _ | EConnect3 _ _ _ => True | _ => False end.
  Lemma made_unique c h b q1 q2 k : brun c h b -> made_by h q1 k -> made_by h q2 k -> connects (w_e q1) -> connects (w_e q2) -> q1 = q2.
  Proof.
    assert (LT : forall c h b q, brun c h b -> In q h -> connects (w_e q) -> b_conns (w_b q) < b_conns b).
    { intros c0 h0 b0 q R. induction R as [|h0 b0 e b' out R IH S]; [intros []|]. pose proof (step_conns _ _ _ _ _ _ _ S) as SC. intros [<-|I] E; cbn [w_b w_e] in *.
      - destruct e; try contradiction; lia.
      - specialize (IH I E). lia. }
    intros R. induction R as [|h b e b' out R IH S]; [intros ([] & _)|]. intros ([<-|I1] & N1) ([<-|I2] & N2) E1 E2; auto.
    - exfalso. pose proof (LT _ _ _ _ R I2 E2). cbn in N1. lia.
    - exfalso. pose proof (LT _ _ _ _ R I1 E1). cbn in N2. lia.
    - apply IH; auto; split; auto.
  Qed.
  Lemma rmax_from c h b k s : brun c h b -> sess_at b k = Some (A5 s) -> exists q t0 uuid p data, made_by h q k /\ w_e q = EConnect5 t0 uuid p data /\ s_rmax s = rmax5 c p.
  Proof.
    intros R. revert s. induction R as [|h b e b' out R IH S]; [discriminate|]. intros s A'. pose proof (run_good _ _ _ _ _ _ R) as G. destruct (run_glob _ _ _ _ _ _ R) as (CF & _).
    destruct (step_evol _ _ _ _ _ _ _ G S k _ A') as [(a & A & V)|(x & r & o & A & E & O & J)].
    - pose proof (evol_v _ _ _ _ _ _ _ _ _ V) as AV. destruct a as [s0|s0]; [|discriminate]. destruct (IH _ A) as (q & t0 & uuid & p & data & Q1 & Q2 & Q3). exists q, t0, uuid, p, data. split; [apply made_cons; auto|]. split; auto.
      rewrite (evol_rmax _ _ _ _ _ _ V). auto.
    - destruct x as [cn data|s0]; cbn in J; [|destruct J as (? & ? & ? & _ & _ & X & _); discriminate]. destruct J as (rc & s1 & ack & RC & SC & _ & X & _). injection X as <-.
      pose proof (conn_from _ _ _ _ _ _ _ _ R A) as CO. cbn in CO.
      assert (Y : exists q, made_by h q k /\ connecting (w_b q) (w_e q) (B5 cn data)) by (destruct r; destruct CO as (q & Q1 & Q & _); eauto).
      destruct Y as (q & Q1 & Q2). destruct Q2 as [(t0 & uuid & p & data' & E1 & _ & X)|(t0 & uuid & p & _ & _ & X)]; [|discriminate]. injection X as X1 X2. subst data'.
      exists q, t0, uuid, p, data. split; [apply made_cons; auto|]. split; auto.
      destruct (run_at _ _ _ _ _ _ _ R (proj1 Q1)) as (h2 & h1 & _ & RQ). pose proof (proj1 (run_glob _ _ _ _ _ _ RQ)) as CQ.
      transitivity (s_rmax (cn_s cn)); [|rewrite X1, CQ; reflexivity]. clear - SC.
      unfold session_connect5 in SC. destruct rc; [|destruct (negb _)]; (destruct (max_allowed_qos (b_cfg b)); [|discriminate]); injection SC as SC _; subst s;
        repeat match goal with |- context [if ?y then _ else _] => destruct y end; reflexivity.
  Qed.
End Facts.
