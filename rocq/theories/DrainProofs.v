(** Proofs about DrainSpec. *)
From Coq Require Import List Bool Arith NArith String Lia.
From Verif Require Import Base BaseLemmas TopicModel MsgModel OutModel RouteModel RetainModel GlobModel Sess5Model Sess3Model ConnModel RegModel BrokerModel
  BrokerSpec FrameProofs CoreProofs BrokerInv TaskMove StepProofs RunProofs RegProofs TimeProofs WillProofs KeepProofs EvolProofs HistProofs LifeSpec LifeFacts OnlineModel HookFacts DelivSpec InSpec TopicSpec AccSpec AccProofs BrokerFacts PanicProofs DrainSpec.
Import ListNotations.
Local Open Scope N_scope.
Local Open Scope list_scope.

Section Drain.
  Variables (hash5 : wpub5 -> N) (hash3 : wpub3 -> N) (pick : draw -> broker -> string -> string -> N).
  Notation bstep := (bstep hash5 hash3 pick).
  Notation brun := (brun hash5 hash3 pick).
  Notation bgo := (bgo hash5 hash3 pick).
  Notation exec := (exec hash5 hash3 pick).
  Notation evol := (evol hash5 hash3 pick).

  Lemma ending_sess b k a : ending b k a -> sess_at b k = Some a.
  Proof. unfold sess_at. intros [->|(s & ->)]; reflexivity. Qed.
  Lemma ending_inj b k a a' : ending b k a -> ending b k a' -> a = a'.
  Proof. intros A B. apply ending_sess in A. apply ending_sess in B. congruence. Qed.

  (** Somebody has a channel for every client a message is queued for. *)
  Lemma evol_targets b e out k a a' : evol b e out k a a' -> (forall d, e <> EFlush k d) -> live_only (r_clients (b_reg b)) (a_bcast a) (a_bcast a').
  Proof.
    intros V NF. destruct V as [a ID|len x s1 s2 g o E A D PS O|len x s1 s2 g E A D PS O|reason s1 s2 p E D ED O|len x s1 s2 g o E A D PS O|len x s1 s2 g E A D PS O
      |on a a' cs m r o E A D CH NM|d a bc n E O|s1 s2 o E A PE O|s1 s2 o E A PE O|a a' b0 b1 ok GB E SW|a E O].
    - apply live_refl.
    - pose proof (packet_step5_keep hash5 (pick (DPacket k x) b) (seconds b) len x s1 (glob_of b)) as K. rewrite PS in K. unfold step_kept5 in K. cbn [a_bcast].
      destruct (is_disconnect5 x); [destruct K as (_ & _ & ->); apply live_refl|apply K].
    - pose proof (packet_step5_keep hash5 (pick (DPacket k x) b) (seconds b) len x s1 (glob_of b)) as K. rewrite PS in K. unfold step_kept5 in K. cbn [a_bcast].
      destruct (is_disconnect5 x); [destruct K as (_ & _ & ->); apply live_refl|apply K].
    - unfold error_disconnect in ED. injection ED as <- _. cbn. apply live_refl.
    - pose proof (packet_step3_keep hash3 (seconds b) len x s1 (glob_of b)) as K. rewrite PS in K. unfold step_kept3 in K. cbn [a_bcast].
      destruct (is_disconnect3 x); [destruct K as (_ & _ & ->); apply live_refl|apply K].
    - pose proof (packet_step3_keep hash3 (seconds b) len x s1 (glob_of b)) as K. rewrite PS in K. unfold step_kept3 in K. cbn [a_bcast].
      destruct (is_disconnect3 x); [destruct K as (_ & _ & ->); apply live_refl|apply K].
    - apply normal_facts in NM. destruct NM as (_ & _ & _ & _ & _ & ->). apply live_refl.
    - destruct (NF _ E).
    - apply (pendings5_keep _ _ (glob_of b)) in PE. apply PE.
    - apply (after_packet3_keep _ _ (glob_of b)) in PE. apply PE.
    - change (r_clients (b_reg b)) with (g_live (glob_of b)). rewrite <- GB. unfold send_will in SW. destruct a as [s|s].
      + destruct (send_will5 _ _ _) as [[[s1 g1] ok1]|] eqn:W; [|discriminate]. injection SW as <- _ _ _. apply send_will5_keep in W. apply W.
      + destruct (send_will3 _ _) as [[[s1 g1] ok1]|] eqn:W; [|discriminate]. injection SW as <- _ _ _. apply send_will3_keep in W. apply W.
    - destruct a; apply live_refl.
  Qed.
  Lemma flush_targets d a b a1 b1 : NoDup (keys (a_bcast a)) -> flush d a b = Some (a1, b1) -> forall d', aget d' (a_bcast a1) <> None -> aget d' (a_bcast a) <> None.
  Proof.
    intros ND. assert (DEL : forall d', aget d' (adel d (a_bcast a)) <> None -> aget d' (a_bcast a) <> None).
    { intros d'. destruct (N.eq_dec d' d) as [->|NE]; [rewrite aget_adel_eq by auto; congruence|now rewrite aget_adel_ne by auto]. }
    unfold flush. destruct (aget d (a_bcast a)) as [[|m ms]|] eqn:Q; [| |discriminate].
    - intros F d'. injection F as <- _. rewrite (f_equal fst (sbc_set _ _ a) : a_bcast _ = _). apply DEL.
    - destruct (aget d (b_chans b)) as [ch|]; [|discriminate]. destruct (negb _); [|destruct (norm_room ch); [|discriminate]]; intros F d'; injection F as <- _; rewrite (f_equal fst (sbc_set _ _ a) : a_bcast _ = _); [apply DEL|].
      cbn [fst]. rewrite aget_aset. change (@eqb client_id _ d' d) with (N.eqb d' d). destruct (N.eqb_spec d' d) as [->|]; [congruence|auto].
  Qed.
  Lemma targets c h b k a d : brun c h b -> sess_at b k = Some a -> aget d (a_bcast a) <> None -> d < r_next (b_reg b).
  Proof.
    intros R. revert k a d. induction R as [|h b e b' out R IH S]; [discriminate|]. intros k a' d SA D. pose proof (run_good _ _ _ _ _ _ R) as G.
    pose proof (step_next _ _ _ _ _ _ _ G S) as LE.
    destruct (step_evol _ _ _ _ _ _ _ G S k _ SA) as [(a & A & V)|(x & r & o & A & E & O & J)].
    - assert (NF : (exists d, e = EFlush k d) \/ forall d, e <> EFlush k d).
      { destruct e; try (right; intros; discriminate). destruct (N.eq_dec k k0) as [->|NE]; [left; eauto|right; intros d' X; injection X as X _; auto]. }
      destruct NF as [(d' & ->)|NF].
      + destruct (flush_step _ _ _ _ _ _ _ _ _ S SA) as (a0 & b1 & A0 & F). rewrite A in A0. injection A0 as <-.
        apply (flush_targets _ _ _ _ _ (proj1 (run_bc _ _ _ _ _ _ _ _ R A)) F) in D. specialize (IH _ _ _ A D). lia.
      + destruct (evol_targets _ _ _ _ _ _ V NF d D) as [D0|L]; [specialize (IH _ _ _ A D0); lia|].
        pose proof (i_core _ (proj1 G)) as K. apply (k_cl _ _ _ _ _ K) in L.
        assert (d < r_next (b_reg b)); [|lia]. apply (k_chan _ _ _ _ _ K). intros N. apply L.
        destruct (aget d (r_ids (b_reg b))) as [[i o]|] eqn:X; [|reflexivity].
        assert (KN : known b i d) by (apply (known_iff _ _ _ (proj1 G)); eauto).
        apply (known_lt _ _ _ (proj1 G)) in KN. apply (k_chan _ _ _ _ _ K) in KN. contradiction.
    - destruct (joined_empty _ _ _ _ _ _ _ _ _ _ _ R A J) as (E1 & E2). rewrite E1 in D. now destruct D.
  Qed.
  Lemma target_chan c h b k a d : brun c h b -> sess_at b k = Some a -> aget d (a_bcast a) <> None -> exists ch, aget d (b_chans b) = Some ch.
  Proof.
    intros R A D. pose proof (targets _ _ _ _ _ _ R A D) as L. apply (k_chan _ _ _ _ _ (i_core _ (proj1 (run_good _ _ _ _ _ _ R)))) in L.
    unfold cv in L. destruct (aget d (b_chans b)); [eauto|]. now destruct L.
  Qed.

  (** The holder of a client's session is the only one. *)
  Lemma holder_one b k1 k2 a1 a2 : inv b -> sess_at b k1 = Some a1 -> sess_at b k2 = Some a2 -> a_id a1 = a_id a2 -> k1 = k2.
  Proof.
    intros I A1 A2 E. unfold sess_at in A1, A2. destruct (aget k1 (b_tasks b)) as [t1|] eqn:T1; [|discriminate]. destruct (aget k2 (b_tasks b)) as [t2|] eqn:T2; [|discriminate].
    assert (R1 : exists v i d, role_of t1 = Owns v i (a_id a1) d) by (destruct t1; cbn in A1; try discriminate; injection A1 as <-; cbn; eauto).
    assert (R2 : exists v i d, role_of t2 = Owns v i (a_id a2) d) by (destruct t2; cbn in A2; try discriminate; injection A2 as <-; cbn; eauto).
    destruct R1 as (v1 & i1 & d1 & R1), R2 as (v2 & i2 & d2 & R2).
    eapply (k_one _ _ _ _ _ (i_core _ I) k1 k2 v1 v2 _ _ (a_id a1) d1 d2); [rewrite (rl_of _ _ _ T1), R1|rewrite (rl_of _ _ _ T2), R2, E]; reflexivity.
  Qed.

  (** A session that has something to pass on stays where it is, and loses only what it
      passes on. *)
  Lemma ending_step c h e b b' out k a d : brun c h b -> bstep e b = BOk b' out -> ending b k a -> queue_of (a_bcast a) d <> [] ->
    exists a', ending b' k a' /\ a_id a' = a_id a /\ a_ident a' = a_ident a /\ (aget k (b_tasks b) = Some (TDrain a) -> aget k (b_tasks b') = Some (TDrain a')) /\
      (e <> EFlush k d -> exists ms, queue_of (a_bcast a') d = queue_of (a_bcast a) d ++ ms).
  Proof.
    intros R S EN Q. pose proof (run_good _ _ _ _ _ _ R) as G. pose proof (ending_sess _ _ _ EN) as SA.
    assert (NB : a_bcast a <> []) by (intros X; rewrite X in Q; now apply Q).
    assert (M : exists a', ending b' k a' /\ akept a a' /\ (aget k (b_tasks b) = Some (TDrain a) -> aget k (b_tasks b') = Some (TDrain a'))).
    { pose proof (step_move _ _ _ _ _ _ _ (proj1 G) S k) as M.
      assert (ND : e <> EDone k).
      { intros ->. cbn [BrokerModel.bstep] in S. unfold do_done in S. destruct EN as [T|(s & T)]; rewrite T in S; destruct (a_bcast a); try congruence; discriminate. }
      remember (aget k (b_tasks b')) as o' eqn:T'. symmetry in T'. unfold ending. rewrite T'.
      remember (aget k (b_tasks b)) as o eqn:T. unfold ending in EN. rewrite <- T in EN.
      destruct EN as [->|(s & ->)].
      - inversion M; subst; try congruence; eauto using akept_refl; try discriminate; try (destruct on; discriminate).
        all: match goal with H : _ \/ _ |- _ => destruct H as [H|H]; [try (destruct H as (? & ? & H)); discriminate H|try (destruct H as (? & H)); discriminate H] end.
      - inversion M; subst; try congruence; try discriminate; try (destruct on; discriminate).
        all: try (match goal with H : _ \/ _ |- _ => destruct H as [H|H]; [try (destruct H as (? & ? & H)); discriminate H|try (destruct H as (? & H)); discriminate H] end).
        + exists a. eauto 8 using akept_refl.
        + eexists. split; [eauto|]. split; [eassumption|discriminate]. }
    destruct M as (a' & E' & AK & TD). exists a'. pose proof (akept_facts _ _ AK) as (F1 & _ & F3 & _). split; [exact E'|]. split; [exact F3|]. split; [exact F1|]. split; [exact TD|].
    intros NE. pose proof (ending_sess _ _ _ E') as SA'. destruct (step_evol _ _ _ _ _ _ _ G S k _ SA') as [(a0 & A0 & V)|(x & r & o & A0 & E & _)].
    - rewrite SA in A0. injection A0 as <-.
      assert (NF : (exists d, e = EFlush k d) \/ forall d, e <> EFlush k d).
      { destruct e; try (right; intros; discriminate). destruct (N.eq_dec k k0) as [->|NK]; [left; eauto|right; intros d' X; injection X as X _; auto]. }
      destruct NF as [(d' & ->)|NF].
      + destruct (flush_step _ _ _ _ _ _ _ _ _ S SA') as (a0 & b1 & A0 & F). rewrite SA in A0. injection A0 as <-.
        destruct (flush_queue _ _ _ _ _ (run_bc _ _ _ _ _ _ _ _ R SA) F) as (_ & O & _). exists []. rewrite app_nil_r. apply O. congruence.
      + apply (evol_grows _ _ _ _ _ _ _ _ _ V NF (run_bc _ _ _ _ _ _ _ _ R SA)).
    - exfalso. unfold sess_at in SA. rewrite A0 in SA. discriminate.
  Qed.

  Lemma circle_step c h e b b' out ks : brun c h b -> bstep e b = BOk b' out -> circle b ks -> circle b' ks.
  Proof.
    intros R S C k IN. pose proof (run_good _ _ _ _ _ _ R) as G. destruct (C k IN) as (a & d & j & a1 & EN & Q & W & INj & ENj & ID).
    destruct (C j INj) as (a2 & d2 & j2 & a3 & ENj' & Qj & _). assert (a2 = a1) by (eapply ending_inj; eauto). subst a2.
    destruct (ending_step _ _ _ _ _ _ _ _ _ R S EN Q) as (a' & EN' & _ & _ & _ & Q').
    destruct (ending_step _ _ _ _ _ _ _ _ _ R S ENj Qj) as (a1' & ENj1 & ID1 & _).
    exists a', d, j, a1'. split; [exact EN'|].
    assert (OPEN : exists ch, aget d (b_chans b) = Some ch /\ ch_open ch = true).
    { subst d. destruct ENj as [T|(s & T)]; pose proof (open_own _ _ _ _ G T eq_refl) as O; unfold received_for in O; destruct (aget (a_id a1) (b_chans b)); try discriminate; eauto. }
    destruct OPEN as (ch & CH & OP). assert (LW : (inbox <= List.length (ch_norm ch))%nat) by (unfold waiting in W; rewrite CH in W; exact W).
    split.
    { destruct Q' as (ms & Q').
      - intros ->. cbn [BrokerModel.bstep] in S. unfold do_flush in S.
        assert (F : flush d a b = None).
        { unfold flush. unfold queue_of in Q. destruct (aget d (a_bcast a)) as [[|m ms]|]; try congruence. rewrite CH, OP. cbn [negb]. unfold norm_room.
          destruct (N.ltb_spec (N.of_nat (List.length (ch_norm ch))) 8); auto. unfold inbox in LW. lia. }
        destruct EN as [T|(s & T)]; rewrite T, F in S; discriminate.
      - rewrite Q'. destruct (queue_of (a_bcast a) d); [congruence|discriminate]. }
    split.
    { pose proof (chan_step _ _ _ e b b' out d G S) as CS.
      assert (NT : taken d (Past b e out) = []).
      { unfold taken. cbn [w_e w_b]. destruct e as [| | | | | | | | | |k0|k0| | | | |]; try reflexivity.
        - destruct (aget k0 (b_tasks b)) as [[| | | | | | |[s|s]|]|] eqn:T; try reflexivity. destruct (aget d (b_chans b)) as [[[|[ ] ] ? ?]|]; try reflexivity.
          destruct (N.eqb_spec (z_id s) d) as [E|]; [|reflexivity]. exfalso.
          assert (k0 = j). { eapply (holder_one b k0 j (A3 s) a1 (proj1 G)); [unfold sess_at; now rewrite T|now apply ending_sess|cbn; congruence]. }
          subst. destruct ENj as [X|(? & X)]; congruence.
        - destruct (sess_at b k0) as [a0|] eqn:T; [|reflexivity]. destruct (N.eqb_spec (a_id a0) d) as [E|]; [|reflexivity]. exfalso.
          assert (k0 = j). { eapply (holder_one b k0 j a0 a1 (proj1 G)); [auto|now apply ending_sess|congruence]. }
          subst. cbn [BrokerModel.bstep] in S. unfold do_normal in S. destruct ENj as [X|(? & X)]; rewrite X in S; discriminate. }
      rewrite NT in CS. cbn [app] in CS. rewrite <- CS, app_length. lia. }
    split; [exact INj|]. split; [exact ENj1|]. congruence.
  Qed.
  Lemma circle_forever c h b ks h' b' : brun c h b -> circle b ks -> bgo b h' b' -> circle b' ks /\
    forall k a, In k ks -> ending b k a -> exists a', ending b' k a' /\ a_id a' = a_id a /\ a_ident a' = a_ident a /\ (aget k (b_tasks b) = Some (TDrain a) -> aget k (b_tasks b') = Some (TDrain a')).
  Proof.
    intros R C GO. induction GO as [b|b0 h1 b e b' out GO IH S]; [eauto 8|]. destruct (IH R C) as (C1 & K1). pose proof (run_go _ _ _ _ _ _ _ _ R GO) as R1.
    split; [eapply circle_step; eauto|]. intros k a IN EN. destruct (K1 k a IN EN) as (a1 & EN1 & I1 & I2 & T1).
    destruct (C1 k IN) as (a2 & d & j & a3 & EN2 & Q & _). assert (a2 = a1) by (eapply ending_inj; eauto). subst a2.
    destruct (ending_step _ _ _ _ _ _ _ _ _ R1 S EN1 Q) as (a' & EN' & J1 & J2 & T' & _). exists a'. split; [exact EN'|]. split; [congruence|]. split; [congruence|]. auto.
  Qed.

  (** ** The work left *)
  Definition wk (l : bcast) : nat := fold_right (fun q n => (1 + List.length (snd q) + n)%nat) 0%nat l.
  Lemma wk_adel d (l : bcast) q : NoDup (keys l) -> aget d l = Some q -> (wk (adel d l) + 1 + List.length q = wk l)%nat.
  Proof.
    induction l as [|[d' q'] l IH]; [discriminate|]. intros ND. inversion_clear ND as [|? ? N1 N2]. cbn [aget adel]. change (@eqb client_id _ d d') with (N.eqb d d').
    destruct (N.eqb_spec d d') as [->|NE].
    - intros H. injection H as ->. cbn [wk fold_right snd]. fold (wk l). lia.
    - intros H. cbn [wk fold_right snd]. fold (wk l) (wk (adel d l)). specialize (IH N2 H). lia.
  Qed.
  Lemma wk_aset d (l : bcast) m ms : aget d l = Some (m :: ms) -> (wk (aset d ms l) + 1 = wk l)%nat.
  Proof.
    induction l as [|[d' q'] l IH]; [discriminate|]. cbn [aget aset]. change (@eqb client_id _ d d') with (N.eqb d d').
    destruct (N.eqb_spec d d') as [->|NE].
    - intros H. injection H as ->. cbn [wk fold_right snd List.length]. lia.
    - intros H. cbn [wk fold_right snd]. fold (wk l) (wk (aset d ms l)). specialize (IH H). lia.
  Qed.
  Lemma work_set q n a : work (a_set_bcast q n a) = wk q.
  Proof. destruct a; reflexivity. Qed.
  Lemma bcast_set q n a : a_bcast (a_set_bcast q n a) = q.
  Proof. destruct a; reflexivity. Qed.
  Lemma flush_work d a b a1 b1 : NoDup (keys (a_bcast a)) -> flush d a b = Some (a1, b1) -> (work a1 < work a)%nat.
  Proof.
    intros ND. change (work a) with (wk (a_bcast a)). unfold flush. destruct (aget d (a_bcast a)) as [[|m ms]|] eqn:Q; [| |discriminate].
    - intros F. injection F as <- _. rewrite work_set. apply wk_adel in Q; auto. cbn [List.length] in Q. lia.
    - destruct (aget d (b_chans b)) as [ch|]; [|discriminate]. destruct (negb _).
      + intros F. injection F as <- _. rewrite work_set. apply wk_adel in Q; auto. lia.
      + destruct (norm_room ch); [|discriminate]. intros F. injection F as <- _. rewrite work_set. apply wk_aset in Q. lia.
  Qed.
  (** While a session passes on what it has, nothing is added to it. *)
  Lemma ending_work c h e b b' out k a a' : brun c h b -> bstep e b = BOk b' out -> ending b k a -> ending b' k a' ->
    (work a' <= work a)%nat /\ ((exists d, e = EFlush k d) -> (work a' < work a)%nat).
  Proof.
    intros R S EN EN'. pose proof (run_good _ _ _ _ _ _ R) as G. pose proof (ending_sess _ _ _ EN) as SA. pose proof (ending_sess _ _ _ EN') as SA'.
    assert (NF : (exists d, e = EFlush k d) \/ forall d, e <> EFlush k d).
    { destruct e; try (right; intros; discriminate). destruct (N.eq_dec k k0) as [->|NK]; [left; eauto|right; intros d' X; injection X as X _; auto]. }
    destruct NF as [(d' & ->)|NF].
    - destruct (flush_step _ _ _ _ _ _ _ _ _ S SA') as (a0 & b1 & A0 & F). rewrite SA in A0. injection A0 as <-.
      pose proof (flush_work _ _ _ _ _ (proj1 (run_bc _ _ _ _ _ _ _ _ R SA)) F). split; [lia|auto].
    - split; [|intros (d & X); destruct (NF d X)]. enough (a_bcast a' = a_bcast a) as X by (unfold work; rewrite X; lia).
      assert (NO : forall a0, aget k (b_tasks b) <> Some (TOnline a0) /\ aget k (b_tasks b) <> Some (TReady a0) /\ aget k (b_tasks b) <> Some (TOffline a0) /\ aget k (b_tasks b) <> Some (TEnd a0)).
      { intros a0. destruct EN as [T|(s & T)]; rewrite T; repeat split; discriminate. }
      destruct (step_evol _ _ _ _ _ _ _ G S k _ SA') as [(a0 & A0 & V)|(x & r & o & A0 & E & _)].
      + rewrite SA in A0. injection A0 as <-. destruct V as [a ID|len x s1 s2 g o E A D PS O|len x s1 s2 g E A D PS O|reason s1 s2 p E D ED O|len x s1 s2 g o E A D PS O|len x s1 s2 g E A D PS O
          |on a a' cs m r o E A D CH NM|d a bc n E O|s1 s2 o E A PE O|s1 s2 o E A PE O|a a' b0 b1 ok GB E SW|a E O]; try reflexivity; try (exfalso; exact (proj1 (NO _) A)); try (exfalso; exact (proj1 (proj2 (NO _)) A)).
        * unfold error_disconnect in ED. injection ED as <- _. reflexivity.
        * apply normal_facts in NM. apply NM.
        * destruct (NF _ E).
        * destruct E as [E|E]; subst e; cbn [BrokerModel.bstep] in S; unfold do_end, do_control in S; destruct EN as [T|(s & T)]; rewrite T in S; discriminate.
        * destruct a; reflexivity.
      + exfalso. unfold sess_at in SA. rewrite A0 in SA. discriminate.
  Qed.

  Lemma normal_disc now c k on m a a' out : normal now c k on m a = (a', out) -> a_disc a = false -> a_disc a' = false.
  Proof.
    assert (P5 : forall s, a_disc (A5 (fst (pendings5 now s))) = a_disc (A5 s)) by (intros s; unfold pendings5; destruct (handle_pendings5 _ _); reflexivity).
    assert (P3 : forall s, a_disc (A3 (fst (pendings3 now s))) = a_disc (A3 s)) by (intros s; unfold pendings3; destruct (handle_pendings3 _ _); reflexivity).
    unfold normal. destruct a as [s|s].
    - assert (N : a_disc (A5 (fst (handle_normal5 now c m s))) = a_disc (A5 s)).
      { assert (RP : forall x s, a_disc (A5 (fst (recv_publish5 now x s))) = a_disc (A5 s)).
        { intros x s0. unfold recv_publish5. repeat match goal with |- context [match ?y with _ => _ end] => destruct y end; reflexivity. }
        unfold handle_normal5. destruct m as [m|m]; [destruct (aget _ _); [apply RP|reflexivity]|]. destruct (filters_info _ _) as [[has rap] ids]. destruct has; [apply RP|reflexivity]. }
      destruct (handle_normal5 now c m s) as [s1 r]. cbn [fst] in N. intros H D. rewrite <- N in D. specialize (P5 s1). destruct r as [[q p]|]; [|injection H as <- _; exact D].
      destruct on; [|injection H as <- _; exact D]. destruct (qos_eqb q L0); [injection H as <- _; exact D|]. destruct (pendings5 now s1). injection H as <- _. cbn [fst] in P5. congruence.
    - pose proof (normal3_same now m s) as N. destruct (handle_normal3 now m s) as [s1 r]. cbn [fst] in N. intros H D. specialize (P3 s1).
      assert (D1 : a_disc (A3 s1) = false) by (cbn in *; unfold HookFacts.same3 in N; destruct N as (_ & _ & N); intuition congruence).
      destruct r as [[q p]|]; [|injection H as <- _; exact D1].
      destruct on; [|injection H as <- _; exact D1]. destruct (qos_eqb q L0); [injection H as <- _; exact D1|]. destruct (pendings3 now s1). injection H as <- _. cbn [fst] in P3. congruence.
  Qed.

  (** ** A clear way *)
  Lemma clear_keeps b b' k a a1 d : clear_way b k a d ->
    (forall ch, aget d (b_chans b) = Some ch -> ch_open ch = false -> exists ch', aget d (b_chans b') = Some ch' /\ ch_open ch' = false) ->
    (List.length (waiting b' d) + List.length (queue_of (a_bcast a1) d) <= List.length (waiting b d) + List.length (queue_of (a_bcast a) d))%nat ->
    (forall j a', j <> k -> takes b j a' -> exists a2, takes b' j a2 /\ a_id a2 = a_id a') -> clear_way b' k a1 d.
  Proof.
    intros [(ch & C & O)|[L|(j & a' & NE & T & ID)]] X1 X2 X3.
    - left. eauto.
    - right. left. lia.
    - right. right. destruct (X3 _ _ NE T) as (a2 & T2 & I2). exists j, a2. split; [auto|]. split; [auto|congruence].
  Qed.
  Lemma takes_other b b' k j a' : (forall j, j <> k -> aget j (b_tasks b') = aget j (b_tasks b)) -> j <> k -> takes b j a' -> takes b' j a'.
  Proof. intros E NE. unfold takes. rewrite (E _ NE). auto. Qed.

  Lemma flush_clears c h b k a d a1 b1 : brun c h b -> ending b k a -> flush d a b = Some (a1, b1) ->
    exists b', bstep (EFlush k d) b = BOk b' [] /\ ending b' k a1 /\ (work a1 < work a)%nat /\ a_id a1 = a_id a /\ a_ident a1 = a_ident a /\
      (aget k (b_tasks b) = Some (TDrain a) -> aget k (b_tasks b') = Some (TDrain a1)) /\
      forall d', queue_of (a_bcast a1) d' <> [] -> queue_of (a_bcast a) d' <> [] /\ (clear_way b k a d' -> clear_way b' k a1 d').
  Proof.
    intros R EN F. pose proof (ending_sess _ _ _ EN) as SA. pose proof (run_bc _ _ _ _ _ _ _ _ R SA) as BC.
    destruct (flush_queue _ _ _ _ _ BC F) as (_ & QO & QD). pose proof (flush_work _ _ _ _ _ (proj1 BC) F) as WK.
    destruct (flush_facts _ _ _ _ _ F) as ((q & n & EA) & B). destruct (a_set_facts q n a) as (_ & F2 & F3 & _). rewrite <- EA in F2, F3.
    assert (ST : exists f, (f = TDrain \/ exists st, f = fun a => TOffDrain a st) /\ aget k (b_tasks b) = Some (f a) /\ bstep (EFlush k d) b = BOk (set_task k (f a1) b1) []).
    { cbn [BrokerModel.bstep]. unfold do_flush. destruct EN as [T|(st & T)]; rewrite T, F; [exists TDrain|exists (fun a => TOffDrain a st)]; eauto. }
    destruct ST as (f & FF & TK & ST). exists (set_task k (f a1) b1).
    assert (T1 : b_tasks b1 = b_tasks b) by (destruct B as [->|(ch & ms & _ & ->)]; reflexivity).
    split; [exact ST|]. split.
    { unfold ending. cbn [set_task set_tasks b_tasks]. rewrite aget_N, N.eqb_refl. destruct FF as [->|(st & ->)]; eauto. }
    split; [exact WK|]. split; [exact F3|]. split; [exact F2|]. split.
    { intros T. rewrite TK in T. cbn [set_task set_tasks b_tasks]. rewrite aget_N, N.eqb_refl. destruct FF as [->|(st & ->)]; [reflexivity|discriminate]. }
    intros d' Q. assert (TO : forall j, j <> k -> aget j (b_tasks (set_task k (f a1) b1)) = aget j (b_tasks b)).
    { intros j NE. cbn [set_task set_tasks b_tasks]. rewrite aget_N, T1. apply N.eqb_neq in NE. now rewrite NE. }
    destruct (N.eq_dec d' d) as [->|NE].
    - rewrite QD in Q. destruct (received_for b d) eqn:RF; [|congruence]. unfold flush in F. unfold queue_of in Q, QD |- *. destruct (aget d (a_bcast a)) as [[|m ms]|] eqn:QA; try (now destruct Q).
      split; [discriminate|]. intros CW. unfold received_for in RF. destruct (aget d (b_chans b)) as [ch|] eqn:CH; [|discriminate]. rewrite RF in F. cbn [negb] in F.
      destruct (norm_room ch); [|discriminate]. injection F as E1 E2. eapply clear_keeps; [exact CW| | |intros j a' NJ TJ; exists a'; split; [eapply takes_other; eauto|auto]].
      + intros ch0 E0 O0. rewrite CH in E0. injection E0 as <-. congruence.
      + unfold queue_of. rewrite QA. rewrite QD. unfold waiting. rewrite <- E2. cbn [set_task set_tasks set_chan set_chans b_chans]. rewrite aget_N, N.eqb_refl, CH. unfold push_norm. cbn [ch_norm]. rewrite app_length. cbn. lia.
    - rewrite (QO _ NE) in Q. split; [exact Q|]. intros CW.
      assert (CE : aget d' (b_chans (set_task k (f a1) b1)) = aget d' (b_chans b)).
      { destruct B as [->|(ch & ms & _ & ->)]; cbn [set_task set_tasks set_chan set_chans b_chans]; [reflexivity|]. rewrite aget_N. apply N.eqb_neq in NE. now rewrite NE. }
      eapply clear_keeps; [exact CW| | |intros j a' NJ TJ; exists a'; split; [eapply takes_other; eauto|auto]].
      + rewrite CE. eauto.
      + unfold waiting. rewrite CE, (QO _ NE). lia.
  Qed.

  Lemma normal_clears b k a j a' cs m r o : ending b k a -> j <> k -> takes b j a' -> aget (a_id a') (b_chans b) = Some (Chan cs (m :: r) o) ->
    exists b' out, bstep (ENormal j) b = BOk b' out /\ ending b' k a /\ (aget k (b_tasks b) = Some (TDrain a) -> aget k (b_tasks b') = Some (TDrain a)) /\
      aget (a_id a') (b_chans b') = Some (Chan cs r o) /\ (exists a2, takes b' j a2 /\ a_id a2 = a_id a') /\ forall d, clear_way b k a d -> clear_way b' k a d.
  Proof.
    intros EN NE T CH.
    assert (X : exists on b' out a1, bstep (ENormal j) b = BOk b' out /\ b' = set_task j (if on : bool then TOnline a1 else TOffline a1) (set_chan (a_id a') (Chan cs r o) b) /\
       a_id a1 = a_id a' /\ (on = true -> a_disc a1 = false)).
    { cbn [BrokerModel.bstep]. unfold do_normal. destruct T as [(T & D)|T]; rewrite T; [rewrite D|]; rewrite CH.
      - destruct (normal _ _ _ true _ _) as [a1 out] eqn:N. exists true. do 3 eexists. split; [reflexivity|]. split; [reflexivity|]. split; [apply normal_facts in N; apply N|intros _; eapply normal_disc; eauto].
      - destruct (normal _ _ _ false _ _) as [a1 out] eqn:N. exists false. do 3 eexists. split; [reflexivity|]. split; [reflexivity|]. split; [apply normal_facts in N; apply N|discriminate]. }
    destruct X as (on & b' & out & a1 & S & E & ID & DI). exists b', out. split; [exact S|].
    assert (TK : aget k (b_tasks b') = aget k (b_tasks b)).
    { subst b'. cbn [set_task set_tasks set_chan set_chans b_tasks]. rewrite aget_N. destruct (N.eqb_spec k j); congruence. }
    assert (TJ : takes b' j a1). { subst b'. unfold takes. cbn [set_task set_tasks set_chan set_chans b_tasks]. rewrite aget_N, N.eqb_refl. destruct on; auto. }
    split; [unfold ending; rewrite TK; exact EN|]. split; [rewrite TK; auto|]. split; [subst b'; cbn [set_task set_tasks set_chan set_chans b_chans]; rewrite aget_N, N.eqb_refl; reflexivity|]. split; [eauto|].
    intros d CW.
    assert (CE : aget d (b_chans b') = if d =? a_id a' then Some (Chan cs r o) else aget d (b_chans b)) by (subst b'; cbn [set_task set_tasks set_chan set_chans b_chans]; now rewrite aget_N).
    eapply clear_keeps; [exact CW| | |].
    - intros ch C O. rewrite CE. destruct (N.eqb_spec d (a_id a')) as [->|]; [|eauto]. rewrite CH in C. injection C as <-. cbn in O. subst o. eexists. split; reflexivity.
    - unfold waiting. rewrite CE. destruct (N.eqb_spec d (a_id a')) as [->|]; [rewrite CH; cbn; lia|lia].
    - intros j1 a2 N1 T1. destruct (N.eq_dec j1 j) as [->|NJ].
      + exists a1. split; [auto|]. unfold takes in T, T1. destruct T as [(T & _)|T], T1 as [(T1 & _)|T1]; rewrite T in T1; try discriminate; injection T1 as <-; auto.
      + exists a2. split; [|reflexivity]. unfold takes in *. subst b'. cbn [set_task set_tasks set_chan set_chans b_tasks]. rewrite aget_N. apply N.eqb_neq in NJ. rewrite NJ. exact T1.
  Qed.

  Lemma exec_cons e es b b1 o1 b2 o2 : bstep e b = BOk b1 o1 -> exec es b1 = Some (b2, o2) -> exec (e :: es) b = Some (b2, o1 ++ o2).
  Proof. intros S X. cbn. rewrite S, X. reflexivity. Qed.

  Lemma drained : forall n c h b k a, (work a <= n)%nat -> brun c h b -> ending b k a -> (forall d, queue_of (a_bcast a) d <> [] -> clear_way b k a d) ->
    exists es b1 out a1, exec es b = Some (b1, out) /\ Forall (helps k) es /\ ending b1 k a1 /\ a_bcast a1 = [] /\ a_id a1 = a_id a /\ a_ident a1 = a_ident a /\
      (aget k (b_tasks b) = Some (TDrain a) -> aget k (b_tasks b1) = Some (TDrain a1)).
  Proof.
    induction n as [n IH] using lt_wf_ind. intros c h b k a LE R EN CW. destruct (a_bcast a) as [|[d l] rest] eqn:BA.
    { exists [], b, [], a. repeat split; auto. }
    assert (AG : aget d (a_bcast a) = Some l) by (rewrite BA; cbn [aget]; change (@eqb client_id _ d d) with (N.eqb d d); now rewrite N.eqb_refl).
    assert (FL : forall h b, brun c h b -> ending b k a -> (forall d, queue_of (a_bcast a) d <> [] -> clear_way b k a d) -> flush d a b <> None ->
      exists es b1 out a1, exec es b = Some (b1, out) /\ Forall (helps k) es /\ ending b1 k a1 /\ a_bcast a1 = [] /\ a_id a1 = a_id a /\ a_ident a1 = a_ident a /\
        (aget k (b_tasks b) = Some (TDrain a) -> aget k (b_tasks b1) = Some (TDrain a1))).
    { intros h0 b0 R0 EN0 CW0 F. destruct (flush d a b0) as [[a1 b1]|] eqn:FE; [|congruence].
      destruct (flush_clears _ _ _ _ _ _ _ _ R0 EN0 FE) as (b2 & S & EN2 & WK & I1 & I2 & TD & CL).
      destruct (IH (work a1) ltac:(lia) c _ b2 k a1 (le_n _) (run_cons _ _ _ _ _ _ _ _ _ R0 S) EN2) as (es & b3 & out & a3 & X & FA & EN3 & B3 & J1 & J2 & TD3).
      { intros d' Q. destruct (CL _ Q) as (Q0 & C0). auto. }
      exists (EFlush k d :: es), b3, ([] ++ out), a3. split; [eapply exec_cons; eauto|]. split; [constructor; [left; eauto|auto]|]. repeat split; auto; congruence. }
    rewrite <- BA in CW. clear BA.
    assert (GO : forall len h b, (List.length (waiting b d) <= len)%nat -> brun c h b -> ending b k a -> (forall d, queue_of (a_bcast a) d <> [] -> clear_way b k a d) ->
      exists es b1 out a1, exec es b = Some (b1, out) /\ Forall (helps k) es /\ ending b1 k a1 /\ a_bcast a1 = [] /\ a_id a1 = a_id a /\ a_ident a1 = a_ident a /\
        (aget k (b_tasks b) = Some (TDrain a) -> aget k (b_tasks b1) = Some (TDrain a1))).
    { clear b h R EN CW IH LE. induction len as [|len IL]; intros h b LW R EN CW; (destruct (flush d a b) as [x|] eqn:FE; [eapply FL; eauto; congruence|]).
      all: destruct (target_chan _ _ _ _ _ d R (ending_sess _ _ _ EN) ltac:(congruence)) as (ch & CH); unfold flush in FE; rewrite AG, CH in FE.
      all: destruct l as [|m ms]; [discriminate|]; destruct (ch_open ch) eqn:O; cbn [negb] in FE; [|discriminate]; unfold norm_room in FE.
      all: destruct (N.ltb_spec (N.of_nat (List.length (ch_norm ch))) 8) as [L|L]; [discriminate|].
      { unfold waiting in LW. rewrite CH in LW. lia. }
      destruct (CW d) as [(ch0 & C0 & O0)|[RM|(j & a' & NE & T & ID)]].
      - unfold queue_of. rewrite AG. discriminate.
      - congruence.
      - unfold waiting, queue_of, inbox in RM. rewrite CH, AG in RM. cbn [List.length] in RM. lia.
      - destruct ch as [cs [|m1 r] o]; [cbn in L; lia|]. cbn in O. subst o d.
        destruct (normal_clears _ _ _ _ _ _ _ _ _ EN NE T CH) as (b2 & o2 & S & EN2 & TD2 & CH2 & T2 & CL).
        destruct (IL (Past b (ENormal j) o2 :: h) b2) as (es & b3 & out & a3 & X & FA & EN3 & B3 & J1 & J2 & TD3); auto.
        + unfold waiting in LW |- *. rewrite CH in LW. rewrite CH2. cbn in *. lia.
        + econstructor; eauto.
        + exists (ENormal j :: es), b3, (o2 ++ out), a3. split; [eapply exec_cons; eauto|]. split; [constructor; [right; eauto|auto]|]. repeat split; auto. }
    eapply GO; eauto.
  Qed.

  (** The last step. *)
  Lemma done_step c h b k a b' out : brun c h b -> ending b k a -> bstep (EDone k) b = BOk b' out -> cleared b' k a.
  Proof.
    intros R EN S. pose proof (run_good _ _ _ _ _ _ R) as G. pose proof (i_tnd _ (proj1 G)) as ND. cbn [BrokerModel.bstep] in S. unfold do_done in S.
    assert (W : forall a, match remove_client a b with None => BPanic | Some b1 => BOk (close (a_id a) (end_task k b1)) [] end = BOk b' out -> aget k (b_tasks b') = None).
    { intros a0. destruct (remove_client a0 b) as [b1|] eqn:RM; [|discriminate]. intros H; injection H as <- <-. apply remove_tasks in RM. destruct RM as (RM & _).
      assert (CT : forall c b, b_tasks (close c b) = b_tasks b) by (intros c0 b0; unfold close; destruct (aget c0 (b_chans b0)); reflexivity).
      rewrite CT. cbn [end_task set_tasks b_tasks]. rewrite RM. apply aget_adel_eq. exact ND. }
    destruct EN as [T|(st & T)]; rewrite T in S; destruct (a_bcast a); try discriminate.
    - destruct (a_ends a); [left; eapply W; eauto|]. destruct (reg_offline _ _); [|discriminate]. right.
      destruct a as [s|s]; injection S as <- <-; eexists; (split; [cbn [set_task set_tasks add_timer set_timers set_reg b_tasks]; rewrite aget_N, N.eqb_refl; reflexivity|split; reflexivity]).
    - destruct st; [left; eapply W; eauto|]. injection S as <- <-. right. eexists. split; [cbn [set_task set_tasks b_tasks]; rewrite aget_N, N.eqb_refl; reflexivity|split; reflexivity].
  Qed.

  Lemma done_ready b k a : ending b k a -> a_bcast a = [] -> bstep (EDone k) b <> BNo.
  Proof.
    intros EN B. cbn [BrokerModel.bstep]. unfold do_done. destruct EN as [T|(st & T)]; rewrite T, B.
    - destruct (a_ends a); [destruct (remove_client _ _); discriminate|]. destruct (reg_offline _ _); [destruct a|]; discriminate.
    - destruct st; [destruct (remove_client _ _)|]; discriminate.
  Qed.
  Lemma clears c h b k a : brun c h b -> ending b k a -> (forall d, queue_of (a_bcast a) d <> [] -> clear_way b k a d) ->
    exists es b1 out, exec es b = Some (b1, out) /\ Forall (helps k) es /\
      (bstep (EDone k) b1 = BPanic \/ exists b2 o2, bstep (EDone k) b1 = BOk b2 o2 /\ cleared b2 k a).
  Proof.
    intros R EN CW. destruct (drained _ _ _ _ _ _ (le_n _) R EN CW) as (es & b1 & out & a1 & X & FA & EN1 & B1 & I1 & I2 & _). exists es, b1, out. split; [exact X|]. split; [exact FA|].
    pose proof (done_ready _ _ _ EN1 B1) as ND. destruct (bstep (EDone k) b1) as [|b2 o2|] eqn:S; [|right|]; [congruence| |left; reflexivity]. exists b2, o2. split; [reflexivity|].
    destruct (exec_go _ _ _ _ _ _ _ X) as (h1 & GO). pose proof (done_step _ _ _ _ _ _ _ (run_go _ _ _ _ _ _ _ _ R GO) EN1 S) as C. destruct C as [C|(a' & C & C1 & C2)]; [left; auto|].
    right. exists a'. split; [auto|]. split; congruence.
  Qed.

  Lemma exec_past es : forall b b' out, exec es b = Some (b', out) -> exists h, bgo b h b' /\ forall p, In p h -> In (w_e p) es.
  Proof.
    induction es as [|e es IH]; cbn; intros b b' out E; [injection E as <- _; exists []; split; [constructor|intros p []]|].
    destruct (bstep e b) as [|b1 o1|] eqn:S; try discriminate. destruct (exec es b1) as [[b2 o2]|] eqn:E1; [|discriminate]. injection E as <- _.
    destruct (IH _ _ _ E1) as (h & G & W). exists (h ++ [Past b e o1])%list. split; [eapply go_trans; eauto; apply (go_cons _ _ _ b [] b e b1 o1); [constructor|auto]|].
    intros p IN. apply in_app_or in IN. destruct IN as [IN|[<-|[]]]; auto.
  Qed.
  Lemma clears_plain c h b k a : cf_max_qos c <= 2 -> brun c h b -> all_plain c h ->
    (forall p, In p h -> proper p) -> (forall k w, In w (asked_will k h) -> valid_topic_name (aw_topic w)) ->
    ending b k a -> (forall d, queue_of (a_bcast a) d <> [] -> clear_way b k a d) ->
    exists es b1 out b2 o2, exec es b = Some (b1, out) /\ Forall (helps k) es /\ bstep (EDone k) b1 = BOk b2 o2 /\ cleared b2 k a.
  Proof.
    intros Q R AP P W EN CW. destruct (clears _ _ _ _ _ R EN CW) as (es & b1 & out & X & FA & D). exists es, b1, out.
    destruct D as [D|(b2 & o2 & D & C)]; [exfalso|exists b2, o2; auto].
    destruct (exec_past _ _ _ _ X) as (h1 & GO & EV). pose proof (run_go _ _ _ _ _ _ _ _ R GO) as R1. rewrite Forall_forall in FA.
    assert (HE : forall p, In p h1 -> helps k (w_e p)) by auto.
    eapply (broker_no_panic hash5 hash3 pick c (h1 ++ h) b1 (EDone k) Q R1); [| | |cbn; exact Logic.I|exact D].
    - intros p IN. apply in_app_or in IN. destruct IN as [IN|IN]; [|auto]. apply HE in IN. unfold proper. destruct IN as [(d & ->)|(j & _ & ->)]; exact Logic.I.
    - intros p IN. apply in_app_or in IN. destruct IN as [IN|IN]; [|apply AP; exact IN]. apply HE in IN. unfold shared_asked. destruct IN as [(d & ->)|(j & _ & ->)]; destruct (cf_shared c); constructor.
    - intros k0 w IN. apply (W k0). unfold asked_will in *. rewrite flat_map_app in IN. apply in_app_or in IN. destruct IN as [IN|IN]; [|exact IN]. exfalso.
      apply in_flat_map in IN. destruct IN as (p & IP & IN). apply HE in IP. unfold connect_will in IN. destruct IP as [(d & E)|(j & _ & E)]; rewrite E in IN; destruct (_ =? _); contradiction.
  Qed.

  Lemma circle_locked c h b ks h' b' k a : brun c h b -> circle b ks -> In k ks -> aget k (b_tasks b) = Some (TDrain a) -> bgo b h' b' ->
    (exists a', aget k (b_tasks b') = Some (TDrain a') /\ a_ident a' = a_ident a) /\
    forall j a', (aget j (b_tasks b') = Some (TReady a') \/ aget j (b_tasks b') = Some (TOnline a')) -> a_ident a' <> a_ident a.
  Proof.
    intros R C IN T GO. destruct (circle_forever _ _ _ _ _ _ R C GO) as (_ & K). destruct (K k a IN (or_introl T)) as (a' & _ & _ & ID & T').
    specialize (T' T). split; [eauto|]. intros j a2 T2 E. pose proof (run_good _ _ _ _ _ _ (run_go _ _ _ _ _ _ _ _ R GO)) as G.
    assert (j = k); [|subst; destruct T2; congruence].
    destruct T2 as [T2|T2]; (eapply (one_session b' j k _ _ a2 a' (proj1 G) T2 T'); [reflexivity|reflexivity|discriminate|discriminate|congruence]).
  Qed.
End Drain.
