(** Acknowledgements in runs of the whole broker (C13). *)
From Coq Require Import List Bool NArith String Lia.
From Verif Require Import Base BaseLemmas TopicModel MsgModel PendingModel PendingProofs OutModel RouteModel RouteSpec RetainModel GlobModel Sess5Model Sess3Model ConnModel RegModel BrokerModel
  OutSpec OutProofs OutLemmas OutInv OutFacts OrderSpec OrderProofs OrderLast InSpec RecvSpec LinkSpec LinkProofs LinkProofs3 LinkFacts BrokerSpec RunProofs LifeSpec LifeProofs LifeFacts BrokerInv AckSpec.
Import ListNotations.
Local Open Scope N_scope.
Local Open Scope list_scope.

Lemma part_refl {A} (l : list A) : part_of l l.
Proof. induction l; constructor; auto. Qed.

Section Gen.
  Context {M W : Type}.
  Variable wpid : W -> option pid.
  Variable wdup : W -> bool.
  Variable carries : N -> N -> M -> W -> Prop.
  Variable lifetime : M -> option N.
  Variable mok : M -> Prop.
  Notation st := (pstatus M).
  Notation oev := (oev M W).
  Notation scanned := (OrderProofs.scanned wpid wdup carries lifetime).
  Notation Inv := (OutProofs.Inv wpid wdup carries lifetime mok).
  Notation dead := (dead lifetime).

  Lemma unf_unfs (q : pendq M) : unfinished q = unfs (pq q).
  Proof. reflexivity. Qed.
  Lemma ack_unf k t p (q : pendq M) : let q' := fst (ack_queue k t p q) in
    (snd (ack_queue k t p q) = true -> acknowledged k p (unfinished q) (unfinished q')) /\ (snd (ack_queue k t p q) = false -> q' = q).
  Proof.
    cbn zeta. destruct (ack_first k t p q) as [(a & x & b & x' & E & B & Hk & Eq)|Eq]; rewrite Eq; cbn [fst snd]; split; try discriminate; auto.
    intros _. rewrite !unf_unfs. cbn [pq pq_set]. rewrite E, !unfs_app. exists (unfs a), (unfs b). destruct k.
    - destruct Hk as ((ad & l & m & d & ->) & ->). exists ad, m. split; reflexivity.
    - destruct Hk as ((ad & l & m & d & ->) & ->). exists ad, m. split; reflexivity.
    - destruct Hk as ((l & ->) & ->). split; reflexivity.
  Qed.
  Lemma unfs_heldl (l : list st) : map fst (unfs l) = heldl l.
  Proof. induction l as [|[] l IH]; cbn; f_equal; auto. Qed.
  Lemma unfs_in (l : list st) p y : In (p, y) (unfs l) -> exists s, In s l /\ status_pid s = Some p /\ match y with Some (t, m) => exists la d, s = PNew t la p m d | None => exists la, s = PRec la p end.
  Proof.
    unfold unfs. rewrite in_flat_map. intros (s & Hs & Hi). exists s. split; auto. destruct s; cbn in Hi; try contradiction; destruct Hi as [E|[]]; inversion E; subst; split; eauto.
  Qed.
  (** What is in flight is acknowledged. *)
  Lemma ack_taken q log k now p : Inv q log -> In p (outstanding wpid log) -> awaits k p (unfinished q) -> snd (ack_queue k now p q) = true.
  Proof.
    intros HI Hp Hk. destruct (i_out _ _ _ _ _ _ _ HI p Hp) as (s & Hs & Ep & L). pose proof (i_nd _ _ _ _ _ _ _ HI) as ND.
    assert (SAME : forall s', In s' (pq q) -> status_pid s' = Some p -> s' = s).
    { clear - ND Hs Ep. revert ND Hs. generalize (pq q). induction l as [|x l IH]; intros ND Hs s' Hs' E'; [destruct Hs|].
      rewrite heldl_cons in ND. assert (NI : forall y, In y l -> status_pid y = Some p -> status_pid x <> Some p).
      { intros y Hy Ey Ex. rewrite Ex in ND. cbn in ND. inversion ND; subst. apply H1. apply in_heldl. eauto. }
      assert (ND' : NoDup (heldl l)) by (destruct (status_pid x); cbn in ND; [inversion ND|]; auto).
      destruct Hs as [->|Hs], Hs' as [->|Hs']; auto; exfalso; eapply NI; eauto. }
    apply In_nth_error in Hs as [i Hi].
    destruct (ack_queue_spec k now p q) as [(a & x & b & x' & _ & _ & _ & _ & Eq)|[Hn Eq]]; rewrite Eq; [reflexivity|].
    exfalso. assert (Hw : (i < current_inflight q)%nat).
    { unfold current_inflight. assert (i < List.length (pq q))%nat by (apply nth_error_Some; congruence).
      destruct (N.le_gt_cases (pq_inflight q) (N.of_nat i)) as [H'|H']; [|lia].
      contradiction (L (i_win _ _ _ _ _ _ _ HI i s Hi H')). }
    specialize (Hn i s Hw Hi). rewrite unf_unfs in Hk. destruct k; cbn in Hk.
    - destruct Hk as (t & m & Hk). apply unfs_in in Hk. destruct Hk as (s' & Hs' & E' & la & d & ->). specialize (SAME _ Hs' E'). subst s. cbn in Hn. rewrite N.eqb_refl in Hn. discriminate.
    - destruct Hk as (t & m & Hk). apply unfs_in in Hk. destruct Hk as (s' & Hs' & E' & la & d & ->). specialize (SAME _ Hs' E'). subst s. cbn in Hn. rewrite N.eqb_refl in Hn. discriminate.
    - apply unfs_in in Hk. destruct Hk as (s' & Hs' & E' & la & ->). specialize (SAME _ Hs' E'). subst s. cbn in Hn. rewrite N.eqb_refl in Hn. discriminate.
  Qed.

  Lemma fin_part (l1 : list st) : forall l2, Forall2 fin l1 l2 -> part_of (unfs l2) (unfs l1).
  Proof.
    induction l1 as [|s l1 IH]; intros l2 H; inversion H; subst; [constructor|]. specialize (IH _ H4).
    destruct H2 as [->|((ad & l & p & x & d & ->) & ->)].
    - destruct s; cbn; try (constructor; exact IH). exact IH.
    - cbn. constructor. exact IH.
  Qed.
  Lemma scanned_alive now timeout n l l' o e : scanned now timeout n l l' o e -> (forall y, In y (unfs l) -> dead now y = false) -> e = [].
  Proof.
    induction 1 as [l|n|n s r r' o e Hd F IH|n ad p x d r r' o e Hd He F IH|n ad l p x d w r r' o e Hd He H1 H2 H3 F IH|n l p r r' o e Hd F IH]; intros HL; auto.
    - apply IH. intros y Hy. apply HL. change (s :: r) with ([s] ++ r). rewrite unfs_app, in_app_iff. now right.
    - exfalso. destruct He as (v & E & Hv). specialize (HL (p, Some (ad, x)) (or_introl eq_refl)). unfold OrderSpec.dead in HL. cbn in HL. rewrite E in HL. apply N.leb_gt in HL. lia.
    - apply IH. intros y Hy. apply HL. now right.
    - apply IH. intros y Hy. apply HL. now right.
  Qed.
  Lemma scanned_dead now timeout n l l' o e : scanned now timeout n l l' o e -> forall p, In p e -> exists y, In (p, y) (unfs l) /\ dead now (p, y) = true.
  Proof.
    induction 1 as [l|n|n s r r' o e Hd F IH|n ad p x d r r' o e Hd He F IH|n ad l p x d w r r' o e Hd He H1 H2 H3 F IH|n l p r r' o e Hd F IH]; intros p0 Hp; try destruct Hp; subst.
    - destruct (IH _ Hp) as (y & Hy & D). exists y. split; auto. change (s :: r) with ([s] ++ r). rewrite unfs_app, in_app_iff. now right.
    - exists (Some (ad, x)). split; [now left|]. destruct He as (v & E & Hv). unfold OrderSpec.dead. cbn. rewrite E. apply N.leb_le. lia.
    - destruct (IH _ H) as (y & Hy & D). exists y. split; auto. now right.
    - destruct (IH _ Hp) as (y & Hy & D). exists y. split; auto. now right.
    - destruct (IH _ Hp) as (y & Hy & D). exists y. split; auto. now right.
  Qed.

  Lemma part_in {A} (a b : list A) x : part_of a b -> In x a -> In x b.
  Proof. induction 1; cbn; intuition. Qed.
  Lemma fst_once (l : list (pid * option (N * M))) p y y' : NoDup (map fst l) -> In (p, y) l -> In (p, y') l -> y = y'.
  Proof.
    induction l as [|[q z] l IH]; cbn; intros ND H H'; [destruct H|]. inversion ND; subst.
    destruct H as [E|H], H' as [E'|H']; auto; try congruence; exfalso; apply H2; apply in_map_iff; [exists (p, y')|exists (p, y)]; split; auto; cbn; congruence.
  Qed.
  (** Writing what is due takes away nothing but what has expired. *)
  Lemma flush_unf {A} (body : st -> A -> st * A * list (sent W) * list pid) now q a :
    good_body wpid wdup carries lifetime mok now body -> Forall (entry_ok mok) (pq q) ->
    exists q1 a' o e, pend_loop body (S (List.length (pq (clean_complete q)))) now 0 (clean_complete q) a [] [] = Some (q1, a', o, e) /\
      part_of (unfinished (after_loop e q1)) (unfinished q) /\
      ((forall y, In y (unfinished q) -> dead now y = false) -> unfinished (after_loop e q1) = unfinished q) /\
      (NoDup (map fst (unfinished q)) -> forall y, In y (unfinished q) -> In y (unfinished (after_loop e q1)) \/ dead now y = true) /\
      ((forall s a, snd (body s a) = []) -> e = []).
  Proof.
    intros G OK. destruct (loop_wstep wpid wdup carries lifetime mok body now q a G OK) as (q1 & a' & o & e & l1 & EL & -> & _ & SC & HE).
    exists (pq_set q l1), a', o, e. split; [exact EL|].
    assert (U1 : unfs l1 = unfinished q). { rewrite unf_unfs. rewrite <- (unfs_drop_done (pq q)). eapply unfs_scanned. exact SC. }
    pose proof (completes_fin e (pq_set q l1)) as CF. cbn [pq pq_set] in CF.
    assert (UL : unfinished (after_loop e (pq_set q l1)) = unfs (pq (fold_left (fun q p => fst (pend_complete p L1 q)) e (pq_set q l1)))).
    { rewrite unf_unfs. unfold after_loop. destruct (is_nil e); [reflexivity|]. cbn [pq clean_complete pq_set]. apply unfs_drop_done. }
    assert (PO : part_of (unfinished (after_loop e (pq_set q l1))) (unfinished q)) by (rewrite UL, <- U1; apply fin_part; exact CF).
    split; [exact PO|]. split; [|split; [|exact HE]].
    - intros AL. assert (e = []) as ->. { eapply scanned_alive; [exact SC|]. intros y Hy. rewrite unfs_drop_done in Hy. apply AL. exact Hy. }
      rewrite UL. exact U1.
    - intros ND [p v] Hy. destruct (in_dec N.eq_dec p e) as [IE|NE].
      + right. destruct (scanned_dead _ _ _ _ _ _ _ SC p IE) as (v' & Hv & D). rewrite unfs_drop_done in Hv. rewrite (fst_once _ _ _ _ ND Hy Hv). exact D.
      + left. assert (HH : In p (heldl (pq (after_loop e (pq_set q l1))))).
        { rewrite <- held_heldl. assert (K : In p (OutSpec.held (fold_left (fun q p => fst (pend_complete p L1 q)) e (pq_set q l1)))).
          - apply completes_held; [|exact NE]. rewrite held_heldl. cbn [pq pq_set]. rewrite (scanned_held _ _ _ _ _ _ _ _ _ _ _ SC), heldl_drop_done. rewrite <- unfs_heldl. apply in_map_iff. exists (p, v). auto.
          - unfold after_loop. destruct (is_nil e); [exact K|now rewrite held_drop]. }
        rewrite <- unfs_heldl in HH. apply in_map_iff in HH. destruct HH as ([p' v'] & E & Hv). cbn in E. subst p'.
        rewrite unf_unfs. rewrite (fst_once _ _ _ _ ND Hy (part_in _ _ _ PO Hv)). exact Hv.
  Qed.
  Lemma ack_pids k p (u u' : list (pid * option (N * M))) : acknowledged k p u u' -> NoDup (map fst u) -> NoDup (map fst u').
  Proof.
    intros (a & b & H) ND. destruct k.
    - destruct H as (t & m & -> & ->). rewrite map_app in *. cbn in ND. eapply NoDup_remove_1. exact ND.
    - destruct H as (t & m & -> & ->). rewrite map_app in *. exact ND.
    - destruct H as (-> & ->). rewrite map_app in *. cbn in ND. eapply NoDup_remove_1. exact ND.
  Qed.
  Lemma ack_entry_ok k t p (q : pendq M) : Forall (entry_ok mok) (pq q) -> Forall (entry_ok mok) (pq (fst (ack_queue k t p q))).
  Proof.
    intros OK. destruct (ack_first k t p q) as [(a & x & b & x' & E & B & Hk & Eq)|Eq]; rewrite Eq; cbn [fst pq pq_set]; auto.
    rewrite E in OK. apply Forall_app in OK. destruct OK as (A1 & A2). inversion A2; subst. apply Forall_app. split; auto. constructor; auto.
    destruct k; destruct Hk as (_ & ->); exact Logic.I.
  Qed.
End Gen.

Section Broker.
  Variables (hash5 : wpub5 -> N) (hash3 : wpub3 -> N) (pick : draw -> broker -> string -> string -> N).
  Notation bstep := (bstep hash5 hash3 pick).
  Notation brun := (brun hash5 hash3 pick).

  Lemma flush5 now o : Forall (entry_ok mok5) (pq (o5_q o)) -> let o' := fst (handle_pendings5 now o) in
    part_of (unfinished (o5_q o')) (unfinished (o5_q o)) /\
    ((forall y, In y (unfinished (o5_q o)) -> dead lifetime5 now y = false) -> unfinished (o5_q o') = unfinished (o5_q o)) /\
    (NoDup (map fst (unfinished (o5_q o))) -> forall y, In y (unfinished (o5_q o)) -> In y (unfinished (o5_q o')) \/ dead lifetime5 now y = true).
  Proof.
    intros OK. cbn zeta. unfold handle_pendings5.
    destruct (flush_unf wpid5 w5_dup carries5 lifetime5 mok5 (pendings_body5 now (o5_amax o)) now (o5_q o) (o5_al o) (good_body5 _ _) OK) as (q1 & a' & outs & e & EL & P1 & P2 & P3 & _).
    rewrite EL. cbn [fst o5_q]. exact (conj P1 (conj P2 P3)).
  Qed.
  Lemma flush3 now o : Forall (entry_ok mok3) (pq (o3_q o)) -> unfinished (o3_q (fst (handle_pendings3 now o))) = unfinished (o3_q o).
  Proof.
    intros OK. unfold handle_pendings3.
    destruct (flush_unf wpid3 w3_dup carries3 lifetime3 mok3 (pendings_body3 now) now (o3_q o) tt (good_body3 _) OK) as (q1 & a' & outs & e & EL & _ & P2 & _ & HE).
    rewrite EL. cbn [fst o3_q]. rewrite (HE (body3_exp now)) in P2. apply P2. intros (p & v) _. destruct v as [[t m]|]; reflexivity.
  Qed.

  Lemma pkt_ack5 pk now len x s g cfg k p : g_cfg g = cfg -> is_disconnected5 s = false -> ack5 cfg len x = Some (k, p) ->
    exists out, packet_step5 hash5 pk now len x s g = Go (with_out (fst (handle_pendings5 now (fst (out5_on_queue (ack_queue k now p) (s_out s))))) (with_last now (with_out (fst (out5_on_queue (ack_queue k now p) (s_out s))) s))) g out.
  Proof.
    intros <- D A. unfold ack5 in A. unfold packet_step5, handle_packet5. destruct (_ <? _); [discriminate|].
    assert (X : forall o out, exists out', (let '(s2, out0) := after_packet5 now (with_out o s) in Go s2 g (out ++ out0)) = Go (with_out (fst (handle_pendings5 now o)) (with_last now (with_out o s))) g out').
    { intros o out. unfold after_packet5. replace (is_disconnected5 (with_out o s)) with (is_disconnected5 s) by reflexivity. rewrite D. unfold pendings5. cbn [s_out with_last with_out].
      destruct (handle_pendings5 now o) as (o', l). cbn [fst]. eauto. }
    destruct x; try discriminate; injection A as <- <-; cbn [ack_queue].
    - apply X.
    - unfold handle_pubrec5. destruct (out5_on_queue _ _) as (o, ok). cbn [fst]. apply X.
    - apply X.
  Qed.
  Lemma pkt_ack3 now len x s g cfg k p : g_cfg g = cfg -> ack3 cfg len x = Some (k, p) ->
    exists out, packet_step3 hash3 now len x s g = Go3 (zwith_out (fst (handle_pendings3 now (fst (out3_on_queue (ack_queue k now p) (z_out s))))) (zwith_last now (zwith_out (fst (out3_on_queue (ack_queue k now p) (z_out s))) s))) g out.
  Proof.
    intros <- A. unfold ack3 in A. unfold packet_step3, handle_packet3. destruct (_ <? _); [discriminate|].
    assert (X : forall o out, exists out', (let '(s2, out0) := after_packet3 now (zwith_out o s) in Go3 s2 g (out ++ out0)) = Go3 (zwith_out (fst (handle_pendings3 now o)) (zwith_last now (zwith_out o s))) g out').
    { intros o out. unfold after_packet3, pendings3. cbn [z_out zwith_last zwith_out].
      destruct (handle_pendings3 now o) as (o', l). cbn [fst]. eauto. }
    destruct x; try discriminate; injection A as <- <-; cbn [ack_queue].
    - apply X.
    - unfold handle_pubrec3. apply X.
    - apply X.
  Qed.
  Lemma sess_other b t b' k : b_tasks b' = aset k t (b_tasks b) -> forall j, j <> k -> sess_at b' j = sess_at b j.
  Proof. intros E j NE. unfold sess_at. rewrite E, aget_N. destruct (N.eqb_spec j k); [contradiction|reflexivity]. Qed.
  Lemma sess_same b t b' k : b_tasks b' = aset k t (b_tasks b) -> sess_at b' k = t_sess t.
  Proof. intros E. unfold sess_at. rewrite E, aget_N, N.eqb_refl. reflexivity. Qed.

  Lemma ack5_lemma c h b k s len x a p b' out : brun c h b -> (forall q, In q h -> proper q) -> (forall q, In q h -> after_1970 q) -> sess_at b k = Some (A5 s) ->
    ack5 c len x = Some (a, p) -> bstep (EPacket5 k len x) b = BOk b' out ->
    (forall j, j <> k -> sess_at b' j = sess_at b j) /\
    exists s' u, sess_at b' k = Some (A5 s') /\
      let old := unfinished (o5_q (s_out s)) in let new := unfinished (o5_q (s_out s')) in
      (acknowledged a p old u \/ u = old) /\ part_of new u /\ ((forall y, In y u -> dead lifetime5 (seconds b) y = false) -> new = u) /\
      exists l log, life5 k h l /\ logs5 c l log /\ (few_enough c log ->
        (In p (unacked5 c k h) -> awaits a p old -> acknowledged a p old u) /\
        (forall y, In y u -> In y new \/ dead lifetime5 (seconds b) y = true)).
  Proof.
    intros R P T A AK S. destruct (life5_lemma hash5 hash3 pick c h b k s R P A) as (l & L & SR). destruct (run_glob _ _ _ _ _ _ R) as (GC & WG).
    destruct (run_linked _ _ _ _ SR (life5_clocked _ _ _ L T)) as (rm & amax & ops & log & F & RN & LG & _).
    cbn [BrokerModel.bstep] in S. unfold do_packet5 in S. unfold sess_at in A. destruct (aget k (b_tasks b)) as [t|] eqn:AT; [|discriminate].
    destruct t; try discriminate. match goal with X : sess |- _ => destruct X as [s0|s0]; [|discriminate] end. cbn in A. injection A as ->. destruct (is_disconnected5 s) eqn:D; [discriminate|].
    destruct (pkt_ack5 (pick (DPacket k x) b) (seconds b) len x s (glob_of b) c a p) as (o & E); auto.
    rewrite E in S. clear E.
    set (o1 := fst (out5_on_queue (ack_queue a (seconds b) p) (s_out s))) in *. set (s' := with_out _ _) in S.
    assert (BT : b_tasks b' = aset k (TOnline (A5 s')) (b_tasks b)) by (destruct (is_disconnected5 s'); injection S as <- _; reflexivity).
    split; [exact (sess_other _ _ _ _ BT)|]. exists s', (unfinished (o5_q o1)). split; [rewrite (sess_same _ _ _ _ BT); reflexivity|]. cbn zeta.
    assert (QE : o5_q o1 = fst (ack_queue a (seconds b) p (o5_q (s_out s)))) by (unfold o1, out5_on_queue; destruct (ack_queue _ _ _ _); reflexivity).
    destruct (ack_unf a (seconds b) p (o5_q (s_out s))) as (Y & NO). rewrite <- QE in Y, NO.
    pose proof (run5_wrun _ _ _ _ _ _ _ F RN) as WR. pose proof (proj1 (a_ord _ _ _ _ _ _ _ (wrun_all _ _ _ _ _ _ _ _ _ _ WR))) as OK.
    assert (OK1 : Forall (entry_ok mok5) (pq (o5_q o1))) by (rewrite QE; apply ack_entry_ok; exact OK).
    destruct (flush5 (seconds b) o1 OK1) as (F1 & F2 & F3). cbn zeta in *. change (s_out s') with (fst (handle_pendings5 (seconds b) o1)).
    assert (AC : acknowledged a p (unfinished (o5_q (s_out s))) (unfinished (o5_q o1)) \/ unfinished (o5_q o1) = unfinished (o5_q (s_out s))).
    { destruct (snd (ack_queue a (seconds b) p (o5_q (s_out s)))); [left; auto|right; rewrite NO; auto]. }
    split; [exact AC|]. split; [exact F1|]. split; [exact F2|]. exists l, log. split; auto. split; auto. intros FE.
    pose proof (few_no_reuse5 c rm amax ops F) as NR. rewrite RN in NR. cbn [fst snd] in NR. specialize (NR FE).
    pose proof (run5_inv rm (cf_max_pending c) (cf_inflight_timeout c) amax ops F) as IV. rewrite RN in IV. cbn [fst snd] in IV. specialize (IV NR). split.
    - intros IP AW. apply Y. eapply ack_taken; [exact IV| |exact AW]. rewrite (inflight5_log _ _ _ LG). rewrite (life5_inflight _ _ _ _ _ _ _ _ R L). exact IP.
    - apply F3. assert (ND : NoDup (map fst (unfinished (o5_q (s_out s))))) by (rewrite unf_unfs, unfs_heldl; exact (i_nd _ _ _ _ _ _ _ IV)).
      destruct AC as [AC|AC]; [exact (ack_pids _ _ _ _ AC ND)|rewrite AC; exact ND].
  Qed.
  Lemma ack3_lemma c h b k s len x a p b' out : brun c h b -> (forall q, In q h -> proper q) -> (forall q, In q h -> after_1970 q) -> sess_at b k = Some (A3 s) ->
    ack3 c len x = Some (a, p) -> bstep (EPacket3 k len x) b = BOk b' out ->
    (forall j, j <> k -> sess_at b' j = sess_at b j) /\
    exists s', sess_at b' k = Some (A3 s') /\
      let old := unfinished (o3_q (z_out s)) in let new := unfinished (o3_q (z_out s')) in
      (acknowledged a p old new \/ new = old) /\
      exists l log, life3 k h l /\ logs3 c l log /\ (few_enough c log -> In p (unacked3 c k h) -> awaits a p old -> acknowledged a p old new).
  Proof.
    intros R P T A AK S. destruct (life3_lemma hash5 hash3 pick c h b k s R P A) as (l & L & SR). destruct (run_glob _ _ _ _ _ _ R) as (GC & WG).
    destruct (run_linked3 _ _ _ _ SR (life3_clocked _ _ _ L T)) as (ops & log & F & RN & LG).
    cbn [BrokerModel.bstep] in S. unfold do_packet3 in S. unfold sess_at in A. destruct (aget k (b_tasks b)) as [t|] eqn:AT; [|discriminate].
    destruct t; try discriminate. match goal with X : sess |- _ => destruct X as [s0|s0]; [discriminate|] end. cbn in A. injection A as ->. destruct (z_disc s) eqn:D; [discriminate|].
    destruct (pkt_ack3 (seconds b) len x s (glob_of b) c a p) as (o & E); auto.
    rewrite E in S. clear E.
    set (o1 := fst (out3_on_queue (ack_queue a (seconds b) p) (z_out s))) in *. set (s' := zwith_out _ _) in S.
    assert (BT : b_tasks b' = aset k (TOnline (A3 s')) (b_tasks b)) by (injection S as <- _; reflexivity).
    split; [exact (sess_other _ _ _ _ BT)|]. exists s'. split; [rewrite (sess_same _ _ _ _ BT); reflexivity|]. cbn zeta.
    assert (QE : o3_q o1 = fst (ack_queue a (seconds b) p (o3_q (z_out s)))) by (unfold o1, out3_on_queue; destruct (ack_queue _ _ _ _); reflexivity).
    destruct (ack_unf a (seconds b) p (o3_q (z_out s))) as (Y & NO). rewrite <- QE in Y, NO.
    pose proof (run3_wrun _ _ _ _ _ _ F RN) as WR. pose proof (proj1 (a_ord _ _ _ _ _ _ _ (wrun_all _ _ _ _ _ _ _ _ _ _ WR))) as OK.
    assert (OK1 : Forall (entry_ok mok3) (pq (o3_q o1))) by (rewrite QE; apply ack_entry_ok; exact OK).
    change (z_out s') with (fst (handle_pendings3 (seconds b) o1)). rewrite (flush3 (seconds b) o1 OK1).
    split.
    { destruct (snd (ack_queue a (seconds b) p (o3_q (z_out s)))); [left; auto|right; rewrite NO; auto]. }
    exists l, log. split; auto. split; auto. intros FE.
    pose proof (few_no_reuse3 c (cf_inflight_client c) ops F) as NR. rewrite RN in NR. cbn [fst snd] in NR. specialize (NR FE).
    pose proof (run3_inv (cf_inflight_client c) (cf_max_pending c) (cf_inflight_timeout c) ops F) as IV. rewrite RN in IV. cbn [fst snd] in IV. specialize (IV NR).
    intros IP AW. apply Y. eapply ack_taken; [exact IV| |exact AW]. apply (proj2 (inflight3_log _ _ _ LG)). rewrite (life3_inflight _ _ _ _ _ _ _ _ R L). exact IP.
  Qed.
End Broker.
