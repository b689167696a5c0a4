(** Proofs about the event loop. *)
From Coq Require Import List Bool Arith NArith Lia.
From Coq Require Import ZifyBool ZifyNat ZifyN.
From Verif Require Import Base BaseLemmas OnlineModel OnlineSpec.
Import ListNotations.
Local Open Scope N_scope.

Section Proofs.
  Context {P Msg In Err Ctl Act Req Ans S G : Type}.
  Notation iface := (iface P Msg In Err Ctl Act Req Ans S G).
  Notation ev := (ev P Msg Req).
  Notation lst := (lst P Msg Req S).
  Notation env := (env Msg In Err Ctl Ans).
  Notation ph := (ph P Msg Req S G).
  Variable i : iface.

  (** ** Traces *)
  Lemma queued_app (a b : list ev) : queued (a ++ b) = queued a ++ queued b.
  Proof. apply flat_map_app. Qed.
  Lemma written_app (a b : list ev) : written (a ++ b) = written a ++ written b.
  Proof. apply flat_map_app. Qed.
  Lemma asked_for_app d (a b : list ev) : asked_for d (a ++ b) = asked_for d a ++ asked_for d b.
  Proof. apply flat_map_app. Qed.
  Lemma delivered_app d (a b : list ev) : delivered_to d (a ++ b) = delivered_to d a ++ delivered_to d b.
  Proof. apply flat_map_app. Qed.

  Lemma queued_queued (ps : list P) : queued (map Queued ps : list ev) = ps.
  Proof. induction ps as [|p ps IH]; [reflexivity|]. cbn. f_equal. exact IH. Qed.
  Lemma written_queued (ps : list P) : written (map Queued ps : list ev) = [].
  Proof. induction ps as [|p ps IH]; [reflexivity|exact IH]. Qed.
  Lemma asked_queued d (ps : list P) : asked_for d (map Queued ps : list ev) = [].
  Proof. induction ps as [|p ps IH]; [reflexivity|exact IH]. Qed.

  (** Events of [asked]. *)
  Definition only_asked (t : list ev) : Prop := Forall (fun x => match x with Asked _ _ => True | _ => False end) t.
  Lemma asked_only s s' : only_asked (asked i s s').
  Proof.
    apply Forall_forall. intros x Hx. unfold asked in Hx. apply in_flat_map in Hx as (y & _ & Hx).
    apply in_map_iff in Hx as (m & <- & _). exact I.
  Qed.
  Lemma only_asked_queued t : only_asked t -> queued t = [].
  Proof. induction 1 as [|[] t]; try contradiction; auto. Qed.
  Lemma only_asked_written t : only_asked t -> written t = [].
  Proof. induction 1 as [|[] t]; try contradiction; auto. Qed.
  Lemma asked_noq s s' : queued (asked i s s') = [].
  Proof. apply only_asked_queued, asked_only. Qed.
  Lemma asked_now s s' : written (asked i s s') = [].
  Proof. apply only_asked_written, asked_only. Qed.

  (** ** C35: the byte stream *)

  Definition preW (l : lst) (x : ph) : Prop :=
    let '(l', _, t, _) := x in l_wp l' = l_wp l ++ map Pkt (queued t) /\ written t = [].

  Lemma preW_next l x k : preW l x -> (forall l' g', preW l' (k l' g')) -> preW l (next x k).
  Proof.
    destruct x as (((l1, g1), t1), [r|]); intros (H1 & H2) K; [split; assumption|]. cbn [next].
    specialize (K l1 g1). destruct (k l1 g1) as (((l2, g2), t2), r2). destruct K as (K1 & K2).
    cbn [preW]. rewrite K1, H1, queued_app, written_app, H2, K2, map_app, app_assoc. auto.
  Qed.
  Lemma preW_id l l' g r (t : list ev) : l_wp l' = l_wp l -> queued t = [] -> written t = [] -> preW l (l', g, t, r).
  Proof. intros H1 H2 H3. cbn. rewrite H1, H2, H3. cbn. rewrite app_nil_r. auto. Qed.
  Lemma preW_push l s' g out (t : list ev) r : queued t = out -> written t = [] -> preW l (push out (set_s s' l), g, t, r).
  Proof. intros H1 H2. cbn. rewrite H1, H2. auto. Qed.

  Ltac tr := rewrite ?queued_app, ?written_app, ?asked_noq, ?asked_now, ?queued_queued, ?written_queued; auto.

  Lemma actions_preW now acts : forall l g, preW l (actions i now l g acts).
  Proof.
    induction acts as [|a r IH]; intros l g; cbn [actions]; [apply preW_id; auto|].
    destruct (i_action i now a (l_s l) g) as [s' g' out u|s' g' out|]; [|apply preW_push; tr|apply preW_id; auto].
    apply preW_next; [apply preW_push; tr|apply IH].
  Qed.
  Lemma after_preW now l g : preW l (after i now l g).
  Proof. unfold after. destruct (i_after i now (l_s l)) as (s', out). apply preW_push; tr. Qed.
  Lemma hook_done_preW now r a l g : preW l (hook_done i now r a l g).
  Proof.
    unfold hook_done. destruct (i_hook i now r a (l_s l) g) as [s' g' out acts|s' g' out|]; [|apply preW_push; tr|apply preW_id; auto].
    apply preW_next; [apply preW_push; tr|]. intros. apply preW_next; [apply actions_preW|]. intros. apply after_preW.
  Qed.
  Lemma preW_from l l0 x : preW l0 x -> l_wp l0 = l_wp l -> preW l x.
  Proof. destruct x as (((l1, g1), t1), r1). intros (H1 & H2) E. split; congruence. Qed.
  Lemma hook_preW e l g : preW l (hook_phase i e l g).
  Proof.
    unfold hook_phase. destruct (l_hook l) as [r|]; [|apply preW_id; auto].
    destruct (e_hook e); [apply preW_id; auto|apply preW_id; auto|].
    eapply preW_from; [apply hook_done_preW|reflexivity].
  Qed.
  Lemma take_preW e l g : preW l (take_phase i e l g).
  Proof.
    unfold take_phase. destruct (l_take l) as [[]|]; [| |apply preW_id; auto].
    - destruct (e_tflush e) as [[]|]; apply preW_id; auto.
    - destruct (e_ready e) as [[]|]; [|apply preW_id; auto|apply preW_id; auto].
      destruct (e_start e); [|apply preW_id; auto]. destruct (e_tflush e) as [[]|]; apply preW_id; auto.
  Qed.
  Lemma preW_took l x : preW l x -> preW l (took x).
  Proof. destruct x as (((l', g'), t), r). cbn. auto. Qed.
  Lemma read_preW now rs : forall l g, preW l (read_phase i now rs l g).
  Proof.
    induction rs as [|x rs IH]; intros l g; cbn [read_phase];
      (destruct (i_disc i (l_s l)) as [w|]; [apply preW_id; auto|]);
      (destruct (_ || _); [apply preW_id; auto|]); [apply preW_id; auto|].
    destruct x as [x h|e]; apply preW_took.
    - destruct (i_packet i now x (l_s (set_ru false l)) g) as [s' g' out req|s' g' out|];
      [|eapply preW_from; [apply (preW_push (set_ru false l)); tr|reflexivity]|apply preW_id; auto].
      apply preW_next; [eapply preW_from; [apply (preW_push (set_ru false l)); tr|reflexivity]|].
      intros l1 g1. apply preW_next; [|apply IH].
      destruct req as [r|]; [|apply after_preW]. destruct h; [apply preW_id; auto|apply preW_id; auto|].
      apply preW_next; [apply preW_id; auto|]. intros. apply hook_done_preW.
    - destruct (i_decode_error i e (l_s (set_ru false l))) as [(s', out)|]; [|apply preW_id; auto].
      apply preW_next; [eapply preW_from; [apply (preW_push (set_ru false l)); tr|reflexivity]|apply IH].
  Qed.
  Lemma control_preW now cs : forall l g, preW l (control_phase i now cs l g).
  Proof.
    induction cs as [|[c|] cs IH]; intros l g; cbn [control_phase]; [apply preW_id; auto| |apply preW_id; auto].
    destruct (i_control i now c (l_s l) g) as (((s', g'), stop), taken). destruct taken; [apply preW_id; tr|].
    destruct stop; [apply preW_id; tr|]. apply preW_next; [apply preW_id; tr|apply IH].
  Qed.
  Lemma normal_preW now ms : forall l g, preW l (normal_phase i now ms l g).
  Proof.
    induction ms as [|x ms IH]; intros l g; cbn [normal_phase];
      (destruct (i_disc i (l_s l)) as [w|]; [apply preW_id; auto|]);
      (destruct (too_much _); [apply preW_id; auto|]); [apply preW_id; auto|].
    destruct x as [(from, m)|]; [|apply preW_id; auto]. apply preW_took.
    destruct (i_normal i now from m (l_s (set_nu false l)) g) as ((s', g'), [(q0, po)|]).
    - set (out := match po with Some p => [p] | None => [] end). destruct q0.
      + apply preW_next; [eapply preW_from; [apply (preW_push (set_nu false l)); tr|reflexivity]|apply IH].
      + destruct (i_pendings i now (l_s (push out (set_s s' (set_nu false l))))) as (s2, more).
        apply preW_next; [|apply IH]. cbn [preW l_wp push set_wp set_s set_nu]. rewrite !queued_app, !written_app, !asked_noq, !asked_now, !queued_queued, !written_queued. cbn [app].
        split; [|reflexivity]. rewrite map_app, app_assoc. reflexivity.
    - apply preW_next; [apply preW_id; tr|apply IH].
  Qed.

  (** *** Writing *)
  Definition pk (q : list (wp P)) : Prop := Forall (fun w => match w with Pkt _ => True | _ => False end) q.
  Definition wfq (q : list (wp P)) : Prop :=
    match q with Data d k :: r => (k <= length d)%nat /\ pk r | _ => pk q end.
  Notation unsent := (unsent_bytes i).

  Lemma unsent_app a b : unsent (a ++ b) = unsent a ++ unsent b.
  Proof. apply flat_map_app. Qed.
  Lemma unsent_pkts ps : unsent (map Pkt ps) = stream i ps.
  Proof. induction ps as [|p ps IH]; [reflexivity|]. cbn. f_equal. exact IH. Qed.
  Lemma pk_pkts ps : pk (map Pkt ps).
  Proof. induction ps; constructor; auto. Qed.
  Lemma wfq_pk q : pk q -> wfq q.
  Proof. destruct q as [|[] q]; auto. inversion 1; contradiction. Qed.
  Lemma wfq_push q ps : wfq q -> wfq (q ++ map Pkt ps).
  Proof.
    destruct q as [|[p|d k] q]; intros H.
    - apply wfq_pk, pk_pkts.
    - apply wfq_pk. apply Forall_app. split; [exact H|apply pk_pkts].
    - destruct H as (H1 & H2). split; [exact H1|]. apply Forall_app. split; [exact H2|apply pk_pkts].
  Qed.

  Lemma batch_pk q : forall data idx d k q', pk q -> batch i q data idx = Some (d, k, q') ->
    pk q' /\ k = idx /\ exists b, d = data ++ b /\ unsent q = b ++ unsent q'.
  Proof.
    induction q as [|[p|b0 k0] q IH]; intros data idx d k q' H E; cbn [batch] in E.
    - injection E as <- <- <-. split; [exact H|]. split; [reflexivity|]. exists []. rewrite app_nil_r. auto.
    - inversion_clear H as [|? ? _ Hq]. cbn [unsent flat_map]. fold (unsent q). unfold enc. destruct (i_encode i p) as [b|]; [|discriminate].
      destruct (2048 <=? N.of_nat (length (data ++ b))).
      + injection E as <- <- <-. split; [exact Hq|]. split; [reflexivity|]. exists b. auto.
      + destruct (IH _ _ _ _ _ Hq E) as (H1 & -> & b' & -> & H3). split; [exact H1|]. split; [reflexivity|].
        exists (b ++ b'). rewrite H3, !app_assoc. auto.
    - inversion H. contradiction.
  Qed.
  Lemma batch_wfq q d k q' : wfq q -> batch i q [] 0 = Some (d, k, q') ->
    pk q' /\ (k <= length d)%nat /\ unsent q = skipn k d ++ unsent q'.
  Proof.
    destruct q as [|[p|d0 k0] q]; intros W E.
    - cbn in E. injection E as <- <- <-. split; [constructor|]. auto.
    - destruct (batch_pk _ _ _ _ _ _ W E) as (H1 & -> & b & -> & H2). split; [exact H1|]. split; [lia|exact H2].
    - destruct W as (W1 & W2). cbn [batch] in E. cbn [unsent flat_map]. fold (unsent q).
      destruct (2048 <=? N.of_nat (length d0)).
      + injection E as <- <- <-. auto.
      + destruct (batch_pk _ _ _ _ _ _ W2 E) as (H1 & -> & b & -> & H2). split; [exact H1|]. rewrite app_length. split; [lia|].
        rewrite H2, skipn_app. replace (k0 - length d0)%nat with 0%nat by lia. cbn [skipn]. now rewrite app_assoc.
  Qed.

  Definition quiet (t : list ev) : Prop := Forall (fun x => match x with Wrote _ | Waits _ => True | _ => False end) t.
  Lemma quiet_queued t : quiet t -> queued t = [].
  Proof. induction 1 as [|[] t]; try contradiction; auto. Qed.

  Lemma write_loop_spec dr ws : forall q q' t w, wfq q -> write_loop i dr ws q = (q', t, w) ->
    w <> WBug /\ quiet t /\ (exists rest, unsent q = written t ++ rest) /\
    (w <> WFail -> wfq q' /\ unsent q = written t ++ unsent q') /\ (w = WEmpty -> q' = []) /\
    (w = WShort -> dr = false /\ exists d k r, q' = Data d k :: r /\ (k < length d)%nat) /\
    (w = WFull -> List.In (Waits WWrite) t).
  Proof.
    induction ws as [|x ws IH]; intros q q' t w W E; (destruct q as [|w0 q0];
      [cbn in E; injection E as <- <- <-; repeat split; try discriminate; try constructor; now exists []|]);
      cbn [write_loop] in E; set (q := w0 :: q0) in *;
      (destruct (batch i q [] 0) as [((d, k), q1)|] eqn:B;
        [|injection E as <- <- <-; repeat split; try discriminate; try congruence; try constructor; now exists (unsent q)]);
      destruct (batch_wfq _ _ _ _ W B) as (H1 & H2 & H3);
      (destruct (Nat.ltb_spec (length d) k); [lia|]).
    - injection E as <- <- <-. split; [discriminate|]. split; [repeat constructor|].
      split; [now exists (unsent q)|]. split; [intros _; split; [split; assumption|exact H3]|]. split; [discriminate|].
      split; [discriminate|]. intros _. now left.
    - destruct x as [n|].
      2:{ injection E as <- <- <-. split; [discriminate|]. split; [constructor|]. split; [now exists (unsent q)|]. repeat split; try discriminate; congruence. }
      set (m := Nat.min n (length d - k)) in *.
      assert (Hs : skipn k d = firstn m (skipn k d) ++ skipn (k + m) d).
      { rewrite <- (firstn_skipn m (skipn k d)) at 1. f_equal. rewrite Nat.add_comm. symmetry. rewrite <- (firstn_skipn k d) at 1.
        rewrite skipn_app, firstn_length. rewrite skipn_all2 by (rewrite firstn_length; lia). cbn [app]. f_equal. lia. }
      set (f := firstn m (skipn k d)) in *. clearbody f.
      destruct (Nat.ltb_spec (k + m) (length d)) as [L|L].
      + destruct dr.
        * destruct (write_loop i true ws (Data d (k + m) :: q1)) as ((q2, t2), w2) eqn:E2.
          assert (W2 : wfq (Data d (k + m) :: q1)) by (split; [lia|exact H1]).
          destruct (IH _ _ _ _ W2 E2) as (I1 & I2 & (rest & I3) & I4 & I5 & I6 & I7). injection E as <- <- <-.
          cbn [unsent flat_map] in I3, I4. fold (unsent q1) in I3, I4.
          split; [exact I1|]. split; [constructor; [exact I|exact I2]|]. split.
          { exists rest. cbn [written flat_map]. fold (written t2). rewrite H3, Hs, <- !app_assoc. rewrite <- I3. reflexivity. }
          split; [|split; [exact I5|split; [exact I6|intros; right; auto]]].
          intros Hw. destruct (I4 Hw) as (J1 & J2). split; [exact J1|].
          cbn [written flat_map]. fold (written t2). rewrite H3, Hs, <- !app_assoc, J2. reflexivity.
        * injection E as <- <- <-. split; [discriminate|]. split; [repeat constructor|]. cbn [written flat_map]. rewrite app_nil_r.
          assert (U : unsent q = f ++ unsent (Data d (k + m) :: q1)).
          { rewrite H3, Hs. cbn [unsent flat_map]. now rewrite <- app_assoc. }
          split; [eexists; exact U|]. split; [intros _; split; [split; [lia|exact H1]|exact U]|]. split; [discriminate|].
          split; [intros _; split; [reflexivity|do 3 eexists; eauto]|discriminate].
      + destruct (write_loop i dr ws q1) as ((q2, t2), w2) eqn:E2.
        destruct (IH _ _ _ _ (wfq_pk _ H1) E2) as (I1 & I2 & (rest & I3) & I4 & I5 & I6 & I7). injection E as <- <- <-.
        rewrite (skipn_all2 (n := k + m) d) in Hs by lia. rewrite app_nil_r in Hs.
        split; [exact I1|]. split; [constructor; [exact I|exact I2]|]. cbn [written flat_map]. fold (written t2). rewrite <- Hs.
        split; [exists rest; rewrite H3, I3; now rewrite app_assoc|].
        split; [|split; [exact I5|split; [exact I6|intros; right; auto]]].
        intros Hw. destruct (I4 Hw) as (J1 & J2). split; [exact J1|]. rewrite H3, J2. now rewrite app_assoc.
  Qed.

  (** ** A whole poll *)
  Definition prod (e : env) (l : lst) (g : G) : ph :=
    next (hook_phase i e l g) (fun l g =>
    next (take_phase i e l g) (fun l g =>
    next (read_phase i (e_now e) (e_read e) l g) (fun l g =>
    next (control_phase i (e_now e) (e_ctl e) l g) (fun l g =>
    normal_phase i (e_now e) (e_norm e) l g)))).

  Inductive poll_case (e : env) (l : lst) (g : G) : lst -> list ev -> res -> Prop :=
  | PC_prod l1 g1 t1 r : prod e l g = (l1, g1, t1, Some r) -> poll_case e l g l1 t1 r
  | PC_write l1 g1 t1 l2 g2 t2 r : prod e l g = (l1, g1, t1, None) -> write_phase i e l1 g1 = (l2, g2, t2, Some r) ->
      poll_case e l g l2 (t1 ++ t2) r
  | PC_bcast l1 g1 t1 l2 g2 t2 l3 g3 t3 r sent : prod e l g = (l1, g1, t1, None) -> write_phase i e l1 g1 = (l2, g2, t2, None) ->
      broadcast_phase i e l2 g2 = ((l3, g3, t3, Some r), sent) -> poll_case e l g l3 (t1 ++ t2 ++ t3) r
  | PC_drain l1 g1 t1 l2 g2 t2 l3 g3 t3 sent l4 g4 t4 r : prod e l g = (l1, g1, t1, None) ->
      write_phase i e l1 g1 = (l2, g2, t2, None) -> broadcast_phase i e l2 g2 = ((l3, g3, t3, None), sent) ->
      drain_phase i e l3 g3 = (l4, g4, t4, Some r) -> poll_case e l g l4 (t1 ++ t2 ++ t3 ++ t4) r
  | PC_end l1 g1 t1 l2 g2 t2 l3 g3 t3 sent l4 g4 t4 w : prod e l g = (l1, g1, t1, None) ->
      write_phase i e l1 g1 = (l2, g2, t2, None) -> broadcast_phase i e l2 g2 = ((l3, g3, t3, None), sent) ->
      drain_phase i e l3 g3 = (l4, g4, t4, None) ->
      w = (if (wrote t2 && (l_ru l4 || l_nu l4)) || (sent && l_ru l4) then [Woke] else []) ->
      poll_case e l g l4 (t1 ++ t2 ++ t3 ++ t4 ++ w) RPending.

  Lemma poll_cases e l g l' g' t r : poll i e l g = (l', g', t, r) -> poll_case e l g l' t r.
  Proof.
    unfold poll. fold (prod e l g). destruct (prod e l g) as (((l1, g1), t1), [r1|]) eqn:E1.
    - intros E. injection E as <- <- <- <-. now apply PC_prod with g1.
    - destruct (write_phase i e l1 g1) as (((l2, g2), t2), [r2|]) eqn:E2.
      + intros E. injection E as <- <- <- <-. eapply PC_write; eauto.
      + destruct (broadcast_phase i e l2 g2) as ((((l3, g3), t3), [r3|]), sent) eqn:E3.
        * intros E. injection E as <- <- <- <-. eapply PC_bcast; eauto.
        * destruct (drain_phase i e l3 g3) as (((l4, g4), t4), [r4|]) eqn:E4; intros E; injection E as <- <- <- <-.
          -- eapply PC_drain; eauto.
          -- eapply PC_end; eauto.
  Qed.

  Lemma prod_preW e l g : preW l (prod e l g).
  Proof.
    unfold prod. apply preW_next; [apply hook_preW|]. intros. apply preW_next; [apply take_preW|]. intros.
    apply preW_next; [apply read_preW|]. intros. apply preW_next; [apply control_preW|]. intros. apply normal_preW.
  Qed.

  Lemma quiet_app a b : quiet a -> quiet b -> quiet (a ++ b).
  Proof. intros. apply Forall_app. auto. Qed.

  Lemma write_phase_spec e l g l' g' t r : wfq (l_wp l) -> write_phase i e l g = (l', g', t, r) ->
    quiet t /\ (exists rest, unsent (l_wp l) = written t ++ rest) /\ r <> Some RBug /\
    (r = None -> wfq (l_wp l') /\ unsent (l_wp l) = written t ++ unsent (l_wp l')).
  Proof.
    intros W E. unfold write_phase in E. destruct (write_loop i false (e_write e) (l_wp l)) as ((q, t0), w) eqn:EW.
    destruct (write_loop_spec _ _ _ _ _ _ W EW) as (H1 & H2 & H3 & H4 & _).
    assert (QW : quiet (t0 ++ [Waits WFlush])) by (apply quiet_app; [exact H2|repeat constructor]).
    assert (WW : written (t0 ++ [Waits WFlush]) = written t0) by (rewrite written_app; apply app_nil_r).
    assert (X : w <> WFail -> exists rest, unsent (l_wp l) = written (t0 ++ [Waits WFlush]) ++ rest) by (intros; rewrite WW; exact H3).
    destruct w; try contradiction;
      [destruct (wrote t0); [destruct (e_flush e) as [[]|]|]|destruct (wrote t0); [destruct (e_flush e) as [[]|]|]| |];
      injection E as <- <- <- <-; (split; [assumption|]); (split; [first [exact H3|apply X; discriminate]|]);
      (split; [discriminate|]); intros N; try discriminate N; rewrite ?WW; apply H4; discriminate.
  Qed.

  Definition noisy (t : list ev) : Prop := queued t = [] /\ written t = [].
  Lemma sink_noisy d hold cs : let '(_, t, _) := sink_poll d hold cs in noisy (t : list ev).
  Proof. destruct hold as [m|]; [destruct cs as [|[] cs]|]; split; reflexivity. Qed.
  Lemma noisy_app a b : noisy a -> noisy b -> noisy (a ++ b).
  Proof. intros (A1 & A2) (B1 & B2). split; [rewrite queued_app, A1, B1|rewrite written_app, A2, B2]; reflexivity. Qed.
  Lemma send_all_noisy d ms : forall hold fl cs ss used, let '(_, _, t) := send_all d ms hold fl cs ss used in noisy (t : list ev).
  Proof.
    induction ms as [|m ms IH]; intros; cbn [send_all]; pose proof (sink_noisy d hold cs) as H;
      destruct (sink_poll d hold cs) as ((r, t), cs'); [destruct r; exact H|].
    destruct r; [|exact H|exact H]. destruct (match ss with b :: _ => b | [] => true end).
    - specialize (IH (Some m) fl cs' (tl ss) (used + 1)). destruct (send_all d ms (Some m) fl cs' (tl ss) (used + 1)) as ((kp, u), t').
      now apply noisy_app.
    - apply noisy_app; [exact H|split; reflexivity].
  Qed.
  Lemma serve_noisy d ms hold fl cs ss : let '(_, _, t) := serve d ms hold fl cs ss in noisy (t : list ev).
  Proof.
    unfold serve. destruct (_ && _); [|apply send_all_noisy]. pose proof (sink_noisy d hold cs) as H.
    destruct (sink_poll d hold cs) as ((r, t), cs'). destruct r; exact H.
  Qed.
  Lemma serve_all_noisy e sinks b : let '(_, _, _, t) := serve_all (In := In) (Err := Err) (Ctl := Ctl) (Ans := Ans) e sinks b in noisy (t : list ev).
  Proof.
    induction b as [|(d, ms) b IH]; cbn [serve_all]; [split; reflexivity|].
    destruct (match aget d sinks with Some x => x | None => (None, true) end) as (hold, fl).
    pose proof (serve_noisy d ms hold fl (e_chan e d) (e_send e d)) as H.
    destruct (serve d ms hold fl (e_chan e d) (e_send e d)) as ((kp, u), t).
    destruct (serve_all e sinks b) as (((b2, k2), u2), t2). destruct kp as [((ms', h'), fl')|]; now apply noisy_app.
  Qed.
  Lemma broadcast_noisy e l g l' g' t r sent : broadcast_phase i e l g = ((l', g', t, r), sent) ->
    noisy t /\ l_wp l' = l_wp l /\ l_drain l' = l_drain l /\ l_ru l' = l_ru l /\ l_nu l' = l_nu l.
  Proof.
    unfold broadcast_phase. pose proof (serve_all_noisy e (l_sinks l) (i_bc i (l_s l))) as H.
    destruct (serve_all e (l_sinks l) (i_bc i (l_s l))) as (((b', k'), used), t0).
    destruct (negb _); [|destruct (_ <? _)]; intros E; injection E as <- <- <- <- _; (split; [exact H|auto]).
  Qed.

  Lemma drain_phase_spec e l g l' g' t r : wfq (l_wp l) -> drain_phase i e l g = (l', g', t, r) ->
    queued t = [] /\ (exists rest, unsent (l_wp l) = written t ++ rest) /\ r <> Some RBug /\ r <> Some RTaken /\
    (r = None \/ r = Some RPending -> wfq (l_wp l') /\ unsent (l_wp l) = written t ++ unsent (l_wp l')) /\
    (r = Some (RReady false) -> unsent (l_wp l) = written t) /\
    (r = None -> l_wp l' = l_wp l /\ t = []).
  Proof.
    intros W E. unfold drain_phase in E.
    set (l0 := match l_drain l with None => set_drain (i_disc i (l_s l)) l | Some _ => l end) in *.
    assert (Q0 : l_wp l0 = l_wp l) by (unfold l0; destruct (l_drain l); reflexivity).
    destruct (l_drain l0) as [who|].
    2:{ injection E as <- <- <- <-. split; [reflexivity|]. split; [now exists (unsent (l_wp l))|]. split; [discriminate|].
        split; [discriminate|]. rewrite Q0. split; [auto|]. split; [discriminate|auto]. }
    rewrite Q0 in E. destruct (write_loop i true (e_write2 e) (l_wp l)) as ((q, t0), w) eqn:EW.
    destruct (write_loop_spec _ _ _ _ _ _ W EW) as (H1 & H2 & H3 & H4 & H5 & H6 & _).
    assert (K : forall l2 t2 r2, (l2, g, t0 ++ t2, Some r2) = (l', g', t, r) -> l_wp l2 = q -> quiet t2 \/ queued t2 = [] -> written t2 = [] -> r2 <> RBug -> r2 <> RTaken ->
      (w <> WFail) -> (r2 = RReady false -> w = WEmpty) ->
      queued t = [] /\ (exists rest, unsent (l_wp l) = written t ++ rest) /\ r <> Some RBug /\ r <> Some RTaken /\
      (r = None \/ r = Some RPending -> wfq (l_wp l') /\ unsent (l_wp l) = written t ++ unsent (l_wp l')) /\
      (r = Some (RReady false) -> unsent (l_wp l) = written t) /\ (r = None -> l_wp l' = l_wp l /\ t = [])).
    { intros l2 t2 r2 X L2 Q2 W2 R1 R2 NF RF. injection X as <- <- <- <-.
      assert (Q2' : queued t2 = []) by (destruct Q2; [now apply quiet_queued|assumption]).
      assert (WT : written (t0 ++ t2) = written t0) by (rewrite written_app, W2; apply app_nil_r). rewrite WT.
      split; [rewrite queued_app, Q2', (quiet_queued _ H2); reflexivity|]. split; [exact H3|]. split; [congruence|]. split; [congruence|].
      split; [intros _; rewrite L2; apply H4; exact NF|]. split; [|discriminate].
      intros R. injection R as R. specialize (RF R). destruct (H4 NF) as (_ & H7). rewrite H7, (H5 RF). cbn. apply app_nil_r. }
    destruct w; try contradiction.
    - destruct (e_flush2 e) as [[]|].
      + destruct (e_shut e) as [[]|].
        * destruct who.
          -- eapply (K _ [] _); [rewrite app_nil_r; exact E|reflexivity|now right|reflexivity| | | |]; congruence.
          -- destruct (e_slept e); [|destruct (e_drain e) as [[]|]].
             ++ eapply (K _ [] _); [rewrite app_nil_r; exact E|reflexivity|now right|reflexivity| | | |]; congruence.
             ++ eapply (K _ [] _); [rewrite app_nil_r; exact E|reflexivity|now right|reflexivity| | | |]; congruence.
             ++ eapply (K _ _ _); [exact E|reflexivity|now right|reflexivity| | | |]; congruence.
             ++ eapply (K _ _ _); [exact E|reflexivity|now right|reflexivity| | | |]; congruence.
        * eapply (K _ [] _); [rewrite app_nil_r; exact E|reflexivity|now right|reflexivity| | | |]; congruence.
        * eapply (K _ _ _); [exact E|reflexivity|now right|reflexivity| | | |]; congruence.
      + eapply (K _ [] _); [rewrite app_nil_r; exact E|reflexivity|now right|reflexivity| | | |]; congruence.
      + eapply (K _ _ _); [exact E|reflexivity|now right|reflexivity| | | |]; congruence.
    - destruct (H6 eq_refl); discriminate.
    - eapply (K _ [] _); [rewrite app_nil_r; exact E|reflexivity|now right|reflexivity| | | |]; congruence.
    - injection E as <- <- <- <-. split; [now apply quiet_queued|]. split; [exact H3|]. split; [discriminate|]. split; [discriminate|].
      split; [intros [X|X]; discriminate|]. split; discriminate.
  Qed.

  (** Only a control message ends the loop without an error before the writes. *)
  Definition no_stop (x : ph) : Prop := let '(_, _, _, r) := x in r <> Some (RReady false).
  Lemma no_stop_next x k : no_stop x -> (forall l g, no_stop (k l g)) -> no_stop (next x k).
  Proof.
    destruct x as (((l, g), t), [r|]); intros H K; [exact H|]. cbn [next]. specialize (K l g).
    destruct (k l g) as (((l2, g2), t2), r2). exact K.
  Qed.
  Lemma no_stop_took x : no_stop x -> no_stop (took x).
  Proof. destruct x as (((l, g), t), r). auto. Qed.
  Lemma actions_ns now acts : forall l g, no_stop (actions i now l g acts).
  Proof.
    induction acts as [|a r IH]; intros l g; cbn [actions]; [discriminate|].
    destruct (i_action i now a (l_s l) g) as [s' g' out u|s' g' out|]; [|discriminate|discriminate]. apply no_stop_next; [discriminate|apply IH].
  Qed.
  Lemma after_ns now l g : no_stop (after i now l g).
  Proof. unfold after. destruct (i_after i now (l_s l)). discriminate. Qed.
  Lemma hook_done_ns now r a l g : no_stop (hook_done i now r a l g).
  Proof.
    unfold hook_done. destruct (i_hook i now r a (l_s l) g); try discriminate.
    apply no_stop_next; [discriminate|]. intros. apply no_stop_next; [apply actions_ns|]. intros. apply after_ns.
  Qed.
  Lemma prod_no_stop e l g l1 g1 t1 : e_ctl e = [] -> prod e l g <> (l1, g1, t1, Some (RReady false)).
  Proof.
    intros Ec X. assert (H : no_stop (prod e l g)); [|rewrite X in H; now apply H]. clear X. unfold prod.
    apply no_stop_next; [|intros l0 g0; apply no_stop_next; [|intros l2 g2; apply no_stop_next; [|intros l3 g3; apply no_stop_next; [|intros l4 g4]]]].
    - unfold hook_phase. destruct (l_hook l); [|discriminate]. destruct (e_hook e); [discriminate|discriminate|apply hook_done_ns].
    - unfold take_phase. destruct (l_take l0) as [[]|]; [| |discriminate].
      + destruct (e_tflush e) as [[]|]; discriminate.
      + destruct (e_ready e) as [[]|]; [|discriminate|discriminate]. destruct (e_start e); [|discriminate].
        destruct (e_tflush e) as [[]|]; discriminate.
    - revert l2 g2. induction (e_read e) as [|x rs IH]; intros; cbn [read_phase];
        (destruct (i_disc i (l_s l2)); [discriminate|]); (destruct (_ || _); [discriminate|]); [discriminate|].
      destruct x as [x h|er]; apply no_stop_took.
      + destruct (i_packet i (e_now e) x (l_s (set_ru false l2)) g2) as [s' g' out req| |]; try discriminate.
        apply no_stop_next; [discriminate|]. intros. apply no_stop_next; [|apply IH].
        destruct req; [|apply after_ns]. destruct h; try discriminate. apply no_stop_next; [discriminate|]. intros. apply hook_done_ns.
      + destruct (i_decode_error i er (l_s (set_ru false l2))) as [(s', out)|]; [|discriminate]. apply no_stop_next; [discriminate|apply IH].
    - rewrite Ec. discriminate.
    - revert l4 g4. induction (e_norm e) as [|x ms IH]; intros; cbn [normal_phase];
        (destruct (i_disc i (l_s l4)); [discriminate|]); (destruct (too_much _); [discriminate|]); [discriminate|].
      destruct x as [(from, m)|]; [|discriminate]. apply no_stop_took.
      destruct (i_normal i (e_now e) from m (l_s (set_nu false l4)) g4) as ((s', g'), [(q0, po)|]).
      + destruct q0; [apply no_stop_next; [discriminate|apply IH]|].
        destruct (i_pendings i (e_now e) _) as (s2, more). apply no_stop_next; [discriminate|apply IH].
      + apply no_stop_next; [discriminate|apply IH].
  Qed.

  (** One poll keeps the byte stream. *)
  Lemma poll_stream e l g l' t r : wfq (l_wp l) -> poll_case e l g l' t r ->
    (exists rest, unsent (l_wp l) ++ stream i (queued t) = written t ++ rest) /\
    (r = RPending -> wfq (l_wp l') /\ unsent (l_wp l) ++ stream i (queued t) = written t ++ unsent (l_wp l')) /\
    (r = RReady false -> e_ctl e = [] -> unsent (l_wp l) ++ stream i (queued t) = written t).
  Proof.
    intros W C.
    assert (A : forall l1 g1 t1 r1, prod e l g = (l1, g1, t1, r1) ->
      wfq (l_wp l1) /\ unsent (l_wp l1) = unsent (l_wp l) ++ stream i (queued t1) /\ written t1 = []).
    { intros l1 g1 t1 r1 E. pose proof (prod_preW e l g) as X. rewrite E in X. destruct X as (X1 & X2). rewrite X1.
      split; [now apply wfq_push|]. split; [rewrite unsent_app, unsent_pkts; reflexivity|exact X2]. }
    destruct C as [l1 g1 t1 r E1|l1 g1 t1 l2 g2 t2 r E1 E2|l1 g1 t1 l2 g2 t2 l3 g3 t3 r sent E1 E2 E3
      |l1 g1 t1 l2 g2 t2 l3 g3 t3 sent l4 g4 t4 r E1 E2 E3 E4|l1 g1 t1 l2 g2 t2 l3 g3 t3 sent l4 g4 t4 w E1 E2 E3 E4 Ew];
      destruct (A _ _ _ _ E1) as (W1 & U1 & N1).
    - rewrite N1, <- U1. split; [now exists (unsent (l_wp l1))|]. split; [auto|]. intros -> Ec. exfalso. eapply prod_no_stop; eauto.
    - destruct (write_phase_spec _ _ _ _ _ _ _ W1 E2) as (Q2 & (rest & R2) & P2 & _).
      rewrite queued_app, (quiet_queued _ Q2), app_nil_r, written_app, N1, <- U1. cbn [app]. split; [now exists rest|].
      unfold write_phase in E2. destruct (write_loop i false (e_write e) (l_wp l1)) as ((q, t0), w).
      destruct w; try (destruct (wrote t0); [destruct (e_flush e) as [[]|]|]); try discriminate E2;
        inversion E2; subst; split; discriminate.
    - destruct (write_phase_spec _ _ _ _ _ _ _ W1 E2) as (Q2 & (rest & R2) & P2 & N2). destruct (N2 eq_refl) as (W2 & U2).
      destruct (broadcast_noisy _ _ _ _ _ _ _ _ E3) as ((Q3 & R3) & WP3 & _).
      rewrite !queued_app, (quiet_queued _ Q2), Q3, app_nil_r, !written_app, N1, R3, app_nil_r, <- U1. cbn [app]. split; [now exists rest|].
      unfold broadcast_phase in E3. destruct (serve_all e (l_sinks l2) (i_bc i (l_s l2))) as (((b', k'), used), t0).
      destruct (negb _); [|destruct (_ <? _)]; try discriminate E3; inversion E3; subst; split; discriminate.
    - destruct (write_phase_spec _ _ _ _ _ _ _ W1 E2) as (Q2 & (rest & R2) & P2 & N2). destruct (N2 eq_refl) as (W2 & U2).
      destruct (broadcast_noisy _ _ _ _ _ _ _ _ E3) as ((Q3 & R3) & WP3 & _).
      rewrite <- WP3 in W2. destruct (drain_phase_spec _ _ _ _ _ _ _ W2 E4) as (Q4 & (rest4 & R4) & P4 & P5 & D1 & D2 & _).
      rewrite !queued_app, (quiet_queued _ Q2), Q3, Q4, !app_nil_r, !written_app, N1, R3, <- U1. cbn [app].
      rewrite U2, <- WP3. split; [exists rest4; rewrite R4, app_assoc; reflexivity|]. split.
      + intros ->. destruct (D1 (or_intror eq_refl)) as (D3 & D4). split; [exact D3|]. rewrite D4, app_assoc. reflexivity.
      + intros -> _. rewrite (D2 eq_refl). reflexivity.
    - destruct (write_phase_spec _ _ _ _ _ _ _ W1 E2) as (Q2 & (rest & R2) & P2 & N2). destruct (N2 eq_refl) as (W2 & U2).
      destruct (broadcast_noisy _ _ _ _ _ _ _ _ E3) as ((Q3 & R3) & WP3 & _).
      rewrite <- WP3 in W2. destruct (drain_phase_spec _ _ _ _ _ _ _ W2 E4) as (Q4 & _ & _ & _ & D1 & _ & _).
      destruct (D1 (or_introl eq_refl)) as (D3 & D4).
      assert (Qw : queued w = [] /\ written w = []) by (rewrite Ew; destruct (_ || _); auto). destruct Qw as (Qw & Ww).
      rewrite !queued_app, (quiet_queued _ Q2), Q3, Q4, Qw, !app_nil_r, !written_app, N1, R3, Ww, <- U1, app_nil_r. cbn [app].
      rewrite U2, <- WP3, D4, app_assoc. split; [now exists (unsent (l_wp l4))|]. split; [auto|discriminate].
  Qed.

  (** *** A whole life *)
  Lemma life_stream es : forall l l' t r, wfq (l_wp l) -> life i es l = (l', t, r) ->
    (exists rest, unsent (l_wp l) ++ stream i (queued t) = written t ++ rest) /\
    (r = RPending -> wfq (l_wp l') /\ unsent (l_wp l) ++ stream i (queued t) = written t ++ unsent (l_wp l')) /\
    (r = RReady false -> (forall e g, List.In (e, g) es -> e_ctl e = []) -> unsent (l_wp l) ++ stream i (queued t) = written t).
  Proof.
    induction es as [|(e, g) es IH]; intros l l' t r W E; cbn [life] in E.
    - injection E as <- <- <-. cbn. rewrite app_nil_r. split; [now exists (unsent (l_wp l))|]. split; [auto|discriminate].
    - destruct (poll i e l g) as (((l1, g1), t1), x) eqn:EP. apply poll_cases in EP.
      destruct (poll_stream _ _ _ _ _ _ W EP) as (A & B & C). destruct x.
      2,3,4,5: injection E as <- <- <-; split; [exact A|]; split; [discriminate|]; intros X Y;
        first [discriminate X|apply C; [exact X|eapply Y; left; reflexivity]].
      destruct (B eq_refl) as (W1 & U1). destruct (life i es l1) as ((l2, t2), x2) eqn:EL. injection E as <- <- <-.
      destruct (IH _ _ _ _ W1 EL) as ((rest & A2) & B2 & C2).
      assert (X : unsent (l_wp l) ++ stream i (queued (t1 ++ t2)) = written t1 ++ unsent (l_wp l1) ++ stream i (queued t2)).
      { rewrite queued_app. unfold stream. rewrite flat_map_app. fold (stream i (queued t1)). fold (stream i (queued t2)).
        rewrite app_assoc, U1, app_assoc. reflexivity. }
      rewrite X, written_app. split; [exists rest; rewrite A2, app_assoc; reflexivity|]. split.
      + intros R. destruct (B2 R) as (W2 & U2). split; [exact W2|]. rewrite U2, app_assoc. reflexivity.
      + intros R Y. rewrite (C2 R); [reflexivity|]. intros e0 g0 H. apply Y with g0. now right.
  Qed.

  (** ** C37: messages for other clients *)
  Notation pend := (waiting_for i).
  Definition still (t : list ev) : Prop := forall d, delivered_to d t = [] /\ ~ List.In (Gone d) t.

  Lemma still_app a b : still a -> still b -> still (a ++ b).
  Proof.
    intros A B d. destruct (A d) as (A1 & A2), (B d) as (B1 & B2). rewrite delivered_app, A1, B1. split; [reflexivity|].
    rewrite in_app_iff. tauto.
  Qed.
  Lemma still_asked s s' : still (asked i s s').
  Proof.
    intros d. pose proof (asked_only s s') as H. induction H as [|x t Hx H IH]; [split; auto|]. destruct x; try contradiction.
    destruct IH as (I1 & I2). split; [exact I1|]. intros [X|X]; [discriminate|contradiction].
  Qed.
  Lemma still_queued ps : still (map Queued ps).
  Proof.
    intros d. induction ps as [|p ps (I1 & I2)]; [split; auto|]. split; [exact I1|]. intros [X|X]; [discriminate|contradiction].
  Qed.
  Lemma still_nil : still [].
  Proof. split; auto. Qed.

  Lemma asked_map (f : client_id -> nat) d b : NoDup (keys b) ->
    asked_for d (flat_map (fun x => map (Asked (fst x)) (skipn (f (fst x)) (snd x))) b : list ev) = skipn (f d) (queue_of b d).
  Proof.
    assert (A : forall c ms, asked_for d (map (Asked c) ms : list ev) = if N.eqb c d then ms else []).
    { intros c ms. induction ms as [|m ms IH]; [destruct (N.eqb c d); reflexivity|]. cbn [map asked_for flat_map].
      fold (asked_for d (map (Asked c) ms : list ev)). rewrite IH. destruct (N.eqb c d); reflexivity. }
    induction b as [|(c, ms) b IH]; intros N; cbn [flat_map fst snd].
    - unfold queue_of. cbn. now rewrite skipn_nil.
    - inversion_clear N as [|? ? N1 N2]. rewrite asked_for_app, A, (IH N2). unfold queue_of. cbn [aget].
      change (@eqb client_id _ d c) with (N.eqb d c). rewrite (N.eqb_sym c d).
      destruct (N.eqb_spec d c) as [<-|X]; [|reflexivity].
      replace (aget d b) with (@None (list Msg)); [now rewrite skipn_nil, app_nil_r|]. symmetry. apply aget_None_notin. exact N1.
  Qed.
  Lemma grows_asked s s' : grows i s s' -> tidy i s -> tidy i s' /\ incl (keys (i_bc i s)) (keys (i_bc i s')) /\
    forall d, queue_of (i_bc i s') d = queue_of (i_bc i s) d ++ asked_for d (asked i s s').
  Proof.
    intros H T. destruct (H T) as (H1 & H2 & H3). split; [exact H1|]. split; [exact H2|]. intros d.
    unfold asked. rewrite (asked_map (fun c => length (queue_of (i_bc i s) c)) d _ (proj1 H1)).
    destruct (H3 d) as (ms & E). rewrite E at 2. rewrite skipn_app, skipn_all, Nat.sub_diag. exact E.
  Qed.

  Definition preB (l : lst) (x : ph) : Prop :=
    let '(l', _, t, r) := x in
    tidy i (l_s l) -> tidy i (l_s l') /\ incl (keys (i_bc i (l_s l))) (keys (i_bc i (l_s l'))) /\
      l_sinks l' = l_sinks l /\ still t /\ r <> Some RBug /\
      forall d, queue_of (i_bc i (l_s l')) d = queue_of (i_bc i (l_s l)) d ++ asked_for d t.

  Lemma preB_next l x k : preB l x -> (forall l' g', preB l' (k l' g')) -> preB l (next x k).
  Proof.
    destruct x as (((l1, g1), t1), [r|]); intros H K; [exact H|]. cbn [next].
    specialize (K l1 g1). destruct (k l1 g1) as (((l2, g2), t2), r2). intros T.
    destruct (H T) as (A1 & A2 & A3 & A4 & _ & A6). destruct (K A1) as (B1 & B2 & B3 & B4 & B5 & B6).
    split; [exact B1|]. split; [eauto using incl_tran|]. split; [congruence|]. split; [now apply still_app|]. split; [exact B5|].
    intros d. rewrite B6, A6, asked_for_app, app_assoc. reflexivity.
  Qed.
  Lemma preB_id l l' g r (t : list ev) : l_s l' = l_s l -> l_sinks l' = l_sinks l -> still t -> (forall d, asked_for d t = []) ->
    r <> Some RBug -> preB l (l', g, t, r).
  Proof.
    intros H1 H2 H3 H4 H5 T. rewrite H1. split; [exact T|]. split; [apply incl_refl|]. split; [exact H2|]. split; [exact H3|].
    split; [exact H5|]. intros d. rewrite H4, app_nil_r. reflexivity.
  Qed.
  Lemma preB_step l l' g r (t u : list ev) : grows i (l_s l) (l_s l') -> l_sinks l' = l_sinks l -> still u -> (forall d, asked_for d u = []) ->
    r <> Some RBug -> t = asked i (l_s l) (l_s l') ++ u -> preB l (l', g, t, r).
  Proof.
    intros H1 H2 H3 H4 H5 -> T. destruct (grows_asked _ _ H1 T) as (A1 & A2 & A3).
    split; [exact A1|]. split; [exact A2|]. split; [exact H2|]. split; [apply still_app; [apply still_asked|exact H3]|].
    split; [exact H5|]. intros d. rewrite asked_for_app, H4, app_nil_r. apply A3.
  Qed.
  Lemma preB_from l l0 x : preB l0 x -> l_s l0 = l_s l -> l_sinks l0 = l_sinks l -> preB l x.
  Proof. destruct x as (((l1, g1), t1), r1). intros H E1 E2 T. rewrite <- E1, <- E2 in *. exact (H T). Qed.

  Hypothesis WB : well_behaved i.

  Ltac st := repeat first [apply still_app|apply still_nil|apply still_queued|apply still_asked
    |let d := fresh in intros d; split; [reflexivity|cbn; intuition discriminate]].
  Ltac idB := apply preB_id; [reflexivity|reflexivity|st|intros; reflexivity|discriminate].

  Ltac errB lem := match goal with |- preB _ (failed _ _ _ ?o _) => apply preB_step with (map Queued o) end;
    [eapply lem; eauto|reflexivity|st|intros; apply asked_queued|discriminate|reflexivity].

  Lemma actions_preB now acts : forall l g, preB l (actions i now l g acts).
  Proof.
    induction acts as [|a r IH]; intros l g; cbn [actions]; [idB|].
    destruct (i_action i now a (l_s l) g) as [s' g' out u|s' g' out|] eqn:E; [|errB (wb_action_err i WB)|idB].
    apply preB_next; [|apply IH].
    apply preB_step with (map Queued out); [eapply (wb_action i WB); eauto|reflexivity|st|intros; apply asked_queued|discriminate|reflexivity].
  Qed.
  Lemma after_preB now l g : preB l (after i now l g).
  Proof.
    unfold after. pose proof (wb_after i WB now (l_s l)) as H. destruct (i_after i now (l_s l)) as (s', out).
    apply preB_step with (map Queued out); [exact H|reflexivity|st|intros; apply asked_queued|discriminate|reflexivity].
  Qed.
  Lemma hook_done_preB now r a l g : preB l (hook_done i now r a l g).
  Proof.
    unfold hook_done. destruct (i_hook i now r a (l_s l) g) as [s' g' out acts|s' g' out|] eqn:E; [|errB (wb_hook_err i WB)|idB].
    apply preB_next; [|intros; apply preB_next; [apply actions_preB|intros; apply after_preB]].
    apply preB_step with (map Queued out); [eapply (wb_hook i WB); eauto|reflexivity|st|intros; apply asked_queued|discriminate|reflexivity].
  Qed.
  Lemma hook_preB e l g : preB l (hook_phase i e l g).
  Proof.
    unfold hook_phase. destruct (l_hook l) as [r|]; [|idB]. destruct (e_hook e); [idB|idB|].
    eapply preB_from; [apply hook_done_preB|reflexivity|reflexivity].
  Qed.
  Lemma take_preB e l g : e_ready e <> Some COk -> preB l (take_phase i e l g).
  Proof.
    intros R. unfold take_phase. destruct (l_take l) as [[]|]; [| |idB].
    - destruct (e_tflush e) as [[]|]; idB.
    - destruct (e_ready e) as [[]|]; [congruence|idB|idB].
  Qed.
  Lemma preB_took l x : preB l x -> preB l (took x).
  Proof.
    destruct x as (((l', g'), t), r). cbn. intros H T. destruct (H T) as (A & B & C & D & E & F).
    repeat (split; [assumption|]). split; [|split; assumption].
    intros d. destruct (D d) as (D1 & D2). split; [exact D1|]. intros [X|X]; [discriminate|contradiction].
  Qed.
  Lemma read_preB now rs : forall l g, preB l (read_phase i now rs l g).
  Proof.
    induction rs as [|x rs IH]; intros l g; cbn [read_phase];
      (destruct (i_disc i (l_s l)) as [w|]; [idB|]); (destruct (_ || _); [idB|]); [idB|].
    destruct x as [x h|e]; apply preB_took.
    - destruct (i_packet i now x (l_s (set_ru false l)) g) as [s' g' out req|s' g' out|] eqn:E; [|errB (wb_packet_err i WB)|idB].
      apply preB_next.
      { apply preB_step with (map Queued out); [eapply (wb_packet i WB); eauto|reflexivity|st|intros; apply asked_queued|discriminate|reflexivity]. }
      intros l1 g1. apply preB_next; [|apply IH].
      destruct req as [r|]; [|apply after_preB]. destruct h; [idB|idB|].
      apply preB_next; [idB|]. intros. apply hook_done_preB.
    - destruct (i_decode_error i e (l_s (set_ru false l))) as [(s', out)|] eqn:E; [|idB].
      apply preB_next; [|apply IH].
      apply preB_step with (map Queued out); [eapply (wb_decode i WB); eauto|reflexivity|st|intros; apply asked_queued|discriminate|reflexivity].
  Qed.
  Lemma control_preB now cs : forall l g, preB l (control_phase i now cs l g).
  Proof.
    induction cs as [|[c|] cs IH]; intros l g; cbn [control_phase]; [idB| |idB].
    destruct (i_control i now c (l_s l) g) as (((s', g'), stop), taken) eqn:E. pose proof (wb_control i WB _ _ _ _ _ _ _ _ E) as W.
    destruct taken; [apply preB_step with [Woke]; [exact W|reflexivity|st|auto|discriminate|reflexivity]|].
    destruct stop; [apply preB_step with []; [exact W|reflexivity|st|auto|discriminate|now rewrite app_nil_r]|].
    apply preB_next; [apply preB_step with []; [exact W|reflexivity|st|auto|discriminate|now rewrite app_nil_r]|apply IH].
  Qed.
  Lemma normal_preB now ms : forall l g, preB l (normal_phase i now ms l g).
  Proof.
    induction ms as [|x ms IH]; intros l g; cbn [normal_phase];
      (destruct (i_disc i (l_s l)) as [w|]; [idB|]); (destruct (too_much _); [idB|]); [idB|].
    destruct x as [(from, m)|]; [|idB]. apply preB_took.
    destruct (i_normal i now from m (l_s (set_nu false l)) g) as ((s', g'), po) eqn:E.
    pose proof (wb_normal i WB _ _ _ _ _ _ _ _ E) as W. destruct po as [(q0, po)|].
    - set (out := match po with Some p => [p] | None => [] end). destruct q0.
      + apply preB_next; [|apply IH].
        apply preB_step with (map Queued out); [exact W|reflexivity|st|intros; apply asked_queued|discriminate|reflexivity].
      + pose proof (wb_pendings i WB now (l_s (push out (set_s s' (set_nu false l))))) as W2.
        destruct (i_pendings i now (l_s (push out (set_s s' (set_nu false l))))) as (s2, more).
        apply preB_next; [|apply IH]. cbn [fst push l_s set_wp set_s set_nu] in W2. intros T. cbn [l_s push set_wp set_s set_nu l_sinks].
        destruct (grows_asked _ _ W T) as (A1 & A2 & A3). cbn [l_s push set_wp set_s set_nu l_sinks] in A1, A2, A3.
        destruct (grows_asked _ _ W2 A1) as (B1 & B2 & B3).
        split; [exact B1|]. split; [eauto using incl_tran|]. split; [reflexivity|]. split; [st|]. split; [discriminate|].
        intros d. rewrite B3, A3, !asked_for_app, !asked_queued, app_nil_r. cbn [app]. rewrite app_assoc. reflexivity.
    - apply preB_next; [|apply IH]. apply preB_step with []; [exact W|reflexivity|st|auto|discriminate|now rewrite app_nil_r].
  Qed.
  Lemma prod_preB e l g : e_ready e <> Some COk -> preB l (prod e l g).
  Proof.
    intros R. unfold prod. apply preB_next; [apply hook_preB|]. intros. apply preB_next; [now apply take_preB|]. intros.
    apply preB_next; [apply read_preB|]. intros. apply preB_next; [apply control_preB|]. intros. apply normal_preB.
  Qed.

  (** *** The broadcast loop *)
  Definition opt {A} (o : option A) : list A := match o with Some a => [a] | None => [] end.
  Definition about (d : client_id) (t : list ev) : Prop :=
    forall c, asked_for c t = [] /\ (c <> d -> delivered_to c t = [] /\ ~ List.In (Gone c) t).
  Lemma about_app d a b : about d a -> about d b -> about d (a ++ b).
  Proof.
    intros A B c. destruct (A c) as (A1 & A2), (B c) as (B1 & B2). rewrite asked_for_app, A1, B1. split; [reflexivity|].
    intros N. destruct (A2 N) as (A3 & A4), (B2 N) as (B3 & B4). rewrite delivered_app, A3, B3, in_app_iff. tauto.
  Qed.
  Lemma sink_spec d hold cs r t cs' : sink_poll d hold cs = (r, t, cs') -> about d t /\
    (r = KOk -> ~ List.In (Gone d) t /\ delivered_to d t = opt hold) /\
    (r = KErr -> List.In (Gone d) t) /\
    (r = KWait -> ~ List.In (Gone d) t /\ delivered_to d t = []).
  Proof.
    destruct hold as [m|]; [destruct cs as [|[] cs]|]; cbn [sink_poll]; intros E; injection E as <- <- <-;
      (split; [intros c; split; [reflexivity|]; intros N; cbn; try (destruct (N.eqb_spec d c); [congruence|]);
               split; [reflexivity|]; cbn; intuition congruence|]);
      cbn; rewrite ?N.eqb_refl; intuition (try discriminate; auto).
  Qed.
  Lemma send_all_spec d ms : forall hold fl cs ss used kp u t, send_all d ms hold fl cs ss used = (kp, u, t) -> about d t /\
    match kp with
    | Some (ms', hold', fl') => u + N.of_nat (length ms') = used + N.of_nat (length ms) /\ ~ List.In (Gone d) t /\
        opt hold ++ ms = delivered_to d t ++ opt hold' ++ ms'
    | None => u = used + N.of_nat (length ms) /\ (~ List.In (Gone d) t -> opt hold ++ ms = delivered_to d t)
    end.
  Proof.
    induction ms as [|m ms IH]; intros hold fl cs ss used kp u t E; cbn [send_all] in E;
      destruct (sink_poll d hold cs) as ((r, t0), cs') eqn:EP; destruct (sink_spec _ _ _ _ _ _ EP) as (A & K1 & K2 & K3).
    - destruct r; injection E as <- <- <-; (split; [exact A|]).
      + split; [cbn; lia|]. intros _. rewrite app_nil_r. symmetry. apply K1. reflexivity.
      + split; [cbn; lia|]. intros X. elim X. now apply K2.
      + destruct (K3 eq_refl) as (G1 & G2). split; [cbn; lia|]. split; [exact G1|]. rewrite G2. reflexivity.
    - destruct r.
      + destruct (K1 eq_refl) as (G1 & G2). destruct (match ss with b :: _ => b | [] => true end).
        * destruct (send_all d ms (Some m) fl cs' (tl ss) (used + 1)) as ((kp2, u2), t2) eqn:ES. injection E as <- <- <-.
          destruct (IH _ _ _ _ _ _ _ _ ES) as (A2 & R). split; [now apply about_app|].
          destruct kp2 as [((ms', h'), fl')|]; cbn [opt] in R; cbn [length]; rewrite delivered_app, in_app_iff, G2.
          -- destruct R as (R1 & R2 & R3). split; [lia|]. split; [tauto|]. rewrite <- app_assoc, <- R3. reflexivity.
          -- destruct R as (R1 & R2). split; [lia|]. intros X. rewrite <- (R2 (fun y => X (or_intror y))). reflexivity.
        * injection E as <- <- <-. split.
          { apply about_app; [exact A|]. intros c. split; [reflexivity|]. intros N. split; [reflexivity|]. cbn. intuition congruence. }
          cbn [length]. split; [lia|]. intros X. elim X. apply in_app_iff. right. now left.
      + injection E as <- <- <-. split; [exact A|]. cbn [length]. split; [lia|]. intros X. elim X. now apply K2.
      + injection E as <- <- <-. destruct (K3 eq_refl) as (G1 & G2). split; [exact A|]. split; [reflexivity|]. split; [exact G1|].
        rewrite G2. reflexivity.
  Qed.
  Lemma serve_spec d ms hold fl cs ss kp u t : serve d ms hold fl cs ss = (kp, u, t) -> about d t /\
    match kp with
    | Some (ms', hold', fl') => u + N.of_nat (length ms') = N.of_nat (length ms) /\ ~ List.In (Gone d) t /\
        opt hold ++ ms = delivered_to d t ++ opt hold' ++ ms'
    | None => u = N.of_nat (length ms) /\ (~ List.In (Gone d) t -> opt hold ++ ms = delivered_to d t)
    end.
  Proof.
    unfold serve. destruct (negb fl && match ms with [] => true | _ => false end) eqn:C.
    - apply andb_true_iff in C as (_ & C). destruct ms; [|discriminate].
      destruct (sink_poll d hold cs) as ((r, t0), cs') eqn:EP. destruct (sink_spec _ _ _ _ _ _ EP) as (A & K1 & K2 & K3).
      intros E. destruct r; injection E as <- <- <-; (split; [exact A|]).
      + split; [reflexivity|]. intros _. rewrite app_nil_r. symmetry. apply K1. reflexivity.
      + split; [reflexivity|]. intros X. elim X. now apply K2.
      + destruct (K3 eq_refl) as (G1 & G2). split; [reflexivity|]. split; [exact G1|]. rewrite G2. reflexivity.
    - intros E. destruct (send_all_spec _ _ _ _ _ _ _ _ _ _ E) as (A & R). split; [exact A|].
      destruct kp as [((ms', h'), fl')|]; exact R.
  Qed.

  Lemma serve_all_spec (e : env) sinks b : forall b' k' u t, NoDup (keys b) -> serve_all (Req := Req) e sinks b = (b', k', u, t) ->
    keys b' = keys k' /\ NoDup (keys b') /\ incl (keys b') (keys b) /\ total b' + u = total b /\
    forall d, asked_for d t = [] /\
      (~ List.In d (keys b) -> delivered_to d t = [] /\ ~ List.In (Gone d) t) /\
      (List.In d (keys b) -> ~ List.In (Gone d) (t : list ev) ->
         hold_of sinks d ++ queue_of b d = delivered_to d t ++ hold_of k' d ++ queue_of b' d).
  Proof.
    induction b as [|(c, ms) b IH]; intros b' k' u t ND E; cbn [serve_all] in E.
    - injection E as <- <- <- <-. repeat split; auto; [apply incl_refl|contradiction].
    - destruct (match aget c sinks with Some x => x | None => (None, true) end) as (hold, fl) eqn:EH.
      assert (HH : hold_of sinks c = opt hold).
      { unfold hold_of. destruct (aget c sinks) as [(h, f)|]; [injection EH as -> ->; destruct hold; reflexivity|].
        injection EH as <- <-. reflexivity. }
      destruct (serve c ms hold fl (e_chan e c) (e_send e c)) as ((kp, us), t1) eqn:ES.
      destruct (serve_all e sinks b) as (((b2, k2), u2), t2) eqn:EA. inversion_clear ND as [|? ? N1 N2].
      destruct (IH _ _ _ _ N2 eq_refl) as (I1 & I2 & I3 & I4 & I5). destruct (serve_spec _ _ _ _ _ _ _ _ _ ES) as (A & R).
      assert (N3 : ~ List.In c (keys b2)) by (intros X; apply N1, I3, X).
      assert (N4 : ~ List.In c (keys k2)) by (rewrite <- I1; exact N3).
      assert (X : forall d, d <> c -> forall bx kx, (forall y, aget d bx = y <-> aget d b2 = y) -> (forall y, aget d kx = y <-> aget d k2 = y) ->
        asked_for d (t1 ++ t2) = [] /\ (~ List.In d (keys ((c, ms) :: b)) -> delivered_to d (t1 ++ t2) = [] /\ ~ List.In (Gone d) (t1 ++ t2)) /\
        (List.In d (keys ((c, ms) :: b)) -> ~ List.In (Gone d) (t1 ++ t2) ->
          hold_of sinks d ++ queue_of ((c, ms) :: b) d = delivered_to d (t1 ++ t2) ++ hold_of kx d ++ queue_of bx d)).
      { intros d D bx kx Hb Hk. destruct (I5 d) as (J1 & J2 & J3). destruct (A d) as (A1 & A2). destruct (A2 D) as (A3 & A4).
        rewrite asked_for_app, delivered_app, A1, J1, A3, in_app_iff. split; [reflexivity|]. cbn [app].
        assert (Q1 : queue_of ((c, ms) :: b) d = queue_of b d).
        { unfold queue_of. cbn [aget]. change (@eqb client_id _ d c) with (N.eqb d c). destruct (N.eqb_spec d c); [congruence|reflexivity]. }
        assert (Q2 : queue_of bx d = queue_of b2 d) by (unfold queue_of; rewrite (proj2 (Hb _) eq_refl); reflexivity).
        assert (Q3 : hold_of kx d = hold_of k2 d) by (unfold hold_of; rewrite (proj2 (Hk _) eq_refl); reflexivity).
        rewrite Q1, Q2, Q3. split.
        - intros ND. assert (ND' : ~ List.In d (keys b)) by (intros Y; apply ND; now right). destruct (J2 ND') as (J4 & J5). tauto.
        - intros ID NG. apply J3; [|tauto]. destruct ID as [Y|Y]; [cbn [fst] in Y; congruence|exact Y]. }
      destruct kp as [((ms', h'), fl')|]; injection E as <- <- <- <-; cbn [keys map fst] in *.
      + destruct R as (R1 & R2 & R3). split; [cbn; f_equal; exact I1|]. split; [constructor; assumption|].
        split; [intros d [<-|Y]; [now left|right; now apply I3]|].
        split. { cbn [total fold_right snd]. fold (total b2). fold (total b). lia. }
        intros d. destruct (N.eq_dec d c) as [->|D].
        * destruct (I5 c) as (J1 & J2 & J3). destruct (A c) as (A1 & _). destruct (J2 N1) as (J4 & J5).
          rewrite asked_for_app, delivered_app, A1, J1, J4, in_app_iff, !app_nil_r. split; [reflexivity|].
          split; [intros Y; elim Y; now left|]. intros _ _. rewrite HH. unfold queue_of, hold_of. cbn [aget].
          change (@eqb client_id _ c c) with (N.eqb c c). rewrite N.eqb_refl. rewrite R3. destruct h'; reflexivity.
        * apply X; [exact D| |]; intros y; cbn [aget]; change (@eqb client_id _ d c) with (N.eqb d c);
            (destruct (N.eqb_spec d c); [congruence|reflexivity]).
      + destruct R as (R1 & R2). split; [exact I1|]. split; [exact I2|].
        split; [intros d Y; right; now apply I3|].
        split. { cbn [total fold_right snd]. fold (total b). lia. }
        intros d. destruct (N.eq_dec d c) as [->|D].
        * destruct (I5 c) as (J1 & J2 & J3). destruct (A c) as (A1 & _). destruct (J2 N1) as (J4 & J5).
          rewrite asked_for_app, delivered_app, A1, J1, J4, in_app_iff, !app_nil_r. split; [reflexivity|].
          split; [intros Y; elim Y; now left|]. intros _ NG. rewrite HH. unfold queue_of, hold_of. cbn [aget].
          change (@eqb client_id _ c c) with (N.eqb c c). rewrite N.eqb_refl.
          rewrite (proj2 (aget_None_notin c b2) N3), (proj2 (aget_None_notin c k2) N4), app_nil_r. apply R2. tauto.
        * apply X; [exact D| |]; reflexivity.
  Qed.

  (** *** The invariant *)
  Definition J (l : lst) : Prop := tidy i (l_s l) /\ incl (keys (l_sinks l)) (keys (i_bc i (l_s l))).

  Lemma broadcast_spec e l g l' g' t r sent : J l -> broadcast_phase i e l g = ((l', g', t, r), sent) ->
    J l' /\ r = None /\ forall d, asked_for d t = [] /\ (~ List.In (Gone d) t -> pend l d = delivered_to d t ++ pend l' d).
  Proof.
    intros (T & SK) E. unfold broadcast_phase in E.
    destruct (serve_all e (l_sinks l) (i_bc i (l_s l))) as (((b', k'), used), t0) eqn:EA.
    destruct (serve_all_spec _ _ _ _ _ _ _ (proj1 T) EA) as (I1 & I2 & I3 & I4 & I5).
    rewrite I4, N.eqb_refl in E. cbn [negb] in E. destruct T as (T1 & T2). rewrite T2 in E.
    destruct (N.ltb_spec (total (i_bc i (l_s l))) used); [lia|]. injection E as <- <- <- <- _.
    destruct (wb_set i WB b' (total (i_bc i (l_s l)) - used) (l_s l)) as (S1 & S2).
    split.
    { split; [split|]; cbn [l_s set_sinks set_s l_sinks]; rewrite ?S1, ?S2; [exact I2|lia|]. rewrite I1. apply incl_refl. }
    split; [reflexivity|]. intros d. destruct (I5 d) as (J1 & J2 & J3). split; [exact J1|]. intros NG.
    unfold waiting_for. cbn [l_s set_sinks set_s l_sinks]. rewrite S1.
    destruct (in_dec N.eq_dec d (keys (i_bc i (l_s l)))) as [D|D]; [now apply J3|].
    destruct (J2 D) as (J4 & _). rewrite J4. cbn [app].
    assert (D2 : ~ List.In d (keys (l_sinks l))) by (intros Y; apply D, SK, Y).
    assert (D3 : ~ List.In d (keys b')) by (intros Y; apply D, I3, Y).
    assert (D4 : ~ List.In d (keys k')) by (rewrite <- I1; exact D3).
    unfold hold_of, queue_of. rewrite (proj2 (aget_None_notin d _) D), (proj2 (aget_None_notin d _) D2),
      (proj2 (aget_None_notin d _) D3), (proj2 (aget_None_notin d _) D4). reflexivity.
  Qed.

  Definition steady (t : list ev) : Prop := forall d, asked_for d t = [] /\ delivered_to d t = [] /\ ~ List.In (Gone d) t.
  Lemma steady_app a b : steady a -> steady b -> steady (a ++ b).
  Proof.
    intros A B d. destruct (A d) as (A1 & A2 & A3), (B d) as (B1 & B2 & B3).
    rewrite asked_for_app, delivered_app, A1, B1, A2, B2, in_app_iff. tauto.
  Qed.
  Lemma quiet_steady t : quiet t -> steady t.
  Proof.
    intros H d. induction H as [|x t Hx H (I1 & I2 & I3)]; [auto|]. destruct x; try contradiction;
      (split; [exact I1|]; split; [exact I2|]; intros [X|X]; [discriminate|contradiction]).
  Qed.
  Lemma write_loop_quiet dr ws : forall q, let '(_, t, _) := write_loop i dr ws q in quiet t.
  Proof.
    induction ws as [|x ws IH]; intros q; (destruct q as [|w q0]; [constructor|]); cbn [write_loop];
      destruct (batch i (w :: q0) [] 0) as [((d, k), q')|]; try (constructor; fail); destruct (Nat.ltb (length d) k); try (constructor; fail).
    - repeat constructor.
    - destruct x as [n|]; [|constructor]. destruct (Nat.ltb _ _); [destruct dr|].
      + specialize (IH (Data d (k + Nat.min n (length d - k)) :: q')).
        destruct (write_loop i true ws _) as ((q2, t2), e2). constructor; [exact I|exact IH].
      + repeat constructor.
      + specialize (IH q'). destruct (write_loop i dr ws q') as ((q2, t2), e2). constructor; [exact I|exact IH].
  Qed.

  Lemma write_phase_steady e l g l' g' t r : wfq (l_wp l) -> write_phase i e l g = (l', g', t, r) ->
    steady t /\ l_s l' = l_s l /\ l_sinks l' = l_sinks l /\ r <> Some RBug.
  Proof.
    intros W E. destruct (write_phase_spec _ _ _ _ _ _ _ W E) as (Q & _ & NP & _). split; [now apply quiet_steady|].
    unfold write_phase in E. destruct (write_loop i false (e_write e) (l_wp l)) as ((q, t0), w).
    destruct w; try (destruct (wrote t0); [destruct (e_flush e) as [[]|]|]); injection E as <- <- <- <-; auto.
  Qed.
  Lemma drain_phase_steady e l g l' g' t r : wfq (l_wp l) -> drain_phase i e l g = (l', g', t, r) ->
    steady t /\ l_s l' = l_s l /\ l_sinks l' = l_sinks l /\ r <> Some RBug.
  Proof.
    intros W E. destruct (drain_phase_spec _ _ _ _ _ _ _ W E) as (_ & _ & NP & _).
    unfold drain_phase in E.
    set (l0 := match l_drain l with None => set_drain (i_disc i (l_s l)) l | Some _ => l end) in *.
    assert (Q0 : l_s l0 = l_s l /\ l_sinks l0 = l_sinks l) by (unfold l0; destruct (l_drain l); auto).
    destruct Q0 as (Q1 & Q2). clearbody l0. destruct (l_drain l0) as [who|].
    2:{ injection E as <- <- <- <-. split; [intros d; auto|auto]. }
    pose proof (write_loop_quiet true (e_write2 e) (l_wp l0)) as Q. destruct (write_loop i true (e_write2 e) (l_wp l0)) as ((q, t0), w).
    apply quiet_steady in Q.
    destruct w; [destruct (e_flush2 e) as [[]|]; [destruct (e_shut e) as [[]|]; [destruct who; [|destruct (e_slept e); [|destruct (e_drain e) as [[]|]]]| |]| |]| | | |];
      injection E as <- <- <- <-; (split; [first [exact Q|apply steady_app; [exact Q|intros d; cbn; intuition discriminate]]|]); auto.
  Qed.

  Lemma poll_deliver e l g l' t r : wfq (l_wp l) -> J l -> e_ready e <> Some COk -> poll_case e l g l' t r ->
    J l' /\ r <> RBug /\ forall d, ~ List.In (Gone d) t -> pend l d ++ asked_for d t = delivered_to d t ++ pend l' d.
  Proof.
    intros W HJ R C.
    assert (A : forall l1 g1 t1 r1, prod e l g = (l1, g1, t1, r1) -> wfq (l_wp l1) /\ J l1 /\ r1 <> Some RBug /\
      forall d, delivered_to d t1 = [] /\ pend l1 d = pend l d ++ asked_for d t1).
    { intros l1 g1 t1 r1 E. pose proof (prod_preW e l g) as X. rewrite E in X. destruct X as (X1 & X2).
      split; [rewrite X1; now apply wfq_push|]. pose proof (prod_preB e l g R) as Y. rewrite E in Y. destruct HJ as (T & SK).
      destruct (Y T) as (Y1 & Y2 & Y3 & Y4 & Y5 & Y6). split; [split; [exact Y1|rewrite Y3; eauto using incl_tran]|].
      split; [exact Y5|]. intros d. split; [apply Y4|]. unfold waiting_for. rewrite Y3, Y6, app_assoc. reflexivity. }
    assert (P1 : forall a b, l_s a = l_s b -> l_sinks a = l_sinks b -> J b -> J a /\ forall d, pend a d = pend b d).
    { intros a b E1 E2 (H1 & H2). split; [split; rewrite E1, ?E2; assumption|]. intros d. unfold waiting_for. rewrite E1, E2. reflexivity. }
    destruct C as [l1 g1 t1 r E1|l1 g1 t1 l2 g2 t2 r E1 E2|l1 g1 t1 l2 g2 t2 l3 g3 t3 r sent E1 E2 E3
      |l1 g1 t1 l2 g2 t2 l3 g3 t3 sent l4 g4 t4 r E1 E2 E3 E4|l1 g1 t1 l2 g2 t2 l3 g3 t3 sent l4 g4 t4 w E1 E2 E3 E4 Ew];
      destruct (A _ _ _ _ E1) as (W1 & J1 & NP1 & U1).
    - split; [exact J1|]. split; [congruence|]. intros d _. destruct (U1 d) as (V1 & V2). rewrite V1, V2. reflexivity.
    - destruct (write_phase_steady _ _ _ _ _ _ _ W1 E2) as (S2 & L2 & K2 & NP2). destruct (P1 _ _ L2 K2 J1) as (J2 & V3).
      split; [exact J2|]. split; [congruence|]. intros d _. destruct (U1 d) as (V1 & V2), (S2 d) as (V4 & V5 & _).
      rewrite asked_for_app, delivered_app, V1, V4, V5, V3, V2, app_nil_r. reflexivity.
    - destruct (write_phase_steady _ _ _ _ _ _ _ W1 E2) as (S2 & L2 & K2 & NP2). destruct (P1 _ _ L2 K2 J1) as (J2 & V3).
      destruct (broadcast_spec _ _ _ _ _ _ _ _ J2 E3) as (_ & X & _). discriminate X.
    - destruct (write_phase_steady _ _ _ _ _ _ _ W1 E2) as (S2 & L2 & K2 & NP2). destruct (P1 _ _ L2 K2 J1) as (J2 & V3).
      destruct (broadcast_spec _ _ _ _ _ _ _ _ J2 E3) as (J3 & _ & U3).
      destruct (broadcast_noisy _ _ _ _ _ _ _ _ E3) as (_ & WP3 & _).
      destruct (write_phase_spec _ _ _ _ _ _ _ W1 E2) as (_ & _ & _ & N2). destruct (N2 eq_refl) as (W2 & _). rewrite <- WP3 in W2.
      destruct (drain_phase_steady _ _ _ _ _ _ _ W2 E4) as (S4 & L4 & K4 & NP4). destruct (P1 _ _ L4 K4 J3) as (J4 & V6).
      split; [exact J4|]. split; [congruence|]. intros d NG. rewrite !in_app_iff in NG.
      destruct (U1 d) as (V1 & V2), (S2 d) as (V4 & V5 & _), (U3 d) as (V7 & V8), (S4 d) as (V9 & V10 & _).
      rewrite !asked_for_app, !delivered_app, V1, V4, V5, V7, V9, V10, V6, !app_nil_r. cbn [app].
      rewrite <- V2, <- V3. apply V8. tauto.
    - destruct (write_phase_steady _ _ _ _ _ _ _ W1 E2) as (S2 & L2 & K2 & NP2). destruct (P1 _ _ L2 K2 J1) as (J2 & V3).
      destruct (broadcast_spec _ _ _ _ _ _ _ _ J2 E3) as (J3 & _ & U3).
      destruct (broadcast_noisy _ _ _ _ _ _ _ _ E3) as (_ & WP3 & _).
      destruct (write_phase_spec _ _ _ _ _ _ _ W1 E2) as (_ & _ & _ & N2). destruct (N2 eq_refl) as (W2 & _). rewrite <- WP3 in W2.
      destruct (drain_phase_steady _ _ _ _ _ _ _ W2 E4) as (S4 & L4 & K4 & NP4). destruct (P1 _ _ L4 K4 J3) as (J4 & V6).
      split; [exact J4|]. split; [discriminate|]. intros d NG. rewrite !in_app_iff in NG.
      assert (Sw : asked_for d w = [] /\ delivered_to d w = []) by (rewrite Ew; destruct (_ || _); auto). destruct Sw as (Sw1 & Sw2).
      destruct (U1 d) as (V1 & V2), (S2 d) as (V4 & V5 & _), (U3 d) as (V7 & V8), (S4 d) as (V9 & V10 & _).
      rewrite !asked_for_app, !delivered_app, V1, V4, V5, V7, V9, V10, V6, Sw1, Sw2, !app_nil_r. cbn [app].
      rewrite <- V2, <- V3. apply V8. tauto.
  Qed.

  Lemma poll_wfq e l g l' t : wfq (l_wp l) -> poll_case e l g l' t RPending -> wfq (l_wp l').
  Proof. intros W C. destruct (poll_stream _ _ _ _ _ _ W C) as (_ & B & _). now apply B. Qed.

  Lemma life_deliver es : forall l l' t r, wfq (l_wp l) -> J l -> (forall e g, List.In (e, g) es -> e_ready e <> Some COk) ->
    life i es l = (l', t, r) ->
    J l' /\ r <> RBug /\ forall d, ~ List.In (Gone d) t -> pend l d ++ asked_for d t = delivered_to d t ++ pend l' d.
  Proof.
    induction es as [|(e, g) es IH]; intros l l' t r W HJ R E; cbn [life] in E.
    - injection E as <- <- <-. split; [exact HJ|]. split; [discriminate|]. intros d _. cbn. now rewrite app_nil_r.
    - destruct (poll i e l g) as (((l1, g1), t1), x) eqn:EP. apply poll_cases in EP.
      destruct (poll_deliver _ _ _ _ _ _ W HJ (R e g (or_introl eq_refl)) EP) as (J1 & NP & U1). destruct x.
      2,3,4,5: injection E as <- <- <-; auto.
      pose proof (poll_wfq _ _ _ _ _ W EP) as W1. destruct (life i es l1) as ((l2, t2), x2) eqn:EL. injection E as <- <- <-.
      destruct (IH _ _ _ _ W1 J1 (fun a b h => R a b (or_intror h)) EL) as (J2 & NP2 & U2).
      split; [exact J2|]. split; [exact NP2|]. intros d NG. rewrite in_app_iff in NG.
      rewrite asked_for_app, delivered_app, app_assoc, (U1 d), <- app_assoc, (U2 d), app_assoc by tauto. reflexivity.
  Qed.
End Proofs.
