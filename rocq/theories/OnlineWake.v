(** A waiting connection has asked to be woken up. *)
From Coq Require Import List Bool Arith NArith Lia.
From Coq Require Import ZifyBool ZifyNat ZifyN.
From Verif Require Import Base BaseLemmas OnlineModel OnlineSpec OnlineProofs.
Import ListNotations.
Local Open Scope N_scope.

Section Wake.
  Context {P Msg In Err Ctl Act Req Ans S G : Type}.
  Notation iface := (iface P Msg In Err Ctl Act Req Ans S G).
  Notation ev := (ev P Msg Req).
  Notation lst := (lst P Msg Req S).
  Notation env := (env Msg In Err Ctl Ans).
  Notation ph := (ph P Msg Req S G).
  Variable i : iface.

  (** ** Why the first phases return pending *)
  Notation pend := (waiting_for i).
  Lemma held_l (a b : list ev) : held a -> held (a ++ b).
  Proof. unfold held. rewrite !in_app_iff. tauto. Qed.
  Lemma held_r (a b : list ev) : held b -> held (a ++ b).
  Proof. unfold held. rewrite !in_app_iff. tauto. Qed.

  Definition why (x : ph) : Prop := let '(_, _, t, r) := x in r = Some RPending -> held t.
  Lemma why_next x k : why x -> (forall l g, why (k l g)) -> why (next x k).
  Proof.
    destruct x as (((l, g), t), [r|]); intros H K; [exact H|]. cbn [next]. specialize (K l g).
    destruct (k l g) as (((l2, g2), t2), r2). cbn in *. intros E. now apply held_r, K.
  Qed.
  Lemma why_took x : why x -> why (took x).
  Proof. destruct x as (((l, g), t), r). cbn. intros H E. apply (held_r [Took]), H, E. Qed.
  Lemma actions_why now acts : forall l g, why (actions i now l g acts).
  Proof.
    induction acts as [|a r IH]; intros l g; cbn [actions]; [discriminate|].
    destruct (i_action i now a (l_s l) g) as [s' g' out u|s' g' out|]; [|discriminate|discriminate]. apply why_next; [discriminate|apply IH].
  Qed.
  Lemma after_why now l g : why (after i now l g).
  Proof. unfold after. destruct (i_after i now (l_s l)). discriminate. Qed.
  Lemma hook_done_why now r a l g : why (hook_done i now r a l g).
  Proof.
    unfold hook_done. destruct (i_hook i now r a (l_s l) g); try discriminate.
    apply why_next; [discriminate|]. intros. apply why_next; [apply actions_why|]. intros. apply after_why.
  Qed.
  Ltac hl := intros _; unfold held; cbn; tauto.
  Lemma hook_why e l g : why (hook_phase i e l g).
  Proof. unfold hook_phase. destruct (l_hook l); [|discriminate]. destruct (e_hook e); [hl|discriminate|apply hook_done_why]. Qed.
  Lemma take_why e l g : why (take_phase i e l g).
  Proof.
    unfold take_phase. destruct (l_take l) as [[]|]; [| |discriminate].
    - destruct (e_tflush e) as [[]|]; [discriminate|hl|hl].
    - destruct (e_ready e) as [[]|]; [|hl|hl]. destruct (e_start e); [|hl].
      destruct (e_tflush e) as [[]|]; [discriminate|hl|hl].
  Qed.
  Lemma read_why now rs : forall l g, why (read_phase i now rs l g).
  Proof.
    induction rs as [|x rs IH]; intros l g; cbn [read_phase];
      (destruct (i_disc i (l_s l)); [discriminate|]); (destruct (_ || _); [discriminate|]); [discriminate|].
    destruct x as [x h|er]; apply why_took.
    - destruct (i_packet i now x (l_s (set_ru false l)) g) as [s' g' out req| |]; try discriminate.
      apply why_next; [discriminate|]. intros. apply why_next; [|apply IH].
      destruct req; [|apply after_why]. destruct h; [hl|discriminate|]. apply why_next; [discriminate|]. intros. apply hook_done_why.
    - destruct (i_decode_error i er (l_s (set_ru false l))) as [(s', out)|]; [|discriminate]. apply why_next; [discriminate|apply IH].
  Qed.
  Lemma control_why now cs : forall l g, why (control_phase i now cs l g).
  Proof.
    induction cs as [|[c|] cs IH]; intros l g; cbn [control_phase]; try discriminate.
    destruct (i_control i now c (l_s l) g) as (((s', g'), stop), taken).
    destruct taken; [intros _; apply held_r; unfold held; cbn; tauto|]. destruct stop; [discriminate|].
    apply why_next; [discriminate|apply IH].
  Qed.
  Lemma normal_why now ms : forall l g, why (normal_phase i now ms l g).
  Proof.
    induction ms as [|x ms IH]; intros l g; cbn [normal_phase];
      (destruct (i_disc i (l_s l)); [discriminate|]); (destruct (too_much _); [discriminate|]); [discriminate|].
    destruct x as [(from, m)|]; [|discriminate]. apply why_took.
    destruct (i_normal i now from m (l_s (set_nu false l)) g) as ((s', g'), [(q0, po)|]).
    - destruct q0; [apply why_next; [discriminate|apply IH]|].
      destruct (i_pendings i now _) as (s2, more). apply why_next; [discriminate|apply IH].
    - apply why_next; [discriminate|apply IH].
  Qed.
  Lemma prod_why e l g : why (prod i e l g).
  Proof.
    unfold prod. apply why_next; [apply hook_why|]. intros. apply why_next; [apply take_why|]. intros.
    apply why_next; [apply read_why|]. intros. apply why_next; [apply control_why|]. intros. apply normal_why.
  Qed.

  (** ** Writing *)
  Lemma write_phase_wake e l g l' g' t r : wfq (l_wp l) -> write_phase i e l g = (l', g', t, r) ->
    (r = None -> l_wp l' = [] \/ List.In (Waits WWrite) t \/ exists d k q, l_wp l' = Data d k :: q /\ (k < length d)%nat) /\
    (r = None -> l_wp l <> [] -> wrote t = true \/ List.In (Waits WWrite) t) /\ l_ru l' = l_ru l /\ l_nu l' = l_nu l /\ l_drain l' = l_drain l.
  Proof.
    intros W E. unfold write_phase in E. destruct (write_loop i false (e_write e) (l_wp l)) as ((q, t0), w) eqn:EW.
    destruct (write_loop_spec i _ _ _ _ _ _ W EW) as (H1 & H2 & H3 & H4 & H5 & H6 & H7).
    assert (WR : l_wp l <> [] -> w <> WFail -> w <> WBug -> w <> WFull -> wrote t0 = true).
    { intros NE F1 F2 F3. destruct (l_wp l) as [|x q0]; [congruence|]. destruct (e_write e) as [|x0 ws]; cbn [write_loop] in EW;
        destruct (batch i (x :: q0) [] 0) as [((d, k), q')|]; try (injection EW as <- <- <-; congruence);
        destruct (Nat.ltb (length d) k); try (injection EW as <- <- <-; congruence).
      destruct x0 as [n|]; [|injection EW as <- <- <-; congruence]. destruct (Nat.ltb _ _); [injection EW as <- <- <-; reflexivity|].
      destruct (write_loop i false ws q') as ((q2, t2), e2). injection EW as <- <- <-. reflexivity. }
    assert (WF : wrote (t0 ++ [Waits WFlush]) = wrote t0).
    { unfold wrote. rewrite existsb_app. cbn. now rewrite orb_false_r. }
    destruct w; try contradiction;
      [destruct (wrote t0) eqn:EW0; [destruct (e_flush e) as [[]|]|]|destruct (wrote t0) eqn:EW0; [destruct (e_flush e) as [[]|]|]| |];
      injection E as <- <- <- <-; cbn [l_wp set_wp l_ru l_nu l_drain]; rewrite ?WF, ?EW0;
      (split; [intros N; try discriminate N;
               first [left; now apply H5|right; left; now apply H7|destruct (H6 eq_refl) as (_ & X); right; right; exact X]|]);
      (split; [intros N NE; try discriminate N; first [left; reflexivity|right; now apply H7|left; apply WR; congruence]|]); auto.
  Qed.
  Lemma drain_phase_wake e l g l' g' t r : wfq (l_wp l) -> drain_phase i e l g = (l', g', t, r) ->
    (r = None -> l_drain l' = None /\ i_disc i (l_s l') = None) /\
    (r <> None -> l_drain l' <> None) /\ l_ru l' = l_ru l /\
    (r = Some RPending -> l_wp l' = [] \/ List.In (Waits WWrite) t).
  Proof.
    intros W E. unfold drain_phase in E.
    destruct (l_drain l) as [who0|] eqn:ED; [|cbn [l_drain set_drain l_s] in E; destruct (i_disc i (l_s l)) as [who0|] eqn:EI;
      [|injection E as <- <- <- <-; cbn; rewrite EI; repeat split; auto; discriminate]]; try rewrite ED in E; cbn [l_wp set_drain] in E;
    destruct (write_loop i true (e_write2 e) (l_wp l)) as ((q, t0), w) eqn:EW;
    destruct (write_loop_spec i _ _ _ _ _ _ W EW) as (H1 & _ & _ & _ & H5 & H6 & H7);
    (destruct w; [destruct (e_flush2 e) as [[]|]; [destruct (e_shut e) as [[]|]; [destruct who0; [|destruct (e_slept e); [|destruct (e_drain e) as [[]|]]]| |]| |]
      |destruct (H6 eq_refl); discriminate| | |contradiction]);
      injection E as <- <- <- <-; cbn [l_wp set_wp set_sleep l_ru l_drain set_drain]; rewrite ?ED;
      (split; [discriminate|]); (split; [discriminate|]); (split; [reflexivity|]); intros R; try discriminate R;
      first [left; now apply H5|right; now apply H7].
  Qed.

  (** ** Deliveries *)
  Lemma sink_wait d hold cs r t cs' : sink_poll (P := P) (Req := Req) d hold cs = (r, t, cs') -> r = KWait -> List.In (Waits (WChan d)) (t : list ev).
  Proof. destruct hold as [m|]; [destruct cs as [|[] cs]|]; cbn [sink_poll]; intros E; injection E as <- <- <-; try discriminate. intros _. now left. Qed.
  Lemma send_all_wait d ms : forall hold fl cs ss used kp u t, send_all d ms hold fl cs ss used = (kp, u, t) ->
    kp <> None -> List.In (Waits (WChan d)) (t : list ev).
  Proof.
    induction ms as [|m ms IH]; intros hold fl cs ss used kp u t E N; cbn [send_all] in E;
      destruct (sink_poll d hold cs) as ((r, t0), cs') eqn:EP; pose proof (sink_wait _ _ _ _ _ _ EP) as K.
    - destruct r; injection E as <- <- <-; try congruence. now apply K.
    - destruct r; [|injection E as <- <- <-; congruence|injection E as <- <- <-; now apply K].
      destruct (match ss with b :: _ => b | [] => true end); [|injection E as <- <- <-; congruence].
      destruct (send_all d ms (Some m) fl cs' (tl ss) (used + 1)) as ((kp2, u2), t2) eqn:ES. injection E as <- <- <-.
      apply in_app_iff. right. eapply IH; eauto.
  Qed.
  Lemma serve_wait d ms hold fl cs ss kp u t : serve d ms hold fl cs ss = (kp, u, t) -> kp <> None -> List.In (Waits (WChan d)) (t : list ev).
  Proof.
    unfold serve. destruct (_ && _); [|apply send_all_wait].
    destruct (sink_poll d hold cs) as ((r, t0), cs') eqn:EP. pose proof (sink_wait _ _ _ _ _ _ EP) as K.
    intros E N. destruct r; injection E as <- <- <-; try congruence. now apply K.
  Qed.
  Lemma serve_all_wait (e : env) sinks b : forall b' k' u t, serve_all e sinks b = (b', k', u, t) ->
    (forall d, List.In d (keys b') -> List.In (Waits (WChan d)) (t : list ev)) /\
    (u = 0 -> forall d, queue_of b d <> [] -> exists c, List.In (Waits (WChan c)) t).
  Proof.
    induction b as [|(c, ms) b IH]; intros b' k' u t E; cbn [serve_all] in E.
    - injection E as <- <- <- <-. split; [contradiction|]. intros _ d H. elim H. reflexivity.
    - destruct (match aget c sinks with Some x => x | None => (None, true) end) as (hold, fl).
      destruct (serve c ms hold fl (e_chan e c) (e_send e c)) as ((kp, us), t1) eqn:ES.
      destruct (serve_all e sinks b) as (((b2, k2), u2), t2) eqn:EA.
      destruct (IH _ _ _ _ eq_refl) as (I1 & I2). pose proof (serve_wait _ _ _ _ _ _ _ _ _ ES) as SW.
      destruct (serve_spec _ _ _ _ _ _ _ _ _ ES) as (_ & R).
      assert (Q : us = 0 -> ms <> [] -> kp <> None).
      { intros U M ->. destruct R as (R & _). destruct ms; [congruence|]. cbn [length] in R. lia. }
      assert (X : us + u2 = 0 -> forall d, queue_of ((c, ms) :: b) d <> [] -> exists c0, List.In (Waits (WChan c0)) (t1 ++ t2)).
      { intros U d H. unfold queue_of in H. cbn [aget] in H. change (@eqb client_id _ d c) with (N.eqb d c) in H. destruct (N.eqb_spec d c).
        - exists c. apply in_app_iff. left. apply SW, Q; [lia|exact H].
        - destruct (I2 ltac:(lia) d H) as (c0 & H0). exists c0. apply in_app_iff. now right. }
      destruct kp as [((ms', h'), fl')|]; injection E as <- <- <- <-; (split; [|exact X]); intros d H; apply in_app_iff.
      + destruct H as [<-|H]; [left; apply SW; discriminate|right; now apply I1].
      + right. now apply I1.
  Qed.
  Hypothesis WB : well_behaved i.
  Lemma broadcast_wake e l g l' g' t sent : broadcast_phase i e l g = ((l', g', t, None), sent) ->
    (forall d, List.In d (keys (i_bc i (l_s l'))) -> List.In (Waits (WChan d)) t) /\
    (sent = false -> forall d, queue_of (i_bc i (l_s l)) d <> [] -> exists c, List.In (Waits (WChan c)) t) /\
    (exists b n, l_s l' = i_set i b n (l_s l)).
  Proof.
    unfold broadcast_phase. destruct (serve_all e (l_sinks l) (i_bc i (l_s l))) as (((b', k'), used), t0) eqn:EA.
    destruct (serve_all_wait _ _ _ _ _ _ _ EA) as (I1 & I2).
    destruct (negb (_ =? _)); [discriminate|]. destruct (_ <? _); [discriminate|]. intros E. injection E as <- <- <- <-.
    cbn [l_s set_sinks set_s]. rewrite (proj1 (wb_set i WB _ _ _)). split; [exact I1|]. split; [|eauto].
    intros H. apply I2. apply negb_false_iff, N.eqb_eq in H. exact H.
  Qed.

  (** ** Reading *)
  Hypothesis ST : sticky i.
  Hypothesis MX : forall s, 0 < i_max i s.
  Definition busy (l : lst) : Prop := too_much (l_wp l) = true \/ exists d, queue_of (i_bc i (l_s l)) d <> [].
  Definition resting (l : lst) : Prop := i_disc i (l_s l) <> None \/ (l_ru l = true /\ busy l).

  Lemma total_pos (b : list (client_id * list Msg)) : NoDup (keys b) -> 0 < total b -> exists d, queue_of b d <> [].
  Proof.
    induction b as [|(c, ms) b IH]; intros ND H; [cbn in H; lia|]. inversion_clear ND as [|? ? N1 N2].
    cbn [total fold_right snd] in H. fold (total b) in H. destruct ms as [|m ms].
    - destruct (IH N2 ltac:(cbn in H; lia)) as (d & Hd). exists d. unfold queue_of in *. cbn [aget].
      change (@eqb client_id _ d c) with (N.eqb d c). destruct (N.eqb_spec d c) as [->|]; [|exact Hd].
      exfalso. apply Hd. rewrite (proj2 (aget_None_notin c b) N1). reflexivity.
    - exists c. unfold queue_of. cbn [aget]. change (@eqb client_id _ c c) with (N.eqb c c). rewrite N.eqb_refl. discriminate.
  Qed.
  Lemma too_much_push (q : list (wp P)) ps : too_much q = true -> too_much (q ++ map Pkt ps) = true.
  Proof.
    unfold too_much. intros H. apply orb_true_iff in H as [H|H].
    - apply orb_true_iff. left. rewrite app_length. lia.
    - destruct q as [|[] q]; try discriminate. cbn [app]. rewrite H. apply orb_true_r.
  Qed.

  Definition quits (l : lst) (x : ph) : Prop := let '(l', _, t, r) := x in
    tidy i (l_s l) -> r = None -> List.In (Waits WRead) t \/ resting l'.
  Lemma quits_next l x k : preB i l x -> (forall l' g', quits l' (k l' g')) -> quits l (next x k).
  Proof.
    destruct x as (((l1, g1), t1), [r|]); intros B K; [intros _ X; discriminate X|]. cbn [next]. specialize (K l1 g1).
    destruct (k l1 g1) as (((l2, g2), t2), r2). intros T R. destruct (B T) as (T1 & _).
    destruct (K T1 R) as [H|H]; [left; apply in_app_iff; now right|now right].
  Qed.
  Lemma quits_took l x : quits l x -> quits l (took x).
  Proof. destruct x as (((l', g), t), r). cbn. intros H T E. destruct (H T E); auto. Qed.
  Lemma after_preB' now l g : preB i l (after i now l g).
  Proof. apply after_preB, WB. Qed.
  Lemma read_quits now rs : forall l g, quits l (read_phase i now rs l g).
  Proof.
    induction rs as [|x rs IH]; intros l g; cbn [read_phase];
      (destruct (i_disc i (l_s l)) as [w|] eqn:ED; [intros _ _; right; left; congruence|]);
      (destruct (too_much (l_wp l) || (i_max i (l_s l) <=? i_cnt i (l_s l))) eqn:EB;
       [intros T _; right; right; split; [reflexivity|]; apply orb_true_iff in EB as [EB|EB];
          [left; exact EB|right; apply N.leb_le in EB; cbn [l_s set_ru]; destruct T as (T1 & T2);
           pose proof (MX (l_s l)); apply total_pos; [exact T1|]; rewrite T2 in EB; lia]|]).
    - intros _ _. left. now left.
    - destruct x as [x h|er]; apply quits_took.
      + destruct (i_packet i now x (l_s (set_ru false l)) g) as [s' g' out req| |] eqn:E; [|intros _ X; discriminate X|intros _ X; discriminate X].
        apply quits_next.
        { apply preB_step with (map Queued out); [eapply (wb_packet i WB); eauto|reflexivity|apply still_queued|intros; apply asked_queued|discriminate|reflexivity]. }
        intros l1 g1. apply quits_next; [|apply IH].
        destruct req as [r|]; [|apply after_preB'].
        destruct h; [apply preB_id; [reflexivity|reflexivity| |reflexivity|discriminate]|apply preB_id; [reflexivity|reflexivity| |reflexivity|discriminate]|];
          try (intros d; split; [reflexivity|cbn; intuition discriminate]).
        apply preB_next; [apply preB_id; [reflexivity|reflexivity| |reflexivity|discriminate]|intros; apply hook_done_preB, WB].
        intros d; split; [reflexivity|cbn; intuition discriminate].
      + destruct (i_decode_error i er (l_s (set_ru false l))) as [(s', out)|] eqn:E; [|intros _ X; discriminate X].
        apply quits_next; [|apply IH].
        apply preB_step with (map Queued out); [eapply (wb_decode i WB); eauto|reflexivity|apply still_queued|intros; apply asked_queued|discriminate|reflexivity].
  Qed.

  (** Later phases keep the connection resting. *)
  Definition keeps (l : lst) (x : ph) : Prop := let '(l', _, t, r) := x in
    (i_disc i (l_s l) <> None -> i_disc i (l_s l') <> None) /\ l_ru l' = l_ru l.
  Lemma keeps_next l x k : keeps l x -> (forall l' g', keeps l' (k l' g')) -> keeps l (next x k).
  Proof.
    destruct x as (((l1, g1), t1), [r|]); intros H K; [exact H|]. cbn [next]. specialize (K l1 g1).
    destruct (k l1 g1) as (((l2, g2), t2), r2). destruct H, K. split; [auto|congruence].
  Qed.
  Lemma keeps_took l x : keeps l x -> keeps l (took x).
  Proof. destruct x as (((l', g), t), r). auto. Qed.
  Lemma control_keeps now cs : forall l g, keeps l (control_phase i now cs l g).
  Proof.
    induction cs as [|[c|] cs IH]; intros l g; cbn [control_phase]; [split; auto| |split; auto].
    destruct (i_control i now c (l_s l) g) as (((s', g'), stop), taken) eqn:E. pose proof (st_control i ST _ _ _ _ _ _ _ _ E) as W.
    destruct taken; [split; auto|]. destruct stop; [split; auto|]. apply keeps_next; [split; auto|apply IH].
  Qed.
  Lemma normal_keeps now ms : forall l g, keeps l (normal_phase i now ms l g).
  Proof.
    induction ms as [|x ms IH]; intros l g; cbn [normal_phase];
      (destruct (i_disc i (l_s l)) as [w|]; [split; auto|]); (destruct (too_much _); [split; auto|]); [split; auto|].
    destruct x as [(from, m)|]; [|split; auto]. apply keeps_took.
    destruct (i_normal i now from m (l_s (set_nu false l)) g) as ((s', g'), po) eqn:E.
    pose proof (st_normal i ST _ _ _ _ _ _ _ _ E) as W. destruct po as [(q0, po)|].
    - destruct q0; [apply keeps_next; [split; auto|apply IH]|].
      pose proof (st_pendings i ST now s') as W2. cbn [push l_s set_wp set_s].
      destruct (i_pendings i now s') as (s2, more). apply keeps_next; [split; [intros H; apply W2, W, H|reflexivity]|apply IH].
    - apply keeps_next; [split; auto|apply IH].
  Qed.
  Lemma resting_later l x : keeps l x -> preW l x -> preB i l x -> resting l -> tidy i (l_s l) ->
    let '(l', _, _, _) := x in resting l'.
  Proof.
    destruct x as (((l1, g1), t1), r). intros (K1 & K2) (W1 & _) B [R|(R1 & R2)] T; [left; auto|]. right. split; [congruence|].
    destruct (B T) as (_ & _ & _ & _ & _ & Q). destruct R2 as [R2|(d & R2)].
    - left. rewrite W1. now apply too_much_push.
    - right. exists d. rewrite Q. destruct (queue_of (i_bc i (l_s l)) d); [congruence|discriminate].
  Qed.

  Lemma prod_rest e l g l' g' t : e_ready e <> Some COk -> tidy i (l_s l) -> prod i e l g = (l', g', t, None) ->
    List.In (Waits WRead) t \/ resting l'.
  Proof.
    intros RD T E. unfold prod in E.
    pose proof (hook_preB i WB e l g) as B1. destruct (hook_phase i e l g) as (((l1, g1), t1), [r1|]); [discriminate E|]. cbn [next] in E.
    destruct (B1 T) as (T1 & _).
    pose proof (take_preB i e l1 g1 RD) as B2. destruct (take_phase i e l1 g1) as (((l2, g2), t2), [r2|]); [discriminate E|]. cbn [next] in E.
    destruct (B2 T1) as (T2 & _).
    pose proof (read_preB i WB (e_now e) (e_read e) l2 g2) as B3. pose proof (read_quits (e_now e) (e_read e) l2 g2) as Q3.
    destruct (read_phase i (e_now e) (e_read e) l2 g2) as (((l3, g3), t3), [r3|]); [discriminate E|]. cbn [next] in E.
    destruct (B3 T2) as (T3 & _). specialize (Q3 T2 eq_refl).
    pose proof (control_preB i WB (e_now e) (e_ctl e) l3 g3) as B4. pose proof (control_keeps (e_now e) (e_ctl e) l3 g3) as K4.
    pose proof (control_preW i (e_now e) (e_ctl e) l3 g3) as W4.
    destruct (control_phase i (e_now e) (e_ctl e) l3 g3) as (((l4, g4), t4), [r4|]); [discriminate E|]. cbn [next] in E.
    destruct (B4 T3) as (T4 & _). pose proof (fun R => resting_later l3 _ K4 W4 B4 R T3) as Z4. cbn in Z4.
    pose proof (normal_preB i WB (e_now e) (e_norm e) l4 g4) as B5. pose proof (normal_keeps (e_now e) (e_norm e) l4 g4) as K5.
    pose proof (normal_preW i (e_now e) (e_norm e) l4 g4) as W5. pose proof (fun R => resting_later l4 _ K5 W5 B5 R T4) as Z5.
    destruct (normal_phase i (e_now e) (e_norm e) l4 g4) as (((l5, g5), t5), r5). injection E as <- <- <- ->.
    destruct Q3 as [Q3|Q3]; [left; rewrite !in_app_iff; tauto|right; auto].
  Qed.

  (** ** One poll *)
  Lemma poll_read_wake e l g l' t : wfq (l_wp l) -> J i l -> e_ready e <> Some COk -> poll_case i e l g l' t RPending ->
    l_drain l' = None ->
    List.In (Waits WRead) t \/ List.In (Waits WWrite) t \/ (exists d, List.In (Waits (WChan d)) t) \/ held t.
  Proof.
    intros W HJ RD C ND. remember RPending as rr eqn:ER.
    destruct C as [l1 g1 t1 r E1|l1 g1 t1 l2 g2 t2 r E1 E2|l1 g1 t1 l2 g2 t2 l3 g3 t3 r sent E1 E2 E3
      |l1 g1 t1 l2 g2 t2 l3 g3 t3 sent l4 g4 t4 r E1 E2 E3 E4|l1 g1 t1 l2 g2 t2 l3 g3 t3 sent l4 g4 t4 w E1 E2 E3 E4 Ew].
    - subst r. right. right. right. pose proof (prod_why e l g) as Y. rewrite E1 in Y. now apply Y.
    - exfalso. subst r. unfold write_phase in E2. destruct (write_loop i false (e_write e) (l_wp l1)) as ((q, t0), w).
      destruct w; try (destruct (wrote t0); [destruct (e_flush e) as [[]|]|]); discriminate E2.
    - exfalso. subst r. unfold broadcast_phase in E3. destruct (serve_all e (l_sinks l2) (i_bc i (l_s l2))) as (((b', k'), used), t0).
      destruct (negb _); [|destruct (_ <? _)]; discriminate E3.
    - exfalso. pose proof (prod_preW i e l g) as X. rewrite E1 in X. destruct X as (X1 & _).
      assert (W1 : wfq (l_wp l1)) by (rewrite X1; now apply wfq_push).
      destruct (write_phase_spec i _ _ _ _ _ _ _ W1 E2) as (_ & _ & _ & N2). destruct (N2 eq_refl) as (W2 & _).
      destruct (broadcast_noisy i _ _ _ _ _ _ _ _ E3) as (_ & WP3 & _). rewrite <- WP3 in W2.
      destruct (drain_phase_wake _ _ _ _ _ _ _ W2 E4) as (_ & D2 & _). apply D2; [discriminate|exact ND].
    - pose proof (prod_preW i e l g) as X. rewrite E1 in X. destruct X as (X1 & _).
      assert (W1 : wfq (l_wp l1)) by (rewrite X1; now apply wfq_push).
      pose proof (prod_preB i WB e l g RD) as Y. rewrite E1 in Y. destruct HJ as (T & SK). destruct (Y T) as (Y1 & _).
      destruct (prod_rest _ _ _ _ _ _ RD T E1) as [H|H]; [left; rewrite !in_app_iff; tauto|].
      destruct (write_phase_wake _ _ _ _ _ _ _ W1 E2) as (_ & V2 & V3 & V4 & V5).
      destruct (write_phase_steady i _ _ _ _ _ _ _ W1 E2) as (_ & L2 & _).
      destruct (write_phase_spec i _ _ _ _ _ _ _ W1 E2) as (_ & _ & _ & N2). destruct (N2 eq_refl) as (W2 & _).
      destruct (broadcast_noisy i _ _ _ _ _ _ _ _ E3) as (_ & WP3 & DR3 & RU3 & _). rewrite <- WP3 in W2.
      destruct (broadcast_wake _ _ _ _ _ _ _ E3) as (_ & B2 & (b & n & B3)).
      destruct (drain_phase_wake _ _ _ _ _ _ _ W2 E4) as (D1 & _ & D3 & _). destruct (D1 eq_refl) as (_ & D4).
      destruct (drain_phase_steady i _ _ _ _ _ _ _ W2 E4) as (_ & L4 & _).
      destruct H as [H|(H1 & H2)].
      { exfalso. rewrite L4, B3, L2 in D4. now apply (st_set i ST b n) in H. }
      assert (R4 : l_ru l4 = true) by congruence. rewrite R4, orb_true_l, !andb_true_r in Ew. destruct H2 as [H2|(d & H2)].
      + assert (NE : l_wp l1 <> []) by (intros Z; rewrite Z in H2; discriminate H2).
        destruct (V2 eq_refl NE) as [V|V]; [|right; left; rewrite !in_app_iff; tauto].
        right. right. right. right. right. rewrite Ew, V, !in_app_iff. cbn. tauto.
      + destruct sent; [right; right; right; right; right; rewrite Ew, orb_true_r, !in_app_iff; cbn; tauto|].
        rewrite L2 in B2. destruct (B2 eq_refl d H2) as (c & Hc). right. right. left. exists c. rewrite !in_app_iff. tauto.
  Qed.

  Lemma poll_write_wake e l g l' t : wfq (l_wp l) -> poll_case i e l g l' t RPending ->
    l_wp l' = [] \/ List.In (Waits WWrite) t \/ held t \/ exists d k q, l_wp l' = Data d k :: q /\ (k < length d)%nat.
  Proof.
    intros W C. remember RPending as rr eqn:ER.
    destruct C as [l1 g1 t1 r E1|l1 g1 t1 l2 g2 t2 r E1 E2|l1 g1 t1 l2 g2 t2 l3 g3 t3 r sent E1 E2 E3
      |l1 g1 t1 l2 g2 t2 l3 g3 t3 sent l4 g4 t4 r E1 E2 E3 E4|l1 g1 t1 l2 g2 t2 l3 g3 t3 sent l4 g4 t4 w E1 E2 E3 E4 Ew].
    - subst r. right. right. left. pose proof (prod_why e l g) as Y. rewrite E1 in Y. now apply Y.
    - exfalso. subst r. unfold write_phase in E2. destruct (write_loop i false (e_write e) (l_wp l1)) as ((q, t0), w).
      destruct w; try (destruct (wrote t0); [destruct (e_flush e) as [[]|]|]); discriminate E2.
    - exfalso. subst r. unfold broadcast_phase in E3. destruct (serve_all e (l_sinks l2) (i_bc i (l_s l2))) as (((b', k'), used), t0).
      destruct (negb _); [|destruct (_ <? _)]; discriminate E3.
    - pose proof (prod_preW i e l g) as X. rewrite E1 in X. destruct X as (X1 & _).
      assert (W1 : wfq (l_wp l1)) by (rewrite X1; now apply wfq_push).
      destruct (write_phase_spec i _ _ _ _ _ _ _ W1 E2) as (_ & _ & _ & N2). destruct (N2 eq_refl) as (W2 & _).
      destruct (broadcast_noisy i _ _ _ _ _ _ _ _ E3) as (_ & WP3 & _). rewrite <- WP3 in W2.
      destruct (drain_phase_wake _ _ _ _ _ _ _ W2 E4) as (_ & _ & _ & D4). subst r.
      destruct (D4 eq_refl) as [D|D]; [now left|right; left; rewrite !in_app_iff; tauto].
    - pose proof (prod_preW i e l g) as X. rewrite E1 in X. destruct X as (X1 & _).
      assert (W1 : wfq (l_wp l1)) by (rewrite X1; now apply wfq_push).
      destruct (write_phase_wake _ _ _ _ _ _ _ W1 E2) as (V1 & _).
      destruct (write_phase_spec i _ _ _ _ _ _ _ W1 E2) as (_ & _ & _ & N2). destruct (N2 eq_refl) as (W2 & _).
      destruct (broadcast_noisy i _ _ _ _ _ _ _ _ E3) as (_ & WP3 & _). rewrite <- WP3 in W2.
      destruct (drain_phase_spec i _ _ _ _ _ _ _ W2 E4) as (_ & _ & _ & _ & _ & _ & DD).
      destruct (DD eq_refl) as (WP4 & _). rewrite WP4, WP3.
      destruct (V1 eq_refl) as [V|[V|V]]; [now left|right; left; rewrite !in_app_iff; tauto|auto].
  Qed.

  Lemma poll_deliver_wake e l g l' t d : wfq (l_wp l) -> J i l -> e_ready e <> Some COk -> poll_case i e l g l' t RPending ->
    pend l' d <> [] -> List.In (Waits (WChan d)) t \/ held t.
  Proof.
    intros W HJ RD C NE. destruct (poll_deliver i WB _ _ _ _ _ _ W HJ RD C) as (J' & _). remember RPending as rr eqn:ER.
    assert (K : List.In d (keys (i_bc i (l_s l')))).
    { destruct J' as (_ & SK). unfold waiting_for in NE. destruct (in_dec N.eq_dec d (keys (i_bc i (l_s l')))) as [H|H]; [exact H|].
      exfalso. apply NE. assert (H2 : ~ List.In d (keys (l_sinks l'))) by (intros X; apply H, SK, X).
      unfold hold_of, queue_of. rewrite (proj2 (aget_None_notin d _) H), (proj2 (aget_None_notin d _) H2). reflexivity. }
    assert (M : forall l1 g1 t1 l2 g2 t2 l3 g3 t3 sent l4 g4 t4 r4, prod i e l g = (l1, g1, t1, None) -> write_phase i e l1 g1 = (l2, g2, t2, None) ->
      broadcast_phase i e l2 g2 = ((l3, g3, t3, None), sent) -> drain_phase i e l3 g3 = (l4, g4, t4, r4) -> l_s l4 = l_s l' ->
      List.In (Waits (WChan d)) t3).
    { intros l1 g1 t1 l2 g2 t2 l3 g3 t3 sent l4 g4 t4 r4 E1 E2 E3 E4 EQ.
      pose proof (prod_preW i e l g) as X. rewrite E1 in X. destruct X as (X1 & _).
      assert (W1 : wfq (l_wp l1)) by (rewrite X1; now apply wfq_push).
      destruct (write_phase_spec i _ _ _ _ _ _ _ W1 E2) as (_ & _ & _ & N2). destruct (N2 eq_refl) as (W2 & _).
      destruct (broadcast_noisy i _ _ _ _ _ _ _ _ E3) as (_ & WP3 & _). rewrite <- WP3 in W2.
      destruct (drain_phase_steady i _ _ _ _ _ _ _ W2 E4) as (_ & L4 & _).
      destruct (broadcast_wake _ _ _ _ _ _ _ E3) as (B1 & _). apply B1. rewrite <- L4, EQ. exact K. }
    destruct C as [l1 g1 t1 r E1|l1 g1 t1 l2 g2 t2 r E1 E2|l1 g1 t1 l2 g2 t2 l3 g3 t3 r sent E1 E2 E3
      |l1 g1 t1 l2 g2 t2 l3 g3 t3 sent l4 g4 t4 r E1 E2 E3 E4|l1 g1 t1 l2 g2 t2 l3 g3 t3 sent l4 g4 t4 w E1 E2 E3 E4 Ew].
    - subst r. right. pose proof (prod_why e l g) as Y. rewrite E1 in Y. now apply Y.
    - exfalso. subst r. unfold write_phase in E2. destruct (write_loop i false (e_write e) (l_wp l1)) as ((q, t0), w).
      destruct w; try (destruct (wrote t0); [destruct (e_flush e) as [[]|]|]); discriminate E2.
    - exfalso. subst r. unfold broadcast_phase in E3. destruct (serve_all e (l_sinks l2) (i_bc i (l_s l2))) as (((b', k'), used), t0).
      destruct (negb _); [|destruct (_ <? _)]; discriminate E3.
    - left. rewrite !in_app_iff. right. right. left. eapply M; eauto.
    - left. rewrite !in_app_iff. right. right. left. eapply M; eauto.
  Qed.
  (** ** Other clients' messages and control messages *)
  Definition halts (c : Ctl) : Prop := forall n s g, exists s' g' a b, i_control i n c s g = (s', g', a, b) /\ (a = true \/ b = true).
  Lemma control_asks now cs : forall l g l' g' t, control_phase i now cs l g = (l', g', t, None) ->
    List.In (Waits WControl) t /\ forall c, List.In (Some c) cs -> ~ halts c.
  Proof.
    induction cs as [|[c|] cs IH]; intros l g l' g' t; cbn [control_phase]; [intros E; injection E as <- <- <-; split; [now left|intros c []]| |discriminate].
    destruct (i_control i now c (l_s l) g) as (((s', g1), stop), taken) eqn:EC.
    destruct taken; [discriminate|]. destruct stop; [discriminate|]. cbn [next].
    specialize (IH (set_s s' l) g1). destruct (control_phase i now cs (set_s s' l) g1) as (((l2, g2), t2), r2).
    intros E. injection E as <- <- <- ->. destruct (IH _ _ _ eq_refl) as (I1 & I2).
    split; [rewrite in_app_iff; now right|]. intros c' [X|X]; [|now apply I2]. injection X as <-.
    intros H. destruct (H now (l_s l) g) as (s1 & g3 & a & b & H1 & H2). rewrite EC in H1. injection H1 as <- <- <- <-. destruct H2; discriminate.
  Qed.
  Lemma normal_asks now ms : forall l g l' g' t, normal_phase i now ms l g = (l', g', t, None) ->
    List.In (Waits WNormal) t \/ i_disc i (l_s l') <> None \/ (l_nu l' = true /\ l_wp l' <> []).
  Proof.
    assert (TM : forall q : list (wp P), too_much q = true -> q <> []) by (intros q H Z; subst q; discriminate H).
    induction ms as [|x ms IH]; intros l g l' g' t; cbn [normal_phase];
      (destruct (i_disc i (l_s l)) eqn:ED; [intros E; injection E as <- <- <-; right; left; congruence|]);
      (destruct (too_much (l_wp l)) eqn:ET; [intros E; injection E as <- <- <-; right; right; split; [reflexivity|now apply TM]|]).
    { intros E. injection E as <- <- <-. left. now left. }
    destruct x as [(from, m)|]; [|discriminate].
    assert (K : forall l1 g1 t1, took (next (l1, g1, t1, None) (normal_phase i now ms)) = (l', g', t, None) ->
      List.In (Waits WNormal) t \/ i_disc i (l_s l') <> None \/ (l_nu l' = true /\ l_wp l' <> [])).
    { intros l1 g1 t1. cbn [next took]. specialize (IH l1 g1). destruct (normal_phase i now ms l1 g1) as (((l2, g2), t2), r2).
      intros E. injection E as <- <- <- ->. destruct (IH _ _ _ eq_refl) as [I1|I1]; [left; right; rewrite in_app_iff; now right|now right]. }
    destruct (i_normal i now from m (l_s (set_nu false l)) g) as ((s', g1), [(q0, po)|]).
    - destruct q0; [apply K|]. destruct (i_pendings i now _) as (s2, more). apply K.
    - apply K.
  Qed.
  Lemma prod_asks e l g l' g' t : prod i e l g = (l', g', t, None) ->
    List.In (Waits WControl) t /\ (forall c, List.In (Some c) (e_ctl e) -> ~ halts c) /\
    (List.In (Waits WNormal) t \/ i_disc i (l_s l') <> None \/ (l_nu l' = true /\ l_wp l' <> [])).
  Proof.
    intros E. unfold prod in E.
    destruct (hook_phase i e l g) as (((l1, g1), t1), [r1|]); [discriminate E|]. cbn [next] in E.
    destruct (take_phase i e l1 g1) as (((l2, g2), t2), [r2|]); [discriminate E|]. cbn [next] in E.
    destruct (read_phase i (e_now e) (e_read e) l2 g2) as (((l3, g3), t3), [r3|]); [discriminate E|]. cbn [next] in E.
    destruct (control_phase i (e_now e) (e_ctl e) l3 g3) as (((l4, g4), t4), [r4|]) eqn:E4; [discriminate E|]. cbn [next] in E.
    destruct (normal_phase i (e_now e) (e_norm e) l4 g4) as (((l5, g5), t5), r5) eqn:E5. injection E as <- <- <- ->.
    destruct (control_asks _ _ _ _ _ _ _ E4) as (C1 & C2). rewrite !in_app_iff. split; [tauto|]. split; [exact C2|].
    destruct (normal_asks _ _ _ _ _ _ _ E5) as [H|H]; tauto.
  Qed.

  Lemma poll_inbox_wake e l g l' t : wfq (l_wp l) -> poll_case i e l g l' t RPending ->
    (List.In (Waits WControl) t \/ held t) /\ ((exists c, List.In (Some c) (e_ctl e) /\ halts c) -> held t) /\
    (l_drain l' = None -> List.In (Waits WNormal) t \/ List.In (Waits WWrite) t \/ held t).
  Proof.
    intros W C. remember RPending as rr eqn:ER.
    destruct C as [l1 g1 t1 r E1|l1 g1 t1 l2 g2 t2 r E1 E2|l1 g1 t1 l2 g2 t2 l3 g3 t3 r sent E1 E2 E3
      |l1 g1 t1 l2 g2 t2 l3 g3 t3 sent l4 g4 t4 r E1 E2 E3 E4|l1 g1 t1 l2 g2 t2 l3 g3 t3 sent l4 g4 t4 w E1 E2 E3 E4 Ew].
    - subst r. pose proof (prod_why e l g) as Y. rewrite E1 in Y. specialize (Y eq_refl). auto.
    - exfalso. subst r. unfold write_phase in E2. destruct (write_loop i false (e_write e) (l_wp l1)) as ((q, t0), w).
      destruct w; try (destruct (wrote t0); [destruct (e_flush e) as [[]|]|]); discriminate E2.
    - exfalso. subst r. unfold broadcast_phase in E3. destruct (serve_all e (l_sinks l2) (i_bc i (l_s l2))) as (((b', k'), used), t0).
      destruct (negb _); [|destruct (_ <? _)]; discriminate E3.
    - destruct (prod_asks _ _ _ _ _ _ E1) as (A1 & A2 & _).
      split; [left; rewrite !in_app_iff; tauto|]. split; [intros (c & H1 & H2); now destruct (A2 c H1)|]. intros ND. exfalso.
      pose proof (prod_preW i e l g) as X. rewrite E1 in X. destruct X as (X1 & _).
      assert (W1 : wfq (l_wp l1)) by (rewrite X1; now apply wfq_push).
      destruct (write_phase_spec i _ _ _ _ _ _ _ W1 E2) as (_ & _ & _ & N2). destruct (N2 eq_refl) as (W2 & _).
      destruct (broadcast_noisy i _ _ _ _ _ _ _ _ E3) as (_ & WP3 & _). rewrite <- WP3 in W2.
      destruct (drain_phase_wake _ _ _ _ _ _ _ W2 E4) as (_ & D2 & _). apply D2; [discriminate|exact ND].
    - destruct (prod_asks _ _ _ _ _ _ E1) as (A1 & A2 & A3).
      split; [left; rewrite !in_app_iff; tauto|]. split; [intros (c & H1 & H2); now destruct (A2 c H1)|]. intros _.
      pose proof (prod_preW i e l g) as X. rewrite E1 in X. destruct X as (X1 & _).
      assert (W1 : wfq (l_wp l1)) by (rewrite X1; now apply wfq_push).
      destruct (write_phase_wake _ _ _ _ _ _ _ W1 E2) as (_ & V2 & V3 & V4 & V5).
      destruct (write_phase_steady i _ _ _ _ _ _ _ W1 E2) as (_ & L2 & _).
      destruct (write_phase_spec i _ _ _ _ _ _ _ W1 E2) as (_ & _ & _ & N2). destruct (N2 eq_refl) as (W2 & _).
      destruct (broadcast_noisy i _ _ _ _ _ _ _ _ E3) as (_ & WP3 & DR3 & RU3 & NU3). rewrite <- WP3 in W2.
      destruct (broadcast_wake _ _ _ _ _ _ _ E3) as (_ & B2 & (b & n & B3)).
      destruct (drain_phase_wake _ _ _ _ _ _ _ W2 E4) as (D1 & _ & D3 & _). destruct (D1 eq_refl) as (_ & D4).
      destruct (drain_phase_steady i _ _ _ _ _ _ _ W2 E4) as (_ & L4 & _).
      destruct A3 as [A3|[A3|(A3 & A4)]]; [left; rewrite !in_app_iff; tauto| |].
      { exfalso. rewrite L4, B3, L2 in D4. now apply (st_set i ST b n) in A3. }
      right. destruct (V2 eq_refl A4) as [V|V]; [right|left; rewrite !in_app_iff; tauto].
      assert (R4 : l_nu l4 = true).
      { assert (Z : l_nu l4 = l_nu l3); [|congruence]. clear - E4. unfold drain_phase in E4.
        destruct (l_drain l3) as [d|] eqn:EL; cbn [l_drain set_drain l_s] in E4; [rewrite EL in E4|destruct (i_disc i (l_s l3)) as [d|]; [|injection E4 as <- _ _; reflexivity]];
          exfalso; destruct (write_loop i true (e_write2 e) _) as ((q, t0), w) in E4;
          (destruct w; try discriminate E4; destruct (e_flush2 e) as [[]|]; try discriminate E4; destruct (e_shut e) as [[]|]; try discriminate E4;
           destruct d; try discriminate E4; destruct (e_slept e); try discriminate E4; destruct (e_drain e) as [[]|]; discriminate E4). }
      rewrite R4, orb_true_r, andb_true_r, V in Ew. unfold held. right. right. rewrite Ew, !in_app_iff. cbn. tauto.
  Qed.
End Wake.
