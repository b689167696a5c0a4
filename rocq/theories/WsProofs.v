From Coq Require Import List Bool Arith Lia.
From Verif Require Import WsModel WsSpec.
Import ListNotations.

Section Proofs.
  Context {byte : Type}.
  Notation ws := (ws byte).
  Notation wsev := (wsev byte).
  Notation wsmsg := (wsmsg byte).
  Notation wsout := (wsout byte).

  (** ** Traces *)
  Lemma bytes_read_app (a b : list wsev) : bytes_read (a ++ b) = bytes_read a ++ bytes_read b.
  Proof. apply flat_map_app. Qed.
  Lemma payload_app (a b : list wsmsg) : payload (a ++ b) = payload a ++ payload b.
  Proof. apply flat_map_app. Qed.
  Lemma pings_app (a b : list wsmsg) : pings (a ++ b) = pings a ++ pings b.
  Proof. apply flat_map_app. Qed.
  Lemma pongs_app (a b : list wsev) : pongs (a ++ b) = pongs a ++ pongs b.
  Proof. apply flat_map_app. Qed.
  Lemma bins_app (a b : list wsev) : bins_sent (a ++ b) = bins_sent a ++ bins_sent b.
  Proof. apply flat_map_app. Qed.
  Lemma accepted_app (a b : list wsev) : accepted (a ++ b) = accepted a ++ accepted b.
  Proof. apply flat_map_app. Qed.
  Lemma bytes_sent (o : list wsout) : bytes_read (map EvSent o) = [].
  Proof. induction o; [reflexivity|exact IHo]. Qed.
  Lemma accepted_sent (o : list wsout) : accepted (map EvSent o) = [].
  Proof. induction o; [reflexivity|exact IHo]. Qed.
  Lemma skipn_add {A} (a b : nat) : forall l : list A, skipn a (skipn b l) = skipn (b + a) l.
  Proof. induction b; intros l; [reflexivity|]. destruct l; cbn; [now destruct a|apply IHb]. Qed.
  Lemma opt_len {A} (l : list A) : firstn (length l) l = l.
  Proof. apply firstn_all. Qed.

  Definition good (w : ws) : Prop := w_idx w <= length (w_data w).

  Lemma send_pong_data r (w : ws) w' o e : send_pong r w = (w', o, e) -> w_data w' = w_data w /\ w_idx w' = w_idx w.
  Proof. unfold send_pong. destruct (w_pong w); [destruct r|]; intros E; injection E as <- <- <-; auto. Qed.
  Lemma copy_spec n (w : ws) w' b : good w -> copy n w = (w', b) ->
    good w' /\ unread w = b ++ unread w' /\ w_pong w' = w_pong w /\ (0 < n -> unread w <> [] -> b <> []).
  Proof.
    unfold good, copy, unread. intros G E. injection E as <- <-. cbn. set (k := Nat.min _ n).
    assert (K : k <= length (w_data w) - w_idx w) by (apply Nat.le_min_l). split; [lia|]. split; [|split; [reflexivity|]].
    - rewrite <- (firstn_skipn k (skipn (w_idx w) (w_data w))) at 1. f_equal. rewrite skipn_add. reflexivity.
    - intros N H F. apply (f_equal (@length _)) in F. rewrite firstn_length, skipn_length in F. cbn in F.
      apply H. apply length_zero_iff_nil. rewrite skipn_length. unfold k in *. lia.
  Qed.

  Lemma read_loop_spec n : forall avail rs ms (w : ws) w' ms' o r, good w -> unread w = [] -> read_loop n avail rs ms w = (w', ms', o, r) ->
    exists used, ms = used ++ ms' /\ good w' /\ payload used = bytes_read [EvRead r] ++ unread w' /\
      (r = REof -> unread w' = [] /\ (ms' = [] \/ exists u, used = u ++ [MClose])) /\ (0 < n -> r <> RBytes []) /\
      (r = RErr -> (exists u m, used = u ++ [m] /\ (m = MErr \/ m = MFrame \/ (exists d, m = MPong d \/ m = MText d \/ m = MPing d)))).
  Proof.
    induction avail as [|avail IH]; intros rs ms w w' ms' o r G U E; cbn [read_loop] in E.
    - injection E as <- <- <- <-. exists []. cbn. rewrite U. split; [reflexivity|]. split; [exact G|]. repeat split; try discriminate.
    - destruct ms as [|m ms].
      + injection E as <- <- <- <-. exists []. cbn. rewrite U. split; [reflexivity|]. split; [exact G|]. repeat split; auto; discriminate.
      + assert (BAD : m = MErr \/ m = MFrame \/ (exists d, m = MPong d \/ m = MText d \/ m = MPing d) -> (w, ms, [], RErr) = (w', ms', o, r) ->
          exists used, m :: ms = used ++ ms' /\ good w' /\ payload used = bytes_read [EvRead r] ++ unread w' /\
          (r = REof -> unread w' = [] /\ (ms' = [] \/ exists u, used = u ++ [MClose])) /\ (0 < n -> r <> RBytes []) /\
          (r = RErr -> (exists u m, used = u ++ [m] /\ (m = MErr \/ m = MFrame \/ (exists d, m = MPong d \/ m = MText d \/ m = MPing d))))).
        { intros B X. injection X as <- <- <- <-. exists [m]. split; [reflexivity|]. split; [exact G|]. split.
          - cbn. rewrite U. destruct B as [->|[->|(d & [->|[->| ->]])]]; reflexivity.
          - repeat split; try discriminate. exists [], m. split; [reflexivity|exact B]. }
        assert (NEXT : forall used w1 ms1 o1 r1, payload [m] = [] ->
            ms = used ++ ms1 /\ good w1 /\ payload used = bytes_read [EvRead r1] ++ unread w1 /\
            (r1 = REof -> unread w1 = [] /\ (ms1 = [] \/ exists u, used = u ++ [MClose])) /\ (0 < n -> r1 <> RBytes []) /\
            (r1 = RErr -> (exists u m, used = u ++ [m] /\ (m = MErr \/ m = MFrame \/ (exists d, m = MPong d \/ m = MText d \/ m = MPing d)))) ->
            w1 = w' -> ms1 = ms' -> o1 = o -> r1 = r ->
          exists used, m :: ms = used ++ ms' /\ good w' /\ payload used = bytes_read [EvRead r] ++ unread w' /\
          (r = REof -> unread w' = [] /\ (ms' = [] \/ exists u, used = u ++ [MClose])) /\ (0 < n -> r <> RBytes []) /\
          (r = RErr -> (exists u m, used = u ++ [m] /\ (m = MErr \/ m = MFrame \/ (exists d, m = MPong d \/ m = MText d \/ m = MPing d))))).
        { intros used w1 ms1 o1 r1 PE (A1 & A2 & A3 & A4 & A5 & A6) -> -> -> ->. exists (m :: used). split; [now rewrite A1|]. split; [exact A2|].
          split; [change (m :: used) with ([m] ++ used); rewrite payload_app, PE; exact A3|]. split.
          - intros H. destruct (A4 H) as (B1 & B2). split; [exact B1|]. destruct B2 as [B2|(u & ->)]; [now left|right; now exists (m :: u)].
          - split; [exact A5|]. intros H. destruct (A6 H) as (u & x & -> & B2). exists (m :: u), x. now split. }
        destruct m as [b| |d|d|d| |].
        * destruct b as [|b0 b].
          -- destruct (IH _ _ _ _ _ _ _ G U E) as (used & H). eapply (NEXT used w' ms' o r); auto.
          -- destruct (copy n (with_data (b0 :: b) 0 w)) as (w2, out) eqn:EC. injection E as <- <- <- <-.
             destruct (copy_spec n (with_data (b0 :: b) 0 w) _ _ (Nat.le_0_l _) EC) as (C1 & C2 & C3 & C4). exists [MBin (b0 :: b)]. split; [reflexivity|]. split; [exact C1|].
             split; [cbn [payload flat_map bytes_read]; rewrite !app_nil_r; exact C2|]. split; [discriminate|]. split; [|discriminate].
             intros N H. injection H as H. revert H. apply C4; [exact N|discriminate].
        * injection E as <- <- <- <-. exists [MClose]. split; [reflexivity|]. split; [exact G|]. split; [cbn; now rewrite U|].
          split; [intros _; split; [exact U|right; now exists []]|]. split; discriminate.
        * destruct (send_pong (hd SNotReady rs) (with_pong (Some d) w)) as ((w1, o1), e) eqn:ES.
          destruct (send_pong_data _ _ _ _ _ ES) as (D1 & D2). cbn in D1, D2.
          assert (G1 : good w1) by (unfold good; rewrite D1, D2; exact G).
          assert (U1 : unread w1 = []) by (unfold unread; rewrite D1, D2; exact U).
          destruct e.
          -- injection E as <- <- <- <-. exists [MPing d]. split; [reflexivity|]. split; [exact G1|]. split; [cbn; now rewrite U1|].
             repeat split; try discriminate. exists [], (MPing d). split; [reflexivity|]. right. right. exists d. auto.
          -- destruct (read_loop n avail (tl rs) ms w1) as (((w2, ms2), o2), r2) eqn:EL. injection E as <- <- <- <-.
             destruct (IH _ _ _ _ _ _ _ G1 U1 EL) as (used & H). eapply (NEXT used w2 ms2 (o1 ++ o2) r2); auto.
        * apply BAD; [right; right; exists d; auto|exact E].
        * apply BAD; [right; right; exists d; auto|exact E].
        * apply BAD; [auto|exact E].
        * apply BAD; [auto|exact E].
  Qed.

  Lemma poll_read_spec n avail rs ms (w : ws) w' ms' o r : good w -> poll_read n avail rs ms w = (w', ms', o, r) ->
    exists used, ms = used ++ ms' /\ good w' /\ unread w ++ payload used = bytes_read [EvRead r] ++ unread w' /\
      (r = REof -> unread w' = [] /\ (ms' = [] \/ exists u, used = u ++ [MClose])) /\ (0 < n -> r <> RBytes []).
  Proof.
    intros G. unfold poll_read.
    set (X := if w_closed w then (w, [], false) else send_pong (hd SNotReady rs) w).
    destruct X as ((w1, o1), e) eqn:EX.
    assert (D : w_data w1 = w_data w /\ w_idx w1 = w_idx w).
    { unfold X in EX. destruct (w_closed w); [injection EX as <- <- <-; auto|eapply send_pong_data; eauto]. }
    destruct D as (D1 & D2). assert (G1 : good w1) by (unfold good; rewrite D1, D2; exact G).
    assert (UE : unread w1 = unread w) by (unfold unread; now rewrite D1, D2).
    destruct e; [intros E; injection E as <- <- <- <-; exists []; cbn; rewrite UE, app_nil_r; repeat split; auto; discriminate|].
    destruct (Nat.ltb_spec (w_idx w1) (length (w_data w1))) as [L|L].
    - destruct (copy n w1) as (w2, out) eqn:EC. intros E. injection E as <- <- <- <-. destruct (copy_spec n _ _ _ G1 EC) as (C1 & C2 & C3 & C4).
      exists []. split; [reflexivity|]. split; [exact C1|]. cbn. rewrite !app_nil_r, <- UE. split; [exact C2|]. split; [discriminate|].
      intros N H. injection H as H. revert H. apply C4; [exact N|]. unfold unread. intros H. apply (f_equal (@length _)) in H.
      rewrite skipn_length in H. cbn in H. lia.
    - assert (U1 : unread w1 = []) by (unfold unread; now apply skipn_all2).
      destruct (read_loop n avail (tl rs) ms w1) as (((w2, ms2), o2), r2) eqn:EL. intros E. injection E as <- <- <- <-.
      destruct (read_loop_spec _ _ _ _ _ _ _ _ _ G1 U1 EL) as (used & A1 & A2 & A3 & A4 & A5 & _). exists used.
      rewrite <- UE, U1. auto.
  Qed.

  Lemma poll_write_data b r1 r2 (w : ws) w' o x : poll_write b r1 r2 w = (w', o, x) -> w_data w' = w_data w /\ w_idx w' = w_idx w.
  Proof.
    unfold poll_write. set (X := if w_closed w then (w, [], false) else send_pong r1 w). destruct X as ((w1, o1), e) eqn:EX.
    assert (D : w_data w1 = w_data w /\ w_idx w1 = w_idx w).
    { unfold X in EX. destruct (w_closed w); [injection EX as <- <- <-; auto|eapply send_pong_data; eauto]. }
    destruct e; [intros E; injection E as <- <- <-; exact D|]. destruct r2; intros E; injection E as <- <- <-; exact D.
  Qed.

  Lemma run_bytes ops : forall ms (w : ws) w' ms' t, good w -> run ops ms w = (w', ms', t) ->
    exists used, ms = used ++ ms' /\ good w' /\ unread w ++ payload used = bytes_read t ++ unread w'.
  Proof.
    induction ops as [|[n avail rs|b r1 r2|r cl] ops IH]; intros ms w w' ms' t G E; cbn [run] in E.
    - injection E as <- <- <-. exists []. cbn. rewrite app_nil_r. auto.
    - destruct (poll_read n avail rs ms w) as (((w1, ms1), o), x) eqn:ER. destruct (run ops ms1 w1) as ((w2, ms2), t2) eqn:EO.
      injection E as <- <- <-. destruct (poll_read_spec _ _ _ _ _ _ _ _ _ G ER) as (u1 & A1 & A2 & A3 & _).
      destruct (IH _ _ _ _ _ A2 EO) as (u2 & B1 & B2 & B3). exists (u1 ++ u2). split; [rewrite A1, B1; now rewrite app_assoc|]. split; [exact B2|].
      rewrite payload_app, app_assoc, A3, bytes_read_app, bytes_sent. change (EvRead x :: t2) with ([EvRead x] ++ t2). rewrite bytes_read_app.
      rewrite <- !app_assoc, B3. reflexivity.
    - destruct (poll_write b r1 r2 w) as ((w1, o), x) eqn:EW. destruct (run ops ms w1) as ((w2, ms2), t2) eqn:EO.
      injection E as <- <- <-. destruct (poll_write_data _ _ _ _ _ _ _ EW) as (D1 & D2).
      assert (G1 : good w1) by (unfold good; rewrite D1, D2; exact G). destruct (IH _ _ _ _ _ G1 EO) as (u2 & B1 & B2 & B3).
      exists u2. split; [exact B1|]. split; [exact B2|]. rewrite bytes_read_app, bytes_sent. cbn [app]. unfold unread in *. rewrite D1, D2 in B3. exact B3.
    - destruct (poll_shutdown r cl w) as ((w1, o), x) eqn:EW. destruct (run ops ms w1) as ((w2, ms2), t2) eqn:EO.
      injection E as <- <- <-. assert (D : w_data w1 = w_data w /\ w_idx w1 = w_idx w).
      { unfold poll_shutdown in EW. destruct (w_closed w); [|destruct r]; injection EW as <- <- <-; auto. }
      destruct D as (D1 & D2). assert (G1 : good w1) by (unfold good; rewrite D1, D2; exact G). destruct (IH _ _ _ _ _ G1 EO) as (u2 & B1 & B2 & B3).
      exists u2. split; [exact B1|]. split; [exact B2|]. rewrite bytes_read_app, bytes_sent. cbn [app]. unfold unread in *. rewrite D1, D2 in B3. exact B3.
  Qed.

  (** ** Writing *)
  Lemma send_pong_bins r (w : ws) w' o e : send_pong r w = (w', o, e) -> bins_sent (map EvSent o) = [].
  Proof. unfold send_pong. destruct (w_pong w); [destruct r|]; intros E; injection E as <- <- <-; reflexivity. Qed.
  Lemma read_loop_bins n : forall avail rs ms (w : ws) w' ms' o r, read_loop n avail rs ms w = (w', ms', o, r) -> bins_sent (map EvSent o) = [].
  Proof.
    induction avail as [|avail IH]; intros rs ms w w' ms' o r E; cbn [read_loop] in E; [now injection E as <- <- <- <-|].
    destruct ms as [|m ms]; [now injection E as <- <- <- <-|]. destruct m as [b| |d|d|d| |]; try (now injection E as <- <- <- <-).
    - destruct b as [|b0 b]; [eapply IH; eauto|]. destruct (copy n _) as (w2, out). now injection E as <- <- <- <-.
    - destruct (send_pong (hd SNotReady rs) (with_pong (Some d) w)) as ((w1, o1), e) eqn:ES. apply send_pong_bins in ES. destruct e; [now injection E as <- <- <- <-|].
      destruct (read_loop n avail (tl rs) ms w1) as (((w2, ms2), o2), r2) eqn:EL. injection E as <- <- <- <-.
      rewrite map_app, bins_app, ES, (IH _ _ _ _ _ _ _ EL). reflexivity.
  Qed.
  Lemma poll_read_bins n avail rs ms (w : ws) w' ms' o r : poll_read n avail rs ms w = (w', ms', o, r) -> bins_sent (map EvSent o) = [].
  Proof.
    unfold poll_read. set (X := if w_closed w then (w, [], false) else send_pong (hd SNotReady rs) w).
    destruct X as ((w1, o1), e) eqn:EX.
    assert (D : bins_sent (map EvSent o1) = []).
    { unfold X in EX. destruct (w_closed w); [now injection EX as <- <- <-|eapply send_pong_bins; eauto]. }
    destruct e; [intros E; injection E as <- <- <- <-; exact D|]. destruct (Nat.ltb _ _).
    - destruct (copy n w1). intros E; injection E as <- <- <- <-; exact D.
    - destruct (read_loop n avail (tl rs) ms w1) as (((w2, ms2), o2), r2) eqn:EL. intros E. injection E as <- <- <- <-.
      rewrite map_app, bins_app, D, (read_loop_bins _ _ _ _ _ _ _ _ _ EL). reflexivity.
  Qed.
  Lemma run_writes ops : forall ms (w : ws) w' ms' t, run ops ms w = (w', ms', t) -> ~ failed t -> bins_sent t = accepted t.
  Proof.
    induction ops as [|[n avail rs|b r1 r2|r cl] ops IH]; intros ms w w' ms' t E NF; cbn [run] in E.
    - now injection E as <- <- <-.
    - destruct (poll_read n avail rs ms w) as (((w1, ms1), o), x) eqn:ER. destruct (run ops ms1 w1) as ((w2, ms2), t2) eqn:EO.
      injection E as <- <- <-. rewrite bins_app, accepted_app, accepted_sent, (poll_read_bins _ _ _ _ _ _ _ _ _ ER).
      cbn. eapply IH; [exact EO|]. intros (b & H). apply NF. exists b. apply in_app_iff. right. now right.
    - destruct (poll_write b r1 r2 w) as ((w1, o), x) eqn:EW. destruct (run ops ms w1) as ((w2, ms2), t2) eqn:EO.
      injection E as <- <- <-. assert (T2 : bins_sent t2 = accepted t2).
      { eapply IH; [exact EO|]. intros (b' & H). apply NF. exists b'. apply in_app_iff. right. now right. }
      assert (W : x <> WErr). { intros ->. apply NF. exists b. apply in_app_iff. right. now left. }
      rewrite bins_app, accepted_app, accepted_sent. change (EvWrite b x :: t2) with ([EvWrite b x] ++ t2). rewrite bins_app, accepted_app, T2.
      assert (B : bins_sent (map EvSent o) = accepted [EvWrite b x]); [|rewrite B; reflexivity].
      unfold poll_write in EW. set (X := if w_closed w then (w, [], false) else send_pong r1 w) in *. destruct X as ((w1', o1), e) eqn:EX.
      assert (D : bins_sent (map EvSent o1) = []).
      { unfold X in EX. destruct (w_closed w); [now injection EX as <- <- <-|eapply send_pong_bins; eauto]. }
      destruct e; [injection EW as <- <- <-; now destruct W|]. destruct r2; injection EW as <- <- <-; try (now destruct W).
      + exact D.
      + rewrite map_app, bins_app, D. cbn. now rewrite firstn_all.
    - destruct (poll_shutdown r cl w) as ((w1, o), x) eqn:EW. destruct (run ops ms w1) as ((w2, ms2), t2) eqn:EO.
      injection E as <- <- <-. rewrite bins_app, accepted_app, accepted_sent.
      assert (D : bins_sent (map EvSent o) = []).
      { unfold poll_shutdown in EW. destruct (w_closed w); [|destruct r]; injection EW as <- <- <-; reflexivity. }
      rewrite D. cbn. eapply IH; [exact EO|]. intros (b & H). apply NF. exists b. apply in_app_iff. right. now right.
  Qed.

  (** ** Pongs *)
  Definition pend (w : ws) : list (list byte) := match w_pong w with Some d => [d] | None => [] end.
  Lemma subseq_refl {A} (l : list A) : subseq l l.
  Proof. induction l; constructor; auto. Qed.
  Lemma subseq_nil {A} (l : list A) : subseq [] l.
  Proof. induction l; constructor; auto. Qed.
  Lemma subseq_app {A} (a b c d : list A) : subseq a b -> subseq c d -> subseq (a ++ c) (b ++ d).
  Proof. intros H K. induction H; cbn; [exact K|constructor; auto|constructor; auto]. Qed.
  Lemma subseq_trans {A} (a b c : list A) : subseq a b -> subseq b c -> subseq a c.
  Proof.
    intros H K. revert a H. induction K; intros a' H; [exact H| |].
    - inversion H; subst; [constructor; auto|apply sub_skip; auto].
    - apply sub_skip. auto.
  Qed.
  Lemma subseq_skipl {A} (a b c : list A) : subseq a c -> subseq a (b ++ c).
  Proof. intros H. induction b; cbn; [exact H|constructor; auto]. Qed.

  Lemma send_pong_pend r (w : ws) w' o e : send_pong r w = (w', o, e) -> subseq (pongs (map EvSent o) ++ pend w') (pend w).
  Proof.
    unfold send_pong. destruct (w_pong w) eqn:EP; [destruct r|]; intros E; injection E as <- <- <-; unfold pend; cbn; rewrite ?EP;
      try apply subseq_refl; try apply subseq_nil.
  Qed.
  Lemma maybe_pong_pend b r (w : ws) w' o e : (if b : bool then (w, [], false) else send_pong r w) = (w', o, e) -> subseq (pongs (map EvSent o) ++ pend w') (pend w).
  Proof. destruct b; [intros E; injection E as <- <- <-; apply subseq_refl|apply send_pong_pend]. Qed.
  Lemma copy_pend n (w : ws) : pend (fst (copy n w)) = pend w.
  Proof. reflexivity. Qed.
  Lemma read_loop_pend n : forall avail rs ms (w : ws) w' ms' o r, read_loop n avail rs ms w = (w', ms', o, r) ->
    exists used, ms = used ++ ms' /\ subseq (pongs (map EvSent o) ++ pend w') (pend w ++ pings used).
  Proof.
    induction avail as [|avail IH]; intros rs ms w w' ms' o r E; cbn [read_loop] in E.
    { injection E as <- <- <- <-. exists []. split; [reflexivity|]. cbn. rewrite app_nil_r. apply subseq_refl. }
    destruct ms as [|m ms]. { injection E as <- <- <- <-. exists []. split; [reflexivity|]. cbn. rewrite app_nil_r. apply subseq_refl. }
    assert (ONE : pings [m] = [] -> (w, ms, ([] : list wsout)) = (w', ms', o) -> exists used, m :: ms = used ++ ms' /\ subseq (pongs (map EvSent o) ++ pend w') (pend w ++ pings used)).
    { intros P X. injection X as <- <- <-. exists [m]. rewrite P. split; [reflexivity|]. rewrite app_nil_r. apply subseq_refl. }
    destruct m as [b| |d|d|d| |]; try (apply ONE; [reflexivity|now injection E as <- <- <- <-]).
    - destruct b as [|b0 b].
      + destruct (IH _ _ _ _ _ _ _ E) as (u & -> & H). now exists (MBin [] :: u).
      + destruct (copy n _) as (w2, out) eqn:EC. injection E as <- <- <- <-. exists [MBin (b0 :: b)]. split; [reflexivity|].
        cbn. rewrite app_nil_r. pose proof (copy_pend n (with_data (b0 :: b) 0 w)) as X. rewrite EC in X. cbn in X. rewrite X. apply subseq_refl.
    - destruct (send_pong (hd SNotReady rs) (with_pong (Some d) w)) as ((w1, o1), e) eqn:ES. apply send_pong_pend in ES.
      unfold pend at 2 in ES. cbn [with_pong w_pong] in ES. destruct e.
      + injection E as <- <- <- <-. exists [MPing d]. split; [reflexivity|]. cbn [pings flat_map]. rewrite app_nil_r. apply subseq_skipl. exact ES.
      + destruct (read_loop n avail (tl rs) ms w1) as (((w2, ms2), o2), r2) eqn:EL. injection E as <- <- <- <-.
        destruct (IH _ _ _ _ _ _ _ EL) as (u & -> & H). exists (MPing d :: u). split; [reflexivity|].
        rewrite map_app, pongs_app, <- app_assoc. apply subseq_skipl. change (pings (MPing d :: u)) with ([d] ++ pings u).
        eapply subseq_trans; [apply subseq_app; [apply subseq_refl|exact H]|]. rewrite app_assoc. apply subseq_app; [exact ES|apply subseq_refl].
  Qed.
  Lemma poll_read_pend n avail rs ms (w : ws) w' ms' o r : poll_read n avail rs ms w = (w', ms', o, r) ->
    exists used, ms = used ++ ms' /\ subseq (pongs (map EvSent o) ++ pend w') (pend w ++ pings used).
  Proof.
    unfold poll_read. destruct (if w_closed w then (w, [], false) else send_pong (hd SNotReady rs) w) as ((w1, o1), e) eqn:EX. apply maybe_pong_pend in EX.
    destruct e; [intros E; injection E as <- <- <- <-; exists []; split; [reflexivity|]; cbn [pings flat_map]; rewrite app_nil_r; exact EX|].
    destruct (Nat.ltb _ _).
    - destruct (copy n w1) as (w2, out) eqn:EC. intros E; injection E as <- <- <- <-. exists []. split; [reflexivity|]. cbn [pings flat_map]. rewrite app_nil_r.
      pose proof (copy_pend n w1) as X. rewrite EC in X. cbn [fst] in X. now rewrite X.
    - destruct (read_loop n avail (tl rs) ms w1) as (((w2, ms2), o2), r2) eqn:EL. intros E. injection E as <- <- <- <-.
      destruct (read_loop_pend _ _ _ _ _ _ _ _ _ EL) as (u & -> & H). exists u. split; [reflexivity|].
      rewrite map_app, pongs_app, <- app_assoc. eapply subseq_trans; [apply subseq_app; [apply subseq_refl|exact H]|].
      rewrite app_assoc. apply subseq_app; [exact EX|apply subseq_refl].
  Qed.
  Lemma run_pongs ops : forall ms (w : ws) w' ms' t, run ops ms w = (w', ms', t) ->
    exists used, ms = used ++ ms' /\ subseq (pongs t ++ pend w') (pend w ++ pings used).
  Proof.
    assert (STEP : forall (w w1 w2 : ws) o x t2 u1 u2, pongs [x] = [] -> subseq (pongs (map EvSent o) ++ pend w1) (pend w ++ pings u1) ->
      subseq (pongs t2 ++ pend w2) (pend w1 ++ pings u2) -> subseq (pongs (map EvSent o ++ x :: t2) ++ pend w2) (pend w ++ pings (u1 ++ u2))).
    { intros w w1 w2 o x t2 u1 u2 P A B. rewrite pongs_app. change (x :: t2) with ([x] ++ t2). rewrite pongs_app, P, pings_app. cbn [app].
      rewrite <- app_assoc. eapply subseq_trans; [apply subseq_app; [apply subseq_refl|exact B]|]. rewrite !app_assoc. apply subseq_app; [exact A|apply subseq_refl]. }
    induction ops as [|[n avail rs|b r1 r2|r cl] ops IH]; intros ms w w' ms' t E; cbn [run] in E.
    - injection E as <- <- <-. exists []. cbn. rewrite app_nil_r. split; [reflexivity|apply subseq_refl].
    - destruct (poll_read n avail rs ms w) as (((w1, ms1), o), x) eqn:ER. destruct (run ops ms1 w1) as ((w2, ms2), t2) eqn:EO.
      injection E as <- <- <-. destruct (poll_read_pend _ _ _ _ _ _ _ _ _ ER) as (u1 & -> & A). destruct (IH _ _ _ _ _ EO) as (u2 & -> & B).
      exists (u1 ++ u2). split; [now rewrite app_assoc|]. eapply STEP; eauto.
    - destruct (poll_write b r1 r2 w) as ((w1, o), x) eqn:EW. destruct (run ops ms w1) as ((w2, ms2), t2) eqn:EO.
      injection E as <- <- <-. destruct (IH _ _ _ _ _ EO) as (u2 & -> & B). exists u2. split; [reflexivity|]. apply (STEP w w1 w2 o _ t2 [] u2); auto.
      cbn [pings flat_map]. rewrite app_nil_r. unfold poll_write in EW.
      destruct (if w_closed w then (w, [], false) else send_pong r1 w) as ((w1', o1), e) eqn:EX. apply maybe_pong_pend in EX.
      destruct e; [injection EW as <- <- <-; exact EX|]. destruct r2; injection EW as <- <- <-; rewrite ?map_app, ?pongs_app; cbn [pongs map flat_map app];
        rewrite ?app_nil_r; exact EX.
    - destruct (poll_shutdown r cl w) as ((w1, o), x) eqn:EW. destruct (run ops ms w1) as ((w2, ms2), t2) eqn:EO.
      injection E as <- <- <-. destruct (IH _ _ _ _ _ EO) as (u2 & -> & B). exists u2. split; [reflexivity|]. apply (STEP w w1 w2 o _ t2 [] u2); auto.
      cbn [pings flat_map]. rewrite app_nil_r. unfold poll_shutdown in EW.
      destruct (w_closed w); [|destruct r]; injection EW as <- <- <-; cbn; apply subseq_refl.
  Qed.

  (** ** Closing *)
  Lemma closes_app (a b : list wsev) : closes (a ++ b) = closes a + closes b.
  Proof. unfold closes. now rewrite filter_app, app_length. Qed.
  Lemma send_pong_close r (w : ws) w' o e : send_pong r w = (w', o, e) -> w_closed w' = w_closed w /\ closes (map EvSent o) = 0.
  Proof. unfold send_pong. destruct (w_pong w); [destruct r|]; intros E; injection E as <- <- <-; auto. Qed.
  Lemma maybe_pong_close r (w : ws) w' o e : (if w_closed w then (w, [], false) else send_pong r w) = (w', o, e) -> w_closed w' = w_closed w /\ closes (map EvSent o) = 0.
  Proof. destruct (w_closed w) eqn:C; [intros E; injection E as <- <- <-; auto|]. intros E. apply send_pong_close in E. now rewrite C in E. Qed.
  Lemma read_loop_close n : forall avail rs ms (w : ws) w' ms' o r, read_loop n avail rs ms w = (w', ms', o, r) -> w_closed w' = w_closed w /\ closes (map EvSent o) = 0.
  Proof.
    induction avail as [|avail IH]; intros rs ms w w' ms' o r E; cbn [read_loop] in E; [injection E as <- <- <- <-; auto|].
    destruct ms as [|m ms]; [injection E as <- <- <- <-; auto|]. destruct m as [b| |d|d|d| |]; try (injection E as <- <- <- <-; auto; fail).
    - destruct b as [|b0 b]; [eapply IH; eauto|]. unfold copy in E. injection E as <- <- <- <-. auto.
    - destruct (send_pong (hd SNotReady rs) (with_pong (Some d) w)) as ((w1, o1), e) eqn:ES. apply send_pong_close in ES as (A & B). cbn [with_pong w_closed] in A.
      destruct e; [injection E as <- <- <- <-; auto|]. destruct (read_loop n avail (tl rs) ms w1) as (((w2, ms2), o2), r2) eqn:EL.
      injection E as <- <- <- <-. destruct (IH _ _ _ _ _ _ _ EL) as (C & D). split; [congruence|]. rewrite map_app, closes_app, B, D. reflexivity.
  Qed.
  Lemma poll_read_close n avail rs ms (w : ws) w' ms' o r : poll_read n avail rs ms w = (w', ms', o, r) -> w_closed w' = w_closed w /\ closes (map EvSent o) = 0.
  Proof.
    unfold poll_read. destruct (if w_closed w then (w, [], false) else send_pong (hd SNotReady rs) w) as ((w1, o1), e) eqn:EX. apply maybe_pong_close in EX as (A & B).
    destruct e; [intros E; injection E as <- <- <- <-; auto|]. destruct (Nat.ltb _ _).
    - unfold copy. intros E. injection E as <- <- <- <-. auto.
    - destruct (read_loop n avail (tl rs) ms w1) as (((w2, ms2), o2), r2) eqn:EL. intros E. injection E as <- <- <- <-.
      destruct (read_loop_close _ _ _ _ _ _ _ _ _ EL) as (C & D). split; [congruence|]. rewrite map_app, closes_app, B, D. reflexivity.
  Qed.
  Lemma poll_write_close b r1 r2 (w : ws) w' o x : poll_write b r1 r2 w = (w', o, x) -> w_closed w' = w_closed w /\ closes (map EvSent o) = 0.
  Proof.
    unfold poll_write. destruct (if w_closed w then (w, [], false) else send_pong r1 w) as ((w1, o1), e) eqn:EX. apply maybe_pong_close in EX as (A & B).
    destruct e; [intros E; injection E as <- <- <-; auto|]. destruct r2; intros E; injection E as <- <- <-; rewrite ?map_app, ?closes_app, ?B; auto.
  Qed.
  
  Lemma run_close ops : forall ms (w : ws) w' ms' t, run ops ms w = (w', ms', t) ->
    (~ In (EvShut WErr) t -> closes t <= if w_closed w then 0 else 1) /\
    (forall a n b, t = a ++ EvShut (WOk n) :: b -> w_closed w = true \/ In (EvSent OClose) a).
  Proof.
    assert (STEP : forall (w w1 : ws) (o : list wsout) (x : wsev) (t2 : list wsev), w_closed w1 = w_closed w -> closes (map EvSent o) = 0 -> (forall r, x <> EvShut r) -> closes [x] = 0 ->
      ((~ In (EvShut WErr) t2 -> closes t2 <= if w_closed w1 then 0 else 1) /\ (forall a n b, t2 = a ++ EvShut (WOk n) :: b -> w_closed w1 = true \/ In (EvSent OClose) a)) ->
      (~ In (EvShut WErr) (map EvSent o ++ x :: t2) -> closes (map EvSent o ++ x :: t2) <= if w_closed w then 0 else 1) /\
      (forall a n b, map EvSent o ++ x :: t2 = a ++ EvShut (WOk n) :: b -> w_closed w = true \/ In (EvSent OClose) a)).
    { intros w w1 o x t2 C Z X Z' (A & B). rewrite <- C. split.
      - intros N. change (x :: t2) with ([x] ++ t2). rewrite !closes_app, Z, Z'. cbn [plus]. apply A. intros J. apply N. apply in_app_iff. right. now right.
      - intros a n b E. assert (K : exists a', t2 = a' ++ EvShut (WOk n) :: b /\ incl a' a).
        { clear - E X. revert a E. induction o as [|y o IH]; intros a E; cbn in E.
          - destruct a as [|z a]; cbn in E; injection E as E1 E2; [now contradiction (X (WOk n))|]. exists a. split; [exact E2|intros q Q; now right].
          - destruct a as [|z a]; cbn in E; [discriminate|]. injection E as E1 E2. destruct (IH _ E2) as (a' & P & Q). exists a'. split; [exact P|intros q R; right; auto]. }
        destruct K as (a' & K1 & K2). destruct (B _ _ _ K1) as [K|K]; auto. }
    induction ops as [|[n avail rs|b r1 r2|r cl] ops IH]; intros ms w w' ms' t E; cbn [run] in E.
    - injection E as <- <- <-. split; [intros _; cbn; destruct (w_closed w); lia|]. intros a n b E. destruct a; discriminate.
    - destruct (poll_read n avail rs ms w) as (((w1, ms1), o), x) eqn:ER. destruct (run ops ms1 w1) as ((w2, ms2), t2) eqn:EO.
      injection E as <- <- <-. destruct (poll_read_close _ _ _ _ _ _ _ _ _ ER) as (C & Z). eapply STEP; eauto; [discriminate].
    - destruct (poll_write b r1 r2 w) as ((w1, o), x) eqn:EW. destruct (run ops ms w1) as ((w2, ms2), t2) eqn:EO.
      injection E as <- <- <-. destruct (poll_write_close _ _ _ _ _ _ _ EW) as (C & Z). eapply STEP; eauto; [discriminate].
    - destruct (poll_shutdown r cl w) as ((w1, o), x) eqn:EW. destruct (run ops ms w1) as ((w2, ms2), t2) eqn:EO.
      injection E as <- <- <-. destruct (IH _ _ _ _ _ EO) as (A & B). unfold poll_shutdown in EW. destruct (w_closed w) eqn:C; [|destruct r]; injection EW as <- <- <-; cbn [map app].
      + rewrite C in *. split; [|auto]. intros N. apply A. intros J. apply N. now right.
      + rewrite C in *. split; [intros N; apply A; intros J; apply N; now right|].
        intros a n b E. destruct a as [|z a]; cbn in E; injection E as E1 E2; [discriminate|]. destruct (B _ _ _ E2) as [K|K]; [discriminate|]. right. now right.
      + split; [intros N; contradiction N; now left|].
        intros a n b E. destruct a as [|z a]; cbn in E; injection E as E1 E2; [discriminate|]. rewrite C in B. destruct (B _ _ _ E2) as [K|K]; [discriminate|]. right. now right.
      + split; [intros N; contradiction N; now left|].
        intros a n b E. destruct a as [|z a]; cbn in E; injection E as E1 E2; [discriminate|]. rewrite C in B. destruct (B _ _ _ E2) as [K|K]; [discriminate|]. right. now right.
      + split; [intros N; contradiction N; right; now left|].
        intros a n b E. destruct a as [|z a]; cbn in E; injection E as E1 E2; [discriminate|]. right. left. now symmetry.
      + cbn [w_closed] in *. split.
        * intros N. change (EvSent OClose :: EvShut cl :: t2) with ([EvSent OClose; EvShut cl] ++ t2). rewrite closes_app. cbn [closes filter length].
          assert (closes t2 <= 0); [|cbn; lia]. apply A. intros J. apply N. right. now right.
        * intros a n b E. destruct a as [|z a]; cbn in E; injection E as E1 E2; [discriminate|]. right. left. now symmetry.
  Qed.
  Lemma closing ops ms (w : ws) rest t : run ops ms ws_new = (w, rest, t) ->
    (~ In (EvShut WErr) t -> closes t <= 1) /\ (forall a n b, t = a ++ EvShut (WOk n) :: b -> In (EvSent OClose) a).
  Proof.
    intros E. destruct (run_close _ _ _ _ _ _ E) as (A & B). split; [exact A|]. intros a n b Et. destruct (B _ _ _ Et) as [K|K]; [discriminate|exact K].
  Qed.
End Proofs.
