(** The invariants of [OutProofs] hold along every run of the v5 and the v3
    outgoing machines; numbering of packet identifiers. *)
From Coq Require Import List Bool Arith NArith Lia.
From Coq Require Import ZifyBool ZifyNat ZifyN.
From Verif Require Import Base BaseLemmas MsgModel PendingModel PendingProofs AliasModel OutModel OutSpec OutProofs.
From Coq Require Import String. Import List.
Import ListNotations.
Local Open Scope N_scope.
Local Open Scope list_scope.

Lemma app_inv_len {A} (a b c d : list A) : length a = length c -> a ++ b = c ++ d -> a = c /\ b = d.
Proof. revert c. induction a as [|x a IH]; intros [|y c]; cbn; try discriminate; auto. intros [= L] [= -> E].
  destruct (IH c L E) as [-> ->]. auto. Qed.

(** ** Numbering *)
Definition pid_at (c : nat) : pid := 1 + N.of_nat c mod 65535.

Lemma pid_at_0 : pid_at 0 = pid_first.
Proof. reflexivity. Qed.
Lemma pid_at_next c : pid_next (pid_at c) = pid_at (S c).
Proof.
  unfold pid_next, pid_at. rewrite Nat2N.inj_succ, <- N.add_1_r.
  pose proof (N.mod_upper_bound (N.of_nat c) 65535 ltac:(lia)) as B.
  pose proof (N.div_mod (N.of_nat c) 65535 ltac:(lia)) as D.
  destruct (N.eqb_spec (1 + N.of_nat c mod 65535) 65535) as [E|E].
  - enough ((N.of_nat c + 1) mod 65535 = 0) as -> by reflexivity.
    symmetry. apply N.mod_unique with (N.of_nat c / 65535 + 1); lia.
  - enough ((N.of_nat c + 1) mod 65535 = N.of_nat c mod 65535 + 1) as -> by lia.
    symmetry. apply N.mod_unique with (N.of_nat c / 65535); lia.
Qed.
Lemma pid_at_range c : 1 <= pid_at c <= 65535.
Proof. unfold pid_at. pose proof (N.mod_upper_bound (N.of_nat c) 65535 ltac:(lia)). lia. Qed.
Lemma pid_at_diff a b : (a < b)%nat -> N.of_nat b - N.of_nat a < 65535 -> pid_at a <> pid_at b.
Proof.
  intros H1 H2 E. unfold pid_at in E.
  assert (E' : N.of_nat a mod 65535 = N.of_nat b mod 65535) by lia. clear E.
  pose proof (N.div_mod (N.of_nat a) 65535 ltac:(lia)) as Da.
  pose proof (N.div_mod (N.of_nat b) 65535 ltac:(lia)) as Db. rewrite E' in Da.
  assert (N.of_nat a / 65535 < N.of_nat b / 65535) by nia. nia.
Qed.

Section Log.
  Context {M W : Type}.
  Notation oev := (oev M W).

  Lemma arrivals_app (a b : list oev) : arrivals (a ++ b) = arrivals a ++ arrivals b.
  Proof. unfold arrivals. now rewrite flat_map_app. Qed.

  (** [n] messages have arrived and they were numbered consecutively. *)
  Definition numbered (log : list oev) : Prop := arrivals log = map pid_at (seq 0 (length (arrivals log))).

  Lemma numbered_snoc log (e : oev) t m : numbered log ->
    e = EQueued t (pid_at (length (arrivals log))) m \/ e = EFull t (pid_at (length (arrivals log))) m ->
    numbered (log ++ [e]) /\ length (arrivals (log ++ [e])) = S (length (arrivals log)).
  Proof.
    unfold numbered. intros H He. rewrite !arrivals_app, !app_length.
    assert (arrivals [e] = [pid_at (length (arrivals log))]) as -> by (destruct He as [-> | ->]; reflexivity).
    cbn [length]. split; [|lia]. rewrite Nat.add_1_r, seq_S, map_app, <- H. reflexivity.
  Qed.
  Lemma numbered_silent log (evs : list oev) : numbered log -> arrivals evs = [] ->
    numbered (log ++ evs) /\ length (arrivals (log ++ evs)) = length (arrivals log).
  Proof. unfold numbered. intros H E. rewrite arrivals_app, E, app_nil_r. auto. Qed.

  Lemma numbered_nth log l1 t p m l2 : numbered log -> log = l1 ++ EQueued t p m :: l2 ->
    p = pid_at (length (arrivals l1)).
  Proof.
    unfold numbered. intros H ->. rewrite arrivals_app in H. cbn [arrivals flat_map] in H.
    fold (arrivals l2) in H. rewrite app_length in H. cbn [app length] in H.
    rewrite seq_app, map_app in H. apply app_inv_len in H; [destruct H as [_ H]|].
    - cbn [Nat.add seq map] in H. now injection H.
    - now rewrite map_length, seq_length.
  Qed.

  Lemma active_queued p (log : list oev) : active p log = true ->
    exists a t m b, log = a ++ EQueued t p m :: b.
  Proof.
    induction log as [|e log IH] using rev_ind; [discriminate|].
    rewrite active_app. cbn. intros H.
    assert (K : (exists t m, e = EQueued t p m) \/ active p log = true).
    { destruct e as [| t q m | | | k t q [] | t q]; cbn in H; auto.
      - destruct (N.eqb_spec q p) as [->|]; [left; eauto|auto].
      - destruct k; auto; destruct (q =? p); auto; discriminate.
      - destruct k; auto.
      - destruct (q =? p); auto; discriminate. }
    destruct K as [(t & m & ->)|K]; [exists log, t, m, []; reflexivity|].
    destruct (IH K) as (a & t & m & b & ->). exists a, t, m, (b ++ [e]). now rewrite <- app_assoc.
  Qed.

  Lemma recent_no_reuse log : numbered log -> recent_enough log -> no_reuse log.
  Proof.
    intros HN HR l1 t p m l2 E. destruct (active p l1) eqn:A; [exfalso|reflexivity].
    destruct (active_queued p l1 A) as (a & t0 & m0 & b & E1).
    assert (P1 := numbered_nth log l1 t p m l2 HN E).
    assert (E2 : log = a ++ EQueued t0 p m0 :: b ++ EQueued t p m :: l2)
      by (rewrite E, E1, <- app_assoc; reflexivity).
    assert (P2 := numbered_nth log a t0 p m0 _ HN E2).
    rewrite E1 in A. assert (B := HR a t0 p m0 b t p m l2 E2 A).
    assert (L : length (arrivals l1) = (length (arrivals a) + S (length (arrivals b)))%nat)
      by (rewrite E1, arrivals_app, app_length; reflexivity).
    apply (pid_at_diff (length (arrivals a)) (length (arrivals l1))); [lia|lia|congruence].
  Qed.

  Lemma no_reuse_app (a b : list oev) : no_reuse (a ++ b) -> no_reuse a.
  Proof. intros H l1 t p m l2 ->. apply (H l1 t p m (l2 ++ b)). now rewrite <- app_assoc. Qed.
  Lemma no_reuse_snoc (log : list oev) e : no_reuse log ->
    (forall t p m, e = EQueued t p m -> active p log = false) -> no_reuse (log ++ [e]).
  Proof.
    intros H He l1 t p m l2 E. destruct l2 as [|y l2] using rev_ind.
    - apply app_inj_tail in E as [<- ->]. eauto.
    - rewrite app_comm_cons, app_assoc in E. apply app_inj_tail in E as [-> _]. eauto.
  Qed.
  Lemma no_reuse_silent (log evs : list oev) : no_reuse log -> (forall t p m, ~ In (EQueued t p m) evs) ->
    no_reuse (log ++ evs).
  Proof.
    revert log. induction evs as [|e evs IH]; intros log H He; [now rewrite app_nil_r|].
    replace (log ++ e :: evs) with ((log ++ [e]) ++ evs) by (now rewrite <- app_assoc).
    apply IH; [|intros t p m Hi; apply (He t p m); now right].
    apply no_reuse_snoc; [exact H|]. intros t p m ->. exfalso. apply (He t p m). now left.
  Qed.

  (** The queue holds the most recent arrivals, when none was dropped. *)
  Definition consecutive (l : list (pstatus M)) (c : nat) : Prop :=
    (length l <= c)%nat /\
    forall i s p, nth_error l i = Some s -> status_pid s = Some p -> p = pid_at (c - length l + i).

  Lemma consecutive_drop_done l c : consecutive l c -> consecutive (drop_done l) c.
  Proof.
    induction l as [|[] l IH]; cbn; auto. intros [H1 H2]. cbn in H1. apply IH. split; [lia|].
    intros i s p E1 E2. rewrite (H2 (S i) s p E1 E2). cbn [length]. f_equal. lia.
  Qed.
  Lemma consecutive_push l c t m : consecutive l c -> consecutive (l ++ [PNew t 0 (pid_at c) m false]) (S c).
  Proof.
    intros [H1 H2]. split; [rewrite app_length; cbn; lia|]. intros i s p E1 E2. rewrite app_length. cbn [length].
    destruct (Nat.lt_ge_cases i (length l)) as [Hi|Hi].
    - rewrite nth_error_app1 in E1 by assumption. rewrite (H2 i s p E1 E2). f_equal. lia.
    - rewrite nth_error_app2 in E1 by assumption. destruct (i - length l)%nat as [|[|k]] eqn:Ei; cbn in E1; try discriminate.
      injection E1 as <-. change (Some (pid_at c) = Some p) in E2. injection E2 as <-. f_equal. lia.
  Qed.
  (** Changes that keep or finish entries. *)
  Definition settles (l l' : list (pstatus M)) : Prop :=
    length l' = length l /\
    forall i s' p, nth_error l' i = Some s' -> status_pid s' = Some p ->
      exists s, nth_error l i = Some s /\ status_pid s = Some p.
  Lemma consecutive_settles l l' c : settles l l' -> consecutive l c -> consecutive l' c.
  Proof.
    intros [L S] [H1 H2]. rewrite <- L in *. split; [exact H1|]. intros i s p E1 E2.
    destruct (S i s p E1 E2) as (s0 & E3 & E4). eauto.
  Qed.
  Lemma consecutive_fresh l c : consecutive l c -> N.of_nat (length l) < 65535 -> ~ In (pid_at c) (heldl l).
  Proof.
    intros [H1 H2] H3 Hin. apply in_heldl in Hin as (s & Hs & E). apply In_nth_error in Hs as [i Hi].
    assert (Hl : (i < length l)%nat) by (apply nth_error_Some; congruence).
    specialize (H2 i s _ Hi E). symmetry in H2. revert H2. apply pid_at_diff; lia.
  Qed.
  Lemma settles_refl l : settles l l.
  Proof. split; eauto. Qed.
  Lemma settles_resume l : settles l (map reset_status l).
  Proof.
    split; [apply map_length|]. intros i s' p E1 E2. rewrite nth_error_map in E1.
    destruct (nth_error l i) as [s|]; [|discriminate]. cbn in E1. injection E1 as <-. exists s. split; [reflexivity|].
    destruct s; exact E2.
  Qed.
  Lemma settles_ack k now p (q : pendq M) : settles (pq q) (pq (fst (ack_queue k now p q))).
  Proof.
    destruct (ack_queue_spec k now p q) as [(a & x & b & x' & E & L & Hp & Hk & Eq)|[_ Eq]]; rewrite Eq; [|apply settles_refl].
    cbn. rewrite E. split; [rewrite !app_length; reflexivity|]. intros i s' p' E1 E2.
    destruct (Nat.lt_ge_cases i (length a)) as [Hi|Hi].
    - rewrite nth_error_app1 in * by assumption. eauto.
    - rewrite nth_error_app2 in * by assumption. destruct (i - length a)%nat; [|eauto].
      cbn in E1. injection E1 as <-. exists x. split; [reflexivity|]. destruct k, Hk as [_ ->]; cbn in E2; congruence.
  Qed.
  Lemma settles_flushed wpid wdup carries lifetime now timeout n l l' o e :
    flushed (W := W) wpid wdup carries lifetime now timeout n l l' o e -> settles l l'.
  Proof.
    induction 1; try apply settles_refl; destruct IHflushed as [L S]; (split; [cbn; lia|]);
      intros [|i] s' p' E1 E2; cbn in *; try (injection E1 as <-; cbn in E2; try discriminate; eauto; fail); eauto.
  Qed.
End Log.

(** ** A run, abstractly *)
Section Machine.
  Context {M W : Type}.
  Variable wpid : W -> option pid.
  Variable wdup : W -> bool.
  Variable carries : N -> N -> M -> W -> Prop.
  Variable lifetime : M -> option N.
  Variable mok : M -> Prop.
  Notation Inv := (Inv wpid wdup carries lifetime mok).
  Notation flushed := (flushed wpid wdup carries lifetime).

  (** The ways a queue and its next identifier change. *)
  Inductive mstep : pid -> pendq M -> list (oev M W) -> pid -> pendq M -> Prop :=
  | ms_queue n q t m : 0 < t -> mok m -> N.of_nat (length (drop_done (pq q))) < pq_max q ->
      mstep n q [EQueued t n m] (pid_next n) (pq_set q (drop_done (pq q) ++ [PNew t 0 n m false]))
  | ms_full n q t m : pq_max q <= N.of_nat (length (drop_done (pq q))) ->
      mstep n q [EFull t n m] (pid_next n) (clean_complete q)
  | ms_zero n q t w : wpid w = None -> mstep n q [ESent t (SPub w)] n q
  | ms_flush n q t l' o e : 0 < t ->
      (NoDup (heldl (pq q)) -> Forall (entry_ok mok) (pq q) ->
       flushed t (pq_timeout q) (current_inflight (clean_complete q)) (drop_done (pq q)) l' o e) ->
      settles (drop_done (pq q)) l' ->
      (NoDup (heldl (pq q)) -> Forall (entry_ok mok) (pq q) -> given_up q (pq_set q (drop_done l')) = e) ->
      mstep n q (flush_events t o (given_up q (pq_set q (drop_done l')))) n (pq_set q (drop_done l'))
  | ms_ack n q k t p : 0 < t ->
      mstep n q [EAcked k t p (snd (ack_queue k t p q))] n (fst (ack_queue k t p q))
  | ms_resume n q rm : mstep n q [EConn rm] n (set_max_inflight rm (reset_last_sent q)).

  Inductive mrun (rm max timeout : N) : list (oev M W) -> pid -> pendq M -> Prop :=
  | mr_new : mrun rm max timeout [EConn rm] pid_first (PendQ rm max timeout [])
  | mr_step log n q evs n' q' : mrun rm max timeout log n q -> mstep n q evs n' q' ->
      mrun rm max timeout (log ++ evs) n' q'.

  Lemma flush_events_silent t o e : arrivals (flush_events t o e : list (oev M W)) = [] /\
    forall t0 p m, ~ In (EQueued t0 p m) (flush_events t o e : list (oev M W)).
  Proof.
    unfold flush_events. split.
    - rewrite arrivals_app. induction o; cbn; auto. induction e; cbn; auto.
    - intros t0 p m H. apply in_app_iff in H as [H|H]; apply in_map_iff in H as (x & E & _); discriminate.
  Qed.

  Lemma mrun_numbered rm max timeout log n q : mrun rm max timeout log n q ->
    numbered log /\ n = pid_at (length (arrivals log)).
  Proof.
    induction 1 as [|log n q evs n' q' R [IH1 IH2] S]; [split; reflexivity|].
    destruct S.
    - subst n. destruct (numbered_snoc log (EQueued t (pid_at (length (arrivals log))) m) t m IH1 (or_introl eq_refl)) as [N1 N2].
      split; [exact N1|]. rewrite N2. apply pid_at_next.
    - subst n. destruct (numbered_snoc log (EFull t (pid_at (length (arrivals log))) m) t m IH1 (or_intror eq_refl)) as [N1 N2].
      split; [exact N1|]. rewrite N2. apply pid_at_next.
    - destruct (numbered_silent log [ESent t (SPub w)] IH1 eq_refl) as [N1 N2]. rewrite N2. auto.
    - destruct (flush_events_silent t o (given_up q (pq_set q (drop_done l')))) as [K _].
      destruct (numbered_silent log _ IH1 K) as [N1 N2]. rewrite N2. auto.
    - destruct (numbered_silent log [EAcked k t p (snd (ack_queue k t p q))] IH1 eq_refl) as [N1 N2]. rewrite N2. auto.
    - destruct (numbered_silent log [EConn rm0] IH1 eq_refl) as [N1 N2]. rewrite N2. auto.
  Qed.

  Lemma mrun_len rm max timeout log n q : mrun rm max timeout log n q ->
    pq_max q = max /\ pq_timeout q = timeout /\ N.of_nat (length (pq q)) <= max.
  Proof.
    induction 1 as [|log n q evs n' q' R (IH1 & IH2 & IH3) S]; [cbn; repeat split; lia|].
    destruct S; cbn; auto.
    - rewrite app_length. cbn. repeat split; auto; lia.
    - repeat split; auto. pose proof (drop_done_length (pq q)). lia.
    - repeat split; auto. pose proof (drop_done_length l'). pose proof (drop_done_length (pq q)).
      destruct H1 as [L _]. lia.
    - destruct (settles_ack k t p q) as [L _]. rewrite L.
      destruct (ack_queue_spec k t p q) as [(a & x & b & x' & E & ? & ? & ? & Eq)|[_ Eq]]; rewrite Eq; cbn; auto.
    - rewrite map_length. auto.
  Qed.

  Lemma mrun_consecutive rm max timeout log n q : mrun rm max timeout log n q -> nothing_dropped log ->
    consecutive (pq q) (length (arrivals log)).
  Proof.
    induction 1 as [|log n q evs n' q' R IH S]; intros ND.
    { split; [cbn; lia|]. intros [] ? ? E; discriminate. }
    assert (ND' : nothing_dropped log) by (intros t p m Hi; apply (ND t p m); rewrite in_app_iff; auto).
    specialize (IH ND'). destruct (mrun_numbered _ _ _ _ _ _ R) as [HN En]. rewrite arrivals_app, app_length.
    destruct S; cbn [arrivals flat_map app length]; rewrite ?Nat.add_0_r, ?Nat.add_1_r.
    - cbn [pq pq_set]. subst n. apply consecutive_push. now apply consecutive_drop_done.
    - exfalso. apply (ND t n m). rewrite in_app_iff. right. now left.
    - exact IH.
    - destruct (flush_events_silent t o (given_up q (pq_set q (drop_done l')))) as [K _].
      rewrite K. cbn [length]. rewrite Nat.add_0_r. cbn [pq pq_set]. apply consecutive_drop_done.
      eapply consecutive_settles; [eassumption|]. now apply consecutive_drop_done.
    - eapply consecutive_settles; [apply settles_ack|exact IH].
    - cbn. eapply consecutive_settles; [apply settles_resume|exact IH].
  Qed.

  Lemma mrun_inv rm max timeout log n q : mrun rm max timeout log n q -> no_reuse log -> Inv q log.
  Proof.
    induction 1 as [|log n q evs n' q' R IH S]; intros NR; [apply inv_new|].
    specialize (IH (no_reuse_app _ _ NR)). destruct S.
    - apply (inv_push wpid wdup carries lifetime mok (clean_complete q)); auto.
      + now apply inv_clean.
      + exact (NR log t n m [] eq_refl).
    - apply inv_full. now apply inv_clean.
    - now apply inv_zero.
    - assert (I1 := i_nd _ _ _ _ _ _ _ IH). assert (I2 := i_ok _ _ _ _ _ _ _ IH).
      rewrite (H2 I1 I2). apply (inv_flush wpid wdup carries lifetime mok (clean_complete q)); auto.
      now apply inv_clean.
    - now apply inv_ack.
    - now apply inv_resume.
  Qed.

  Lemma mrun_unique rm max timeout log n q : max <= 65535 -> mrun rm max timeout log n q -> nothing_dropped log ->
    no_reuse log.
  Proof.
    intros Hmax. induction 1 as [|log n q evs n' q' R IH S]; intros ND.
    { intros l1 t p m l2 E. destruct l1 as [|? [|]]; discriminate. }
    assert (ND' : nothing_dropped log) by (intros t p m Hi; apply (ND t p m); rewrite in_app_iff; auto).
    specialize (IH ND'). assert (HC := mrun_consecutive _ _ _ _ _ _ R ND').
    assert (HI := mrun_inv _ _ _ _ _ _ R IH). destruct (mrun_numbered _ _ _ _ _ _ R) as [_ En].
    destruct (mrun_len _ _ _ _ _ _ R) as (Em & _ & _).
    destruct S.
    - apply no_reuse_snoc; [exact IH|]. intros t0 p m0 [= <- <- <-].
      rewrite (i_act _ _ _ _ _ _ _ HI). apply memb_false. rewrite <- heldl_drop_done. subst n.
      apply consecutive_fresh; [now apply consecutive_drop_done|lia].
    - apply no_reuse_snoc; [exact IH|discriminate].
    - apply no_reuse_snoc; [exact IH|discriminate].
    - apply no_reuse_silent; [exact IH|]. apply flush_events_silent.
    - apply no_reuse_snoc; [exact IH|discriminate].
    - apply no_reuse_snoc; [exact IH|discriminate].
  Qed.

  (** [handle_pendings] is a flush step. *)
  Lemma settles_trans (a b c : list (pstatus M)) : settles a b -> settles b c -> settles a c.
  Proof.
    intros [L1 S1] [L2 S2]. split; [lia|]. intros i s p E1 E2. destruct (S2 i s p E1 E2) as (s0 & E3 & E4). eauto.
  Qed.
  Lemma settles_same_pids (a b : list (pstatus M)) : map status_pid b = map status_pid a -> settles a b.
  Proof.
    intros E. split; [rewrite <- (map_length status_pid b), E; apply map_length|].
    intros i s p E1 E2. assert (K := map_nth_error status_pid i b E1). rewrite E, nth_error_map in K.
    destruct (nth_error a i) as [s0|]; [|discriminate]. cbn in K. exists s0. split; [reflexivity|congruence].
  Qed.

  Definition after_loop (e : list pid) (q : pendq M) : pendq M :=
    let q' := fold_left (fun q p => fst (pend_complete p L1 q)) e q in
    if is_nil e then q' else clean_complete q'.

  Lemma complete_fields p (q : pendq M) : fst (pend_complete p L1 q) = pq_set q (pq (fst (pend_complete p L1 q))).
  Proof. rewrite complete1. now destruct (update_first (current_inflight q) (is_new p) (fun _ => PDone) (pq q)). Qed.
  Lemma completes_fields e : forall q : pendq M,
    let q' := fold_left (fun q p => fst (pend_complete p L1 q)) e q in q' = pq_set q (pq q') /\ settles (pq q) (pq q').
  Proof.
    induction e as [|p e IH]; intros q; [split; [now destruct q|apply settles_refl]|]. cbn [fold_left]. cbn zeta in *.
    destruct (IH (fst (pend_complete p L1 q))) as [E S]. rewrite complete_fields in E at 2. split; [exact E|].
    eapply settles_trans; [|exact S]. apply (settles_ack AckPuback 0 p q).
  Qed.

  Lemma loop_mstep {A} (body : pstatus M -> A -> pstatus M * A * list (sent W) * list pid) n now q a :
    0 < now -> good_body wpid wdup carries lifetime mok now body ->
    (forall s a, status_pid (fst (fst (fst (body s a)))) = status_pid s) ->
    exists q1 a' o e, pend_loop body (S (length (pq (clean_complete q)))) now 0 (clean_complete q) a [] [] = Some (q1, a', o, e) /\
      mstep n q (flush_events now o (given_up q (after_loop e q1))) n (after_loop e q1) /\
      ((forall s a, snd (body s a) = []) -> e = []) /\
      (NoDup (heldl (pq q)) -> Forall (entry_ok mok) (pq q) ->
       given_up q (after_loop e q1) = e /\ exists l', after_loop e q1 = pq_set q (drop_done l') /\
       flushed now (pq_timeout q) (current_inflight (clean_complete q)) (drop_done (pq q)) l' o e).
  Proof.
    intros Hnow Hg Hb. set (q0 := clean_complete q).
    assert (HL : exists l1 a' o e, pend_loop body (S (length (pq q0))) now 0 q0 a [] [] = Some (pq_set q0 l1, a', o, e) /\
       map status_pid l1 = map status_pid (pq q0) /\ ((forall s a, snd (body s a) = []) -> e = [])).
    { rewrite (pend_loop_pass body now (pq_timeout q0) q0 a eq_refl).
      assert (K : forall n l a, let r := pass body now (pq_timeout q0) n l a in
          map status_pid (fst (fst (fst r))) = map status_pid l /\ ((forall s a, snd (body s a) = []) -> snd r = [])).
      { induction n0 as [|n0 IH]; intros [|s l] a0; cbn zeta; try (split; reflexivity); cbn [pass].
        destruct (due now (pq_timeout q0) s).
        - assert (Hs := Hb s a0). assert (He : (forall s a, snd (body s a) = []) -> snd (body s a0) = []) by auto.
          destruct (body s a0) as [[[s' a1] o1] e1]. specialize (IH l a1).
          destruct (pass body now (pq_timeout q0) n0 l a1) as [[[l2 a2] o2] e2]. cbn in *. destruct IH as [I1 I2].
          split; [congruence|]. intros X. now rewrite (He X), (I2 X).
        - specialize (IH l a0). destruct (pass body now (pq_timeout q0) n0 l a0) as [[[l2 a2] o2] e2]. cbn in *.
          destruct IH as [I1 I2]. split; [congruence|exact I2]. }
      specialize (K (current_inflight q0) (pq q0) a).
      destruct (pass body now (pq_timeout q0) (current_inflight q0) (pq q0) a) as [[[l1 a1] o1] e1].
      cbn in K. exists l1, a1, o1, e1. destruct K. auto. }
    destruct HL as (l1 & a' & o & e & EL & Hp & He). exists (pq_set q0 l1), a', o, e.
    split; [exact EL|].
    destruct (completes_fields e (pq_set q0 l1)) as [C1 C2]. cbn zeta in C1, C2. cbn [pq pq_set] in C2.
    set (q2 := fold_left (fun q p => fst (pend_complete p L1 q)) e (pq_set q0 l1)) in *.
    assert (Hset : settles (drop_done (pq q)) (pq q2)).
    { eapply settles_trans; [|exact C2]. now apply settles_same_pids. }
    assert (EQ : after_loop e (pq_set q0 l1) = pq_set q (drop_done (pq q2))).
    { unfold after_loop. fold q2. destruct e as [|p e]; cbn [is_nil].
      - unfold q2. cbn [fold_left pq pq_set]. assert (drop_done l1 = l1) as ->; [|reflexivity].
        destruct l1 as [|s1 l1]; [reflexivity|]. unfold q0 in Hp. cbn [pq pq_set clean_complete map] in Hp.
        assert (K : forall l x r, drop_done l = x :: r -> status_pid (x : pstatus M) <> None).
        { clear. induction l as [|[] l IH]; cbn; intros x r E; try discriminate; [injection E as <- _; discriminate|injection E as <- _; discriminate|eauto]. }
        destruct (drop_done (pq q)) as [|x r] eqn:Ed; [discriminate|]. specialize (K _ _ _ Ed).
        cbn in Hp. injection Hp as Hp _. destruct s1; try reflexivity. cbn in Hp. congruence.
      - rewrite C1. reflexivity. }
    rewrite EQ.
    assert (HF : NoDup (heldl (pq q)) -> Forall (entry_ok mok) (pq q) ->
       flushed now (pq_timeout q) (current_inflight q0) (drop_done (pq q)) (pq q2) o e).
    { intros HN HO. destruct (flush_loop wpid wdup carries lifetime mok body now q0 a Hg) as (l1' & a'' & o' & e' & l' & E1 & F & E2 & _).
      - now apply Forall_drop_done.
      - cbn. fold (heldl (drop_done (pq q))). now rewrite heldl_drop_done.
      - rewrite EL in E1. injection E1 as <- <- <- <-. fold q2 in E2.
        assert (pq q2 = l') as -> by (rewrite E2; reflexivity). exact F. }
    assert (HG : NoDup (heldl (pq q)) -> Forall (entry_ok mok) (pq q) -> given_up q (pq_set q (drop_done (pq q2))) = e).
    2: { split; [apply ms_flush with (e := e); auto|]. split; [exact He|].
         intros HN HO. split; [auto|]. exists (pq q2). auto. }
    intros HN HO. specialize (HF HN HO). unfold given_up. rewrite !held_heldl. cbn [pq pq_set].
    destruct (flushed_given_up wpid wdup carries lifetime _ _ _ _ _ _ _ HF) as [G _].
    - now rewrite heldl_drop_done.
    - rewrite !heldl_drop_done in *. exact G.
  Qed.
End Machine.

(** ** Instances *)
Definition mok5 (x : pub5) : Prop := p5_qos x <> L0.
Definition mok3 (x : pub3) : Prop := p3_qos x <> L0.
Notation Inv5 := (Inv wpid5 w5_dup carries5 lifetime5 mok5).
Notation Inv3 := (Inv wpid3 w3_dup carries3 lifetime3 mok3).
Notation mrun5 := (mrun wpid5 w5_dup carries5 lifetime5 mok5).
Notation mrun3 := (mrun wpid3 w3_dup carries3 lifetime3 mok3).

Lemma qp_pid_make q p : q <> L0 -> qp_pid (qp_make q p) = Some p.
Proof. destruct q; [congruence|reflexivity|reflexivity]. Qed.
Lemma qp_qos_make q p : qp_qos (qp_make q p) = q.
Proof. destruct q; reflexivity. Qed.

Lemma apply_alias_cases amax topic props al : exists al' topic' a,
  apply_alias amax topic props al = (al', topic', match a with Some _ => set_alias a props | None => props end) /\
  (topic' = topic \/ topic' = EmptyString /\ a <> None).
Proof.
  unfold apply_alias. destruct (0 <? amax); [|exists al, topic, None; auto].
  destruct (get_or_assign_alias amax topic al) as [al' [a is_new]]. destruct (0 <? a); [|exists al', topic, None; auto].
  exists al', (if is_new then topic else EmptyString), (Some a). split; [reflexivity|].
  destruct is_new; [auto|right; split; [reflexivity|discriminate]].
Qed.

Lemma good_body5 now amax : good_body wpid5 w5_dup carries5 lifetime5 mok5 now (pendings_body5 now amax).
Proof.
  split; [|intros l p a; eexists; reflexivity].
  intros ad l p x d al Hm. cbn [pendings_body5].
  destruct (match pp_expiry (p5_props x) with Some v => (l =? 0) && (v <=? now - ad) | None => false end) eqn:Ex.
  - left. destruct (pp_expiry (p5_props x)) as [v|] eqn:Ev; [|discriminate].
    split; [exists v; unfold lifetime5; split; [exact Ev|lia]|]. split; [lia|reflexivity].
  - right. split.
    { intros [(v & Ev & Hv) ->]. unfold lifetime5 in Ev. rewrite Ev in Ex. lia. }
    set (props := set_expiry _ _).
    destruct d.
    + eexists al, _. split; [reflexivity|]. unfold wpid5. cbn. split; [now apply qp_pid_make|]. split; [reflexivity|].
      unfold carries5. cbn. rewrite qp_qos_make. repeat (split; [reflexivity|]). split; [now left|].
      destruct (pp_expiry (p5_props x)); reflexivity.
    + destruct (apply_alias_cases amax (p5_topic x) props al) as (al' & topic' & a & -> & Ht).
      eexists al', _. split; [reflexivity|]. unfold wpid5. cbn. split; [now apply qp_pid_make|]. split; [reflexivity|].
      unfold carries5. cbn. rewrite qp_qos_make. repeat (split; [reflexivity|]).
      repeat (split; [destruct a; reflexivity|]). split.
      * destruct Ht as [->|[-> Ha]]; [now left|right]. split; [reflexivity|]. destruct a; [discriminate|congruence].
      * destruct a; cbn; destruct (pp_expiry (p5_props x)); reflexivity.
Qed.

Lemma body5_pid now amax s al : status_pid (fst (fst (fst (pendings_body5 now amax s al)))) = status_pid s.
Proof.
  destruct s as [ad l p x d|l p|]; try reflexivity. cbn [pendings_body5].
  destruct (match pp_expiry (p5_props x) with Some v => (l =? 0) && (v <=? now - ad) | None => false end); [reflexivity|].
  destruct d; [reflexivity|]. destruct (apply_alias amax (p5_topic x) _ al) as [[al' t'] p']. reflexivity.
Qed.

Lemma good_body3 now : good_body wpid3 w3_dup carries3 lifetime3 mok3 now (pendings_body3 now).
Proof.
  split; [|intros l p []; eexists; reflexivity].
  intros ad l p x d u Hm. right. split; [intros [(v & Ev & _) _]; discriminate|].
  eexists u, _. split; [reflexivity|]. unfold wpid3. cbn. split; [now apply qp_pid_make|]. split; [reflexivity|].
  unfold carries3. cbn. now rewrite qp_qos_make.
Qed.
Lemma body3_pid now s u : status_pid (fst (fst (fst (pendings_body3 now s u)))) = status_pid s.
Proof. destruct s; reflexivity. Qed.
Lemma body3_exp now s u : snd (pendings_body3 now s u) = [].
Proof. destruct s; reflexivity. Qed.

Lemma run5_mrun rm max timeout amax ops o log : Forall op5_ok ops -> run5 rm max timeout amax ops = (o, log) ->
  mrun5 rm max timeout log (o5_next o) (o5_q o).
Proof.
  unfold run5. revert o log. induction ops as [|op ops IH] using rev_ind; intros o log Hok E.
  { cbn in E. injection E as <- <-. apply mr_new. }
  apply Forall_app in Hok as [Hok Hop]. inversion Hop as [|? ? Hop' _]; subst. clear Hop.
  rewrite fold_left_app in E. cbn [fold_left] in E.
  destruct (fold_left run5_step ops (out5_new rm max timeout amax, [EConn rm])) as [o0 log0] eqn:E0.
  specialize (IH o0 log0 Hok eq_refl). unfold run5_step in E. cbn in E.
  destruct (step5 o0 op) as [o1 evs] eqn:Es. injection E as <- <-.
  eapply mr_step; [exact IH|]. clear IH E0. destruct op as [now x|now topic retain payload props|now|k now p|rm' amax']; cbn [step5] in Es.
  - unfold out5_push, push_back in Es. cbn [clean_complete pq pq_max pq_set] in Es.
    destruct Hop' as [Hn Hq].
    destruct (N.leb_spec (pq_max (o5_q o0)) (N.of_nat (length (drop_done (pq (o5_q o0)))))); injection Es as <- <-; cbn.
    + now apply ms_full.
    + exact (ms_queue wpid5 w5_dup carries5 lifetime5 mok5 (o5_next o0) (o5_q o0) now x Hn Hq H).
  - unfold out5_qos0 in Es. destruct (apply_alias (o5_amax o0) topic props (o5_al o0)) as [[al t'] p'].
    injection Es as <- <-. cbn. now apply ms_zero.
  - unfold handle_pendings5 in Es.
    destruct (loop_mstep wpid5 w5_dup carries5 lifetime5 mok5 (pendings_body5 now (o5_amax o0)) (o5_next o0) now (o5_q o0) (o5_al o0) Hop' (good_body5 _ _) (body5_pid _ _))
      as (q1 & a' & outs & e & EL & HM & _ & _).
    rewrite EL in Es. injection Es as <- <-. exact HM.
  - unfold out5_on_queue in Es. assert (K := ms_ack wpid5 w5_dup carries5 lifetime5 mok5 (o5_next o0) (o5_q o0) k now p Hop').
    destruct (ack_queue k now p (o5_q o0)) as [q' b]. injection Es as <- <-. exact K.
  - injection Es as <- <-. cbn. apply ms_resume.
Qed.

Lemma run3_mrun rm max timeout ops o log : Forall op3_ok ops -> run3 rm max timeout ops = (o, log) ->
  mrun3 rm max timeout log (o3_next o) (o3_q o).
Proof.
  unfold run3. revert o log. induction ops as [|op ops IH] using rev_ind; intros o log Hok E.
  { cbn in E. injection E as <- <-. apply mr_new. }
  apply Forall_app in Hok as [Hok Hop]. inversion Hop as [|? ? Hop' _]; subst. clear Hop.
  rewrite fold_left_app in E. cbn [fold_left] in E.
  destruct (fold_left run3_step ops (out3_new rm max timeout, [EConn rm])) as [o0 log0] eqn:E0.
  specialize (IH o0 log0 Hok eq_refl). unfold run3_step in E. cbn in E.
  destruct (step3 o0 op) as [o1 evs] eqn:Es. injection E as <- <-.
  eapply mr_step; [exact IH|]. clear IH E0. destruct op as [now x|now w|now|k now p|]; cbn [step3] in Es.
  - unfold out3_push, push_back in Es. cbn [clean_complete pq pq_max pq_set] in Es.
    destruct Hop' as [Hn Hq].
    destruct (N.leb_spec (pq_max (o3_q o0)) (N.of_nat (length (drop_done (pq (o3_q o0)))))); injection Es as <- <-; cbn.
    + now apply ms_full.
    + exact (ms_queue wpid3 w3_dup carries3 lifetime3 mok3 (o3_next o0) (o3_q o0) now x Hn Hq H).
  - injection Es as <- <-. now apply ms_zero.
  - unfold handle_pendings3 in Es.
    destruct (loop_mstep wpid3 w3_dup carries3 lifetime3 mok3 (pendings_body3 now) (o3_next o0) now (o3_q o0) tt Hop' (good_body3 _) (body3_pid _))
      as (q1 & a' & outs & e & EL & HM & He & _).
    rewrite EL in Es. injection Es as <- <-. rewrite (He (body3_exp now)) in HM. exact HM.
  - unfold out3_on_queue in Es. assert (K := ms_ack wpid3 w3_dup carries3 lifetime3 mok3 (o3_next o0) (o3_q o0) k now p Hop').
    destruct (ack_queue k now p (o3_q o0)) as [q' b]. injection Es as <- <-. exact K.
  - injection Es as <- <-. cbn. assert (K := ms_resume wpid3 w3_dup carries3 lifetime3 mok3 (o3_next o0) (o3_q o0) (pq_inflight (o3_q o0))).
    unfold set_max_inflight, reset_last_sent in *. cbn in K. exact K.
Qed.
