(** The statements of [OutProps], proved for v5 and v3. *)
From Coq Require Import List Bool Arith NArith Lia String.
From Coq Require Import ZifyBool ZifyNat ZifyN.
From Verif Require Import Base BaseLemmas MsgModel PendingModel PendingProofs AliasModel OutModel OutSpec OutProofs OutInv OutLemmas.
Import List ListNotations.
Local Open Scope N_scope.
Local Open Scope list_scope.

Notation life5 := (life wpid5 w5_dup carries5 lifetime5).
Notation life3 := (life wpid3 w3_dup carries3 lifetime3).

Section V5.
  Variables (rm max timeout amax : N) (ops : list op5).
  Hypothesis ok : Forall op5_ok ops.
  Notation o := (fst (run5 rm max timeout amax ops)).
  Notation log := (snd (run5 rm max timeout amax ops)).

  Lemma run5_m : mrun5 rm max timeout log (o5_next o) (o5_q o).
  Proof. apply run5_mrun with (amax := amax) (ops := ops); [exact ok|]. now destruct (run5 rm max timeout amax ops). Qed.
  Lemma run5_inv : no_reuse log -> Inv5 (o5_q o) log.
  Proof. apply mrun_inv with (rm := rm) (max := max) (timeout := timeout) (n := o5_next o). apply run5_m. Qed.
  Lemma run5_timeout : pq_timeout (o5_q o) = timeout.
  Proof. apply (mrun_len _ _ _ _ _ _ _ _ _ _ _ run5_m). Qed.

  Lemma c08_v5 : no_reuse log -> N.of_nat (List.length (outstanding wpid5 log)) <= receive_max log.
  Proof. intros H. eapply inv_window. now apply run5_inv. Qed.
  Lemma c09_v5 : no_reuse log -> in_order carries5 (first_sent wpid5 w5_dup log) (queued log).
  Proof. intros H. eapply mx_in_order. apply (i_seq _ _ _ _ _ _ _ (run5_inv H) true). discriminate. Qed.
  Lemma c09_all_v5 : no_reuse log -> no_expiry_event log -> no_early_ack wpid5 w5_dup carries5 lifetime5 timeout log ->
    exists sent_ones waiting, queued log = sent_ones ++ waiting /\
      Forall2 (transmits carries5) (first_sent wpid5 w5_dup log) sent_ones.
  Proof.
    intros H H1 H2. destruct (mx_exact carries5 _ _ _ (i_seq _ _ _ _ _ _ _ (run5_inv H) false
      ltac:(intros _; rewrite run5_timeout; auto))) as (q1 & E & F). eauto.
  Qed.
  Lemma c10_recent_v5 : recent_enough log -> no_reuse log.
  Proof. apply recent_no_reuse. apply (mrun_numbered _ _ _ _ _ _ _ _ _ _ _ run5_m). Qed.
  Lemma c10_nodrop_v5 : max <= 65535 -> nothing_dropped log -> no_reuse log.
  Proof. intros Hm. exact (mrun_unique _ _ _ _ _ _ _ _ _ _ _ Hm run5_m). Qed.
  Lemma c10_nodup_v5 : no_reuse log -> NoDup (held (o5_q o)).
  Proof. intros H. exact (i_nd _ _ _ _ _ _ _ (run5_inv H)). Qed.
  Lemma c10_range_v5 p : In p (arrivals log) -> 1 <= p <= 65535.
  Proof.
    destruct (mrun_numbered _ _ _ _ _ _ _ _ _ _ _ run5_m) as [H _]. unfold numbered in H. rewrite H.
    rewrite in_map_iff. intros (c & <- & _). apply pid_at_range.
  Qed.
  Lemma c11_v5 : no_reuse log -> forall p, exists st, life5 timeout p log st.
  Proof. intros H p. exists (abs p (pq (o5_q o))). assert (K := i_life _ _ _ _ _ _ _ (run5_inv H) p). rewrite run5_timeout in K. exact K. Qed.
  Lemma c12_bound_v5 : N.of_nat (List.length (pq (o5_q o))) <= max.
  Proof. apply (mrun_len _ _ _ _ _ _ _ _ _ _ _ run5_m). Qed.
  Lemma c12_drop_v5 : no_reuse log -> 0 < max ->
    forall l1 t p m l2, log = l1 ++ EFull t p m :: l2 ->
    exists a t0 p0 m0 b, l1 = a ++ EQueued t0 p0 m0 :: b /\ active p0 l1 = true /\
      max <= 1 + N.of_nat (List.length (queued b)).
  Proof. intros H Hm. exact (mrun_drop _ _ _ _ _ _ _ _ _ _ _ run5_m H Hm). Qed.
  Lemma c13_accept_v5 k now p st : no_reuse log -> In p (outstanding wpid5 log) -> life5 timeout p log st ->
    match k with
    | AckPuback | AckPubrec => exists t0 m l, st = InFlight t0 m l
    | AckPubcomp => exists l, st = Released l
    end -> snd (out5_on_queue (ack_queue k now p) o) = true.
  Proof.
    intros H Hp Hl Hk. assert (HI := run5_inv H). assert (HL := i_life _ _ _ _ _ _ _ HI p). rewrite run5_timeout in HL.
    rewrite (life_det _ _ _ _ _ _ _ _ _ Hl HL) in Hk. assert (K := ack_accept _ _ _ _ _ _ _ k now p HI Hp Hk).
    unfold out5_on_queue. destruct (ack_queue k now p (o5_q o)). exact K.
  Qed.
  Lemma c14_v5 l1 t w p l2 : no_reuse log -> log = l1 ++ ESent t (SPub w) :: l2 -> wpid5 w = Some p -> w5_dup w = false ->
    exists t0 m, life5 timeout p l1 (Waiting t0 m) /\ In (EQueued t0 p m) l1 /\ carries5 t0 t m w /\
      (forall v, lifetime5 m = Some v -> v < 2 ^ 32 ->
         t - t0 < v /\ pp_expiry (w5_props w) = Some (v - (t - t0))) /\
      (lifetime5 m = None -> pp_expiry (w5_props w) = None).
  Proof.
    intros H E Ew Ed. destruct (c11_v5 H p) as [st Hl]. rewrite E in Hl.
    destruct (life_split _ _ _ _ _ _ _ _ _ _ Hl) as (s0 & s1 & H0 & H1).
    inversion H1; subst; try (cbn in *; congruence).
    exists t0, m. split; [exact H0|]. split; [eapply life_waiting; exact H0|].
    match goal with X : carries5 _ _ _ _, Y : ~ elapsed _ _ _ _ |- _ => rename X into HC; rename Y into HE end.
    assert (C := HC). destruct C as (_ & _ & _ & _ & _ & _ & C). split; [exact HC|]. split.
    - intros v Ev Hv. unfold lifetime5 in Ev. rewrite Ev in C.
      assert (t - t0 < v). { destruct (N.lt_ge_cases (t - t0) v); [assumption|]. exfalso. apply HE. exists v. auto. }
      split; [assumption|]. rewrite C, N.mod_small by lia. reflexivity.
    - intros Ev. unfold lifetime5 in Ev. rewrite Ev in C. exact C.
  Qed.

  Lemma run5_snoc op : run5 rm max timeout amax (ops ++ [op]) =
    (fst (step5 o op), log ++ snd (step5 o op)).
  Proof.
    unfold run5. rewrite fold_left_app. cbn [fold_left].
    destruct (fold_left run5_step ops (out5_new rm max timeout amax, [EConn rm])) as [o0 l0]. cbn.
    destruct (step5 o0 op). reflexivity.
  Qed.
End V5.

Lemma c15_v5 rm max timeout amax ops rm' amax' now :
  Forall op5_ok ops -> no_reuse (snd (run5 rm max timeout amax ops)) -> timeout <= now -> 0 < now ->
  let before := fst (run5 rm max timeout amax ops) in
  let resumed := fst (run5 rm max timeout amax (ops ++ [O5Resume rm' amax'])) in
  held (o5_q resumed) = held (o5_q before) /\
  exists n sent gone,
    snd (run5 rm max timeout amax (ops ++ [O5Resume rm' amax'; O5Flush now])) =
      snd (run5 rm max timeout amax ops) ++ [EConn rm'] ++ map (ESent now) sent ++ map (EExpired now) gone /\
    map (sent_pid wpid5) sent =
      map Some (filter (fun p => negb (existsb (N.eqb p) gone)) (firstn n (held (o5_q before)))) /\
    incl gone (firstn n (held (o5_q before))) /\
    (0 < rm' -> held (o5_q before) <> [] -> (0 < n)%nat) /\ N.of_nat n <= rm' /\
    (max <= rm' -> n = List.length (held (o5_q before))).
Proof.
  intros ok NR Ht Hn before resumed.
  assert (HI := run5_inv rm max timeout amax ops ok NR). fold before in HI.
  assert (ET := run5_timeout rm max timeout amax ops ok). fold before in ET.
  assert (HB := c12_bound_v5 rm max timeout amax ops ok). fold before in HB.
  assert (ER : resumed = out5_resume rm' amax' before).
  { unfold resumed. rewrite run5_snoc. reflexivity. }
  split.
  { rewrite ER. cbn. rewrite !held_heldl. cbn. generalize (pq (o5_q before)). clear.
    induction l as [|[] l IH]; cbn; [reflexivity|f_equal; exact IH|f_equal; exact IH|exact IH]. }
  assert (HI1 := inv_resume _ _ _ _ _ _ _ rm' HI).
  set (q1 := set_max_inflight rm' (reset_last_sent (o5_q before))) in *.
  destruct (loop_mstep wpid5 w5_dup carries5 lifetime5 mok5 (pendings_body5 now amax') (o5_next resumed) now q1 aliases_empty Hn
      (good_body5 _ _) (body5_pid _ _)) as (q2 & a' & outs & e & EL & _ & _ & HX).
  destruct (HX (i_nd _ _ _ _ _ _ _ HI1) (i_ok _ _ _ _ _ _ _ HI1)) as [EG (l' & _ & HF)]. clear HX.
  assert (ES : step5 resumed (O5Flush now) =
     (Out5 (o5_next resumed) (after_loop e q2) amax' a',
      map (ESent now) outs ++ map (EExpired now) (given_up q1 (after_loop e q2)))).
  { cbn [step5]. unfold handle_pendings5. rewrite ER. cbn [o5_q o5_amax o5_al out5_resume o5_next]. fold q1. rewrite EL. reflexivity. }
  rewrite EG in ES.
  destruct (resume_flush wpid5 w5_dup carries5 lifetime5 mok5 rm' timeout now (o5_q before) _ l' outs e Ht ET HI HF)
    as (n & R1 & R2 & R3 & R4 & R5).
  exists n, outs, e. split.
  { change [O5Resume rm' amax'; O5Flush now] with ([O5Resume rm' amax'] ++ [O5Flush now]). rewrite app_assoc, run5_snoc.
    fold resumed. rewrite ES. cbn [fst snd]. rewrite run5_snoc. cbn [snd step5]. now rewrite <- !app_assoc. }
  repeat (split; [assumption|]). intros Hm. apply R5. lia.
Qed.

Section V3.
  Variables (rm max timeout : N) (ops : list op3).
  Hypothesis ok : Forall op3_ok ops.
  Notation o := (fst (run3 rm max timeout ops)).
  Notation log := (snd (run3 rm max timeout ops)).

  Lemma run3_m : mrun3 rm max timeout log (o3_next o) (o3_q o).
  Proof. apply run3_mrun with (ops := ops); [exact ok|]. now destruct (run3 rm max timeout ops). Qed.
  Lemma run3_inv : no_reuse log -> Inv3 (o3_q o) log.
  Proof. apply mrun_inv with (rm := rm) (max := max) (timeout := timeout) (n := o3_next o). apply run3_m. Qed.
  Lemma run3_timeout : pq_timeout (o3_q o) = timeout.
  Proof. apply (mrun_len _ _ _ _ _ _ _ _ _ _ _ run3_m). Qed.

  Lemma c08_v3 : no_reuse log -> N.of_nat (List.length (outstanding wpid3 log)) <= receive_max log.
  Proof. intros H. eapply inv_window. now apply run3_inv. Qed.
  Lemma c09_v3 : no_reuse log -> in_order carries3 (first_sent wpid3 w3_dup log) (queued log).
  Proof. intros H. eapply mx_in_order. apply (i_seq _ _ _ _ _ _ _ (run3_inv H) true). discriminate. Qed.
  Lemma c09_all_v3 : no_reuse log -> no_expiry_event log -> no_early_ack wpid3 w3_dup carries3 lifetime3 timeout log ->
    exists sent_ones waiting, queued log = sent_ones ++ waiting /\
      Forall2 (transmits carries3) (first_sent wpid3 w3_dup log) sent_ones.
  Proof.
    intros H H1 H2. destruct (mx_exact carries3 _ _ _ (i_seq _ _ _ _ _ _ _ (run3_inv H) false
      ltac:(intros _; rewrite run3_timeout; auto))) as (q1 & E & F). eauto.
  Qed.
  Lemma c10_recent_v3 : recent_enough log -> no_reuse log.
  Proof. apply recent_no_reuse. apply (mrun_numbered _ _ _ _ _ _ _ _ _ _ _ run3_m). Qed.
  Lemma c10_nodrop_v3 : max <= 65535 -> nothing_dropped log -> no_reuse log.
  Proof. intros Hm. exact (mrun_unique _ _ _ _ _ _ _ _ _ _ _ Hm run3_m). Qed.
  Lemma c10_nodup_v3 : no_reuse log -> NoDup (held (o3_q o)).
  Proof. intros H. exact (i_nd _ _ _ _ _ _ _ (run3_inv H)). Qed.
  Lemma c10_range_v3 p : In p (arrivals log) -> 1 <= p <= 65535.
  Proof.
    destruct (mrun_numbered _ _ _ _ _ _ _ _ _ _ _ run3_m) as [H _]. unfold numbered in H. rewrite H.
    rewrite in_map_iff. intros (c & <- & _). apply pid_at_range.
  Qed.
  Lemma c11_v3 : no_reuse log -> forall p, exists st, life3 timeout p log st.
  Proof. intros H p. exists (abs p (pq (o3_q o))). assert (K := i_life _ _ _ _ _ _ _ (run3_inv H) p). rewrite run3_timeout in K. exact K. Qed.
  Lemma c12_bound_v3 : N.of_nat (List.length (pq (o3_q o))) <= max.
  Proof. apply (mrun_len _ _ _ _ _ _ _ _ _ _ _ run3_m). Qed.
  Lemma c12_drop_v3 : no_reuse log -> 0 < max ->
    forall l1 t p m l2, log = l1 ++ EFull t p m :: l2 ->
    exists a t0 p0 m0 b, l1 = a ++ EQueued t0 p0 m0 :: b /\ active p0 l1 = true /\
      max <= 1 + N.of_nat (List.length (queued b)).
  Proof. intros H Hm. exact (mrun_drop _ _ _ _ _ _ _ _ _ _ _ run3_m H Hm). Qed.
  Lemma c13_accept_v3 k now p st : no_reuse log -> In p (outstanding wpid3 log) -> life3 timeout p log st ->
    match k with
    | AckPuback | AckPubrec => exists t0 m l, st = InFlight t0 m l
    | AckPubcomp => exists l, st = Released l
    end -> snd (out3_on_queue (ack_queue k now p) o) = true.
  Proof.
    intros H Hp Hl Hk. assert (HI := run3_inv H). assert (HL := i_life _ _ _ _ _ _ _ HI p). rewrite run3_timeout in HL.
    rewrite (life_det _ _ _ _ _ _ _ _ _ Hl HL) in Hk. assert (K := ack_accept _ _ _ _ _ _ _ k now p HI Hp Hk).
    unfold out3_on_queue. destruct (ack_queue k now p (o3_q o)). exact K.
  Qed.
  Lemma run3_snoc op : run3 rm max timeout (ops ++ [op]) =
    (fst (step3 o op), log ++ snd (step3 o op)).
  Proof.
    unfold run3. rewrite fold_left_app. cbn [fold_left].
    destruct (fold_left run3_step ops (out3_new rm max timeout, [EConn rm])) as [o0 l0]. cbn.
    destruct (step3 o0 op). reflexivity.
  Qed.
End V3.

Lemma run3_rm rm max timeout ops : pq_inflight (o3_q (fst (run3 rm max timeout ops))) = rm.
Proof.
  induction ops as [|op ops IH] using rev_ind; [reflexivity|]. rewrite run3_snoc. cbn [fst].
  set (o := fst (run3 rm max timeout ops)) in *. destruct op as [now x|now w|now|k now p|]; cbn [step3].
  - unfold out3_push, push_back. cbn [clean_complete pq pq_max pq_set].
    destruct (pq_max (o3_q o) <=? _); exact IH.
  - exact IH.
  - unfold handle_pendings3. rewrite (pend_loop_pass (pendings_body3 now) now (pq_timeout (clean_complete (o3_q o))) _ tt eq_refl).
    destruct (pass _ _ _ _ _ _) as [[[l1 a1] o1] e1]. exact IH.
  - unfold out3_on_queue.
    destruct (ack_queue_spec k now p (o3_q o)) as [(a & x & b & x' & E & ? & ? & ? & Eq)|[_ Eq]]; rewrite Eq; exact IH.
  - exact IH.
Qed.

Lemma c15_v3 rm max timeout ops now :
  Forall op3_ok ops -> no_reuse (snd (run3 rm max timeout ops)) -> timeout <= now -> 0 < now ->
  let before := fst (run3 rm max timeout ops) in
  let resumed := fst (run3 rm max timeout (ops ++ [O3Resume])) in
  held (o3_q resumed) = held (o3_q before) /\
  exists n sent,
    snd (run3 rm max timeout (ops ++ [O3Resume; O3Flush now])) =
      snd (run3 rm max timeout ops) ++ [EConn rm] ++ map (ESent now) sent /\
    map (sent_pid wpid3) sent = map Some (firstn n (held (o3_q before))) /\
    (0 < rm -> held (o3_q before) <> [] -> (0 < n)%nat) /\ N.of_nat n <= rm /\
    (max <= rm -> n = List.length (held (o3_q before))).
Proof.
  intros ok NR Ht Hn before resumed.
  assert (HI := run3_inv rm max timeout ops ok NR). fold before in HI.
  assert (ET := run3_timeout rm max timeout ops ok). fold before in ET.
  assert (HB := c12_bound_v3 rm max timeout ops ok). fold before in HB.
  assert (EM := run3_rm rm max timeout ops). fold before in EM.
  set (q1 := set_max_inflight rm (reset_last_sent (o3_q before))) in *.
  assert (ER : resumed = Out3 (o3_next before) q1).
  { unfold resumed, q1. rewrite run3_snoc. cbn [step3 fst]. fold before. unfold out3_resume. rewrite <- EM. now destruct (o3_q before). }
  split.
  { rewrite ER. cbn. rewrite !held_heldl. cbn. generalize (pq (o3_q before)). clear.
    induction l as [|[] l IH]; cbn; [reflexivity|f_equal; exact IH|f_equal; exact IH|exact IH]. }
  assert (HI1 := inv_resume _ _ _ _ _ _ _ rm HI). fold q1 in HI1.
  destruct (loop_mstep wpid3 w3_dup carries3 lifetime3 mok3 (pendings_body3 now) (o3_next resumed) now q1 tt Hn
      (good_body3 _) (body3_pid _)) as (q2 & a' & outs & e & EL & _ & HE & HX).
  specialize (HE (body3_exp now)). subst e.
  destruct (HX (i_nd _ _ _ _ _ _ _ HI1) (i_ok _ _ _ _ _ _ _ HI1)) as [EG (l' & _ & HF)]. clear HX.
  assert (ES : step3 resumed (O3Flush now) =
     (Out3 (o3_next resumed) q2, map (ESent now) outs ++ map (EExpired now) (given_up q1 q2))).
  { cbn [step3]. unfold handle_pendings3. rewrite ER. cbn [o3_q o3_next]. rewrite EL. reflexivity. }
  change (given_up q1 q2 = []) in EG. rewrite EG, app_nil_r in ES.
  destruct (resume_flush wpid3 w3_dup carries3 lifetime3 mok3 rm timeout now (o3_q before) _ l' outs [] Ht ET HI HF)
    as (n & R1 & R2 & R3 & R4 & R5).
  exists n, outs. split.
  { change [O3Resume; O3Flush now] with ([O3Resume] ++ [O3Flush now]). rewrite app_assoc, run3_snoc.
    fold resumed. rewrite ES. cbn [fst snd]. rewrite run3_snoc. cbn [snd step3]. fold before. rewrite EM. now rewrite <- !app_assoc. }
  split.
  { rewrite R1. f_equal. generalize (firstn n (held (o3_q before))). clear. induction l as [|x l IH]; cbn; [reflexivity|f_equal; exact IH]. }
  repeat (split; [assumption|]). intros Hm. apply R5. lia.
Qed.

(** Runs computed without building the log from the left. *)
Fixpoint evs5 (o : out5) (ops : list op5) : list (oev pub5 wpub5) :=
  match ops with [] => [] | op :: r => let '(o', e) := step5 o op in e ++ evs5 o' r end.
Lemma fold_run5 ops : forall o l, fold_left run5_step ops (o, l) =
  (fold_left (fun o op => fst (step5 o op)) ops o, l ++ evs5 o ops).
Proof.
  induction ops as [|op ops IH]; intros o l; cbn [fold_left evs5]; [now rewrite app_nil_r|].
  unfold run5_step at 2. destruct (step5 o op) as [o' e]. rewrite IH. cbn [fst]. now rewrite <- app_assoc.
Qed.
Lemma run5_fst rm max timeout amax ops : fst (run5 rm max timeout amax ops) =
  fold_left (fun o op => fst (step5 o op)) ops (out5_new rm max timeout amax).
Proof. unfold run5. now rewrite fold_run5. Qed.
Lemma run5_snd rm max timeout amax ops : snd (run5 rm max timeout amax ops) =
  EConn rm :: evs5 (out5_new rm max timeout amax) ops.
Proof. unfold run5. now rewrite fold_run5. Qed.

Lemma heldl_drop {M} (l : list (pstatus M)) : heldl (drop_done l) = heldl l.
Proof. apply heldl_drop_done. Qed.

Lemma c12_push_v5 now x o o' dropped :
  out5_push now x o = (o', dropped) ->
  (dropped = true <-> pq_max (o5_q o) <= N.of_nat (List.length (drop_done (pq (o5_q o))))) /\
  (dropped = true -> pq (o5_q o') = drop_done (pq (o5_q o)) /\ held (o5_q o') = held (o5_q o)) /\
  (dropped = false -> held (o5_q o') = held (o5_q o) ++ [o5_next o]).
Proof.
  unfold out5_push, push_back. cbn [clean_complete pq pq_set pq_max].
  destruct (N.leb_spec (pq_max (o5_q o)) (N.of_nat (List.length (drop_done (pq (o5_q o)))))) as [H|H]; intros [= <- <-].
  - split; [tauto|]. split; [|discriminate]. intros _. rewrite !held_heldl. cbn [o5_q pq pq_set clean_complete].
    split; [reflexivity|apply heldl_drop].
  - split; [split; [discriminate|lia]|]. split; [discriminate|]. intros _. rewrite !held_heldl. cbn [o5_q pq pq_set clean_complete].
    rewrite heldl_app, heldl_drop. reflexivity.
Qed.
Lemma c12_push_v3 now x o o' dropped :
  out3_push now x o = (o', dropped) ->
  (dropped = true <-> pq_max (o3_q o) <= N.of_nat (List.length (drop_done (pq (o3_q o))))) /\
  (dropped = true -> pq (o3_q o') = drop_done (pq (o3_q o)) /\ held (o3_q o') = held (o3_q o)) /\
  (dropped = false -> held (o3_q o') = held (o3_q o) ++ [o3_next o]).
Proof.
  unfold out3_push, push_back. cbn [clean_complete pq pq_set pq_max].
  destruct (N.leb_spec (pq_max (o3_q o)) (N.of_nat (List.length (drop_done (pq (o3_q o)))))) as [H|H]; intros [= <- <-].
  - split; [tauto|]. split; [|discriminate]. intros _. rewrite !held_heldl. cbn [o3_q pq pq_set clean_complete].
    split; [reflexivity|apply heldl_drop].
  - split; [split; [discriminate|lia]|]. split; [discriminate|]. intros _. rewrite !held_heldl. cbn [o3_q pq pq_set clean_complete].
    rewrite heldl_app, heldl_drop. reflexivity.
Qed.

Lemma c13_local_v5 k now p o o' ok :
  out5_on_queue (ack_queue k now p) o = (o', ok) ->
  (ok = false -> o' = o) /\
  (ok = true -> exists a x b x', pq (o5_q o) = a ++ x :: b /\ pq (o5_q o') = a ++ x' :: b /\
     match k with
     | AckPuback => (exists t l m d, x = PNew t l p m d) /\ x' = PDone
     | AckPubrec => (exists t l m d, x = PNew t l p m d) /\ x' = PRec now p
     | AckPubcomp => (exists l, x = PRec l p) /\ x' = PDone
     end).
Proof.
  unfold out5_on_queue. destruct (ack_queue_spec k now p (o5_q o)) as [(a & x & b & x' & E & _ & _ & Hk & Eq)|[_ Eq]]; rewrite Eq; intros [= <- <-].
  - split; [discriminate|]. intros _. exists a, x, b, x'. auto.
  - split; [|discriminate]. intros _. now destruct o.
Qed.
Lemma c13_local_v3 k now p o o' ok :
  out3_on_queue (ack_queue k now p) o = (o', ok) ->
  (ok = false -> o' = o) /\
  (ok = true -> exists a x b x', pq (o3_q o) = a ++ x :: b /\ pq (o3_q o') = a ++ x' :: b /\
     match k with
     | AckPuback => (exists t l m d, x = PNew t l p m d) /\ x' = PDone
     | AckPubrec => (exists t l m d, x = PNew t l p m d) /\ x' = PRec now p
     | AckPubcomp => (exists l, x = PRec l p) /\ x' = PDone
     end).
Proof.
  unfold out3_on_queue. destruct (ack_queue_spec k now p (o3_q o)) as [(a & x & b & x' & E & _ & _ & Hk & Eq)|[_ Eq]]; rewrite Eq; intros [= <- <-].
  - split; [discriminate|]. intros _. exists a, x, b, x'. auto.
  - split; [|discriminate]. intros _. now destruct o.
Qed.

Lemma ack_unknown {M} k now p (q : pendq M) : ~ In p (heldl (pq q)) -> ack_queue k now p q = (q, false).
Proof.
  intros H. destruct (ack_queue_spec k now p q) as [(a & x & b & x' & E & _ & Hx & _ & _)|[_ Eq]]; [|exact Eq].
  exfalso. apply H. apply in_heldl. exists x. split; [|exact Hx]. rewrite E. apply in_app_iff. right. now left.
Qed.
Lemma c13_unknown_v5 rm max timeout amax ops : Forall op5_ok ops -> forall k now p,
  no_reuse (snd (run5 rm max timeout amax ops)) -> active p (snd (run5 rm max timeout amax ops)) = false ->
  out5_on_queue (ack_queue k now p) (fst (run5 rm max timeout amax ops)) = (fst (run5 rm max timeout amax ops), false).
Proof.
  intros ok k now p NR HA. assert (HI := run5_inv _ _ _ _ _ ok NR). rewrite (i_act _ _ _ _ _ _ _ HI) in HA.
  apply memb_false in HA. unfold out5_on_queue. rewrite ack_unknown by exact HA. now destruct (fst (run5 rm max timeout amax ops)).
Qed.
Lemma c13_unknown_v3 rm max timeout ops : Forall op3_ok ops -> forall k now p,
  no_reuse (snd (run3 rm max timeout ops)) -> active p (snd (run3 rm max timeout ops)) = false ->
  out3_on_queue (ack_queue k now p) (fst (run3 rm max timeout ops)) = (fst (run3 rm max timeout ops), false).
Proof.
  intros ok k now p NR HA. assert (HI := run3_inv _ _ _ _ ok NR). rewrite (i_act _ _ _ _ _ _ _ HI) in HA.
  apply memb_false in HA. unfold out3_on_queue. rewrite ack_unknown by exact HA. now destruct (fst (run3 rm max timeout ops)).
Qed.
