(** Resumed sessions, and the runs of the two protocol versions, when packet
    identifiers may be in use twice. *)
From Coq Require Import List Bool Arith NArith Lia Permutation String.
From Coq Require Import ZifyBool ZifyNat ZifyN.
From Verif Require Import Base BaseLemmas MsgModel PendingModel PendingProofs AliasModel OutModel OutSpec OutProofs OutInv OutLemmas OutFacts OrderSpec OrderProofs.
Import List ListNotations.
Local Open Scope N_scope.
Local Open Scope list_scope.

Section Gen.
  Context {M W : Type}.
  Variable wpid : W -> option pid.
  Variable wdup : W -> bool.
  Variable carries : N -> N -> M -> W -> Prop.
  Variable lifetime : M -> option N.
  Notation st := (pstatus M).
  Notation scanned := (scanned wpid wdup carries lifetime).
  Notation dead := (dead lifetime).
  Notation sends := (sends wpid carries).

  Definition unfl (l : list st) : list (pid * option (N * M)) :=
    flat_map (fun s => match s with PNew t _ p m _ => [(p, Some (t, m))] | PRec _ p => [(p, None)] | PDone => [] end) l.
  Lemma unfl_app a b : unfl (a ++ b) = unfl a ++ unfl b.
  Proof. apply flat_map_app. Qed.
  Lemma unfl_drop_done l : unfl (drop_done l) = unfl l.
  Proof. induction l as [|[] l IH]; cbn; auto. Qed.
  Lemma unfl_reset l : unfl (map reset_status l) = unfl l.
  Proof. unfold unfl. induction l as [|[] l IH]; cbn; auto; now rewrite IH. Qed.
  Lemma unfl_held l : map fst (unfl l) = heldl l.
  Proof. unfold unfl, heldl. induction l as [|[] l IH]; cbn; auto; now rewrite <- IH. Qed.
  Lemma scanned_sends now timeout n l l' o e : scanned now timeout n l l' o e -> timeout <= now -> Forall (fun s => last_of s = 0) l ->
    Forall2 (sends now) o (filter (fun x => negb (dead now x)) (unfl (firstn n l))) /\ e = map fst (filter (dead now) (unfl (firstn n l))).
  Proof.
    intros F HT. induction F as [l|n|n s r r' o e Hd F IH|n ad p x d r r' o e Hd He F IH|n ad l p x d w r r' o e Hd He H1 H2 H3 F IH|n l p r r' o e Hd F IH]; intros Hz.
    - split; constructor.
    - destruct n; split; constructor.
    - inversion Hz as [|? ? Hs Hz']; subst. destruct (IH Hz') as (A & B). destruct s as [ad l p x d|l p|]; cbn in Hs, Hd; [subst; lia|subst; lia|]. cbn. auto.
    - inversion Hz as [|? ? Hs Hz']; subst. destruct (IH Hz') as (A & B). cbn [firstn unfl flat_map app filter].
      assert (dead now (p, Some (ad, x)) = true) as ->.
      { unfold OrderSpec.dead. cbn. destruct He as (v & -> & Hv). now apply N.leb_le. }
      cbn. split; [exact A|]. f_equal. exact B.
    - inversion Hz as [|? ? Hs Hz']; subst. destruct (IH Hz') as (A & B). cbn in Hs. subst l. cbn [firstn unfl flat_map app filter].
      assert (dead now (p, Some (ad, x)) = false) as ->.
      { unfold OrderSpec.dead. cbn. destruct (lifetime x) as [v|] eqn:EL; [|reflexivity]. apply N.leb_gt. destruct (N.le_gt_cases v (now - ad)); [|assumption]. exfalso. apply He. split; [exists v; auto|reflexivity]. }
      cbn. split; [|exact B]. constructor; [cbn; auto|exact A].
    - inversion Hz as [|? ? Hs Hz']; subst. destruct (IH Hz') as (A & B). cbn. split; [|exact B]. constructor; [reflexivity|exact A].
  Qed.
  Lemma unfl_firstn n l : exists k, unfl (firstn n l) = firstn k (unfl l) /\ k = List.length (unfl (firstn n l)).
  Proof.
    exists (List.length (unfl (firstn n l))). split; [|reflexivity]. rewrite <- (firstn_skipn n l) at 3. rewrite unfl_app, firstn_app, Nat.sub_diag, firstn_O, app_nil_r. now rewrite firstn_all.
  Qed.
  Lemma resume_bounds rm (q : pendq M) :
    let q1 := set_max_inflight rm (reset_last_sent q) in
    let k := List.length (unfl (firstn (current_inflight (clean_complete q1)) (drop_done (pq q1)))) in
    N.of_nat k <= rm /\ (0 < rm -> unfl (pq q) <> [] -> (0 < k)%nat) /\ (N.of_nat (List.length (pq q)) <= rm -> k = List.length (unfl (pq q))).
  Proof.
    intros q1 k.
    assert (Hn : current_inflight (clean_complete q1) = N.to_nat (N.min rm (N.of_nat (List.length (drop_done (pq q1)))))) by reflexivity.
    assert (K : forall l : list st, (List.length (unfl l) <= List.length l)%nat) by (unfold unfl; induction l as [|[] l IH]; cbn; lia).
    assert (HU : unfl (drop_done (pq q1)) = unfl (pq q)) by (rewrite unfl_drop_done; apply unfl_reset).
    split; [|split].
    - specialize (K (firstn (current_inflight (clean_complete q1)) (drop_done (pq q1)))). rewrite firstn_length in K. unfold k. lia.
    - intros Hr Hne. unfold k. destruct (drop_done (pq q1)) as [|s l] eqn:Ed; [contradiction Hne; rewrite <- HU; reflexivity|].
      cbn [List.length] in Hn. destruct (current_inflight (clean_complete q1)) as [|n']; [lia|]. cbn [firstn].
      assert (Hs : s <> PDone).
      { clear - Ed. revert Ed. generalize (pq q1). induction l0 as [|[] l0 IH]; cbn; intros E; try discriminate; [injection E as <- _; discriminate|injection E as <- _; discriminate|auto]. }
      destruct s; cbn; [lia|lia|congruence].
    - intros Hl. unfold k. assert (List.length (drop_done (pq q1)) <= List.length (pq q))%nat.
      { pose proof (drop_done_length (pq q1)) as D. unfold q1 in *. cbn in *. now rewrite map_length in D. }
      rewrite firstn_all2 by lia. now rewrite HU.
  Qed.
  Lemma complete_held p0 p (q : pendq M) : In p (held q) -> p <> p0 -> In p (held (fst (pend_complete p0 L1 q))).
  Proof.
    intros Hi Hne. rewrite complete1. destruct (update_first_spec (current_inflight q) (is_new p0) (fun _ => PDone) (pq q)) as [(a & x & b & E & L & _ & Hx & Eu)|[_ Eu]]; rewrite Eu; cbn [fst]; [|exact Hi].
    unfold held in *. cbn [pq pq_set]. rewrite E in Hi. rewrite flat_map_app, in_app_iff in *. destruct Hi as [Hi|Hi]; [now left|]. right. cbn [flat_map] in *. rewrite in_app_iff in Hi. destruct Hi as [Hi|Hi]; [|exact Hi].
    destruct (is_new_inv p0 x Hx) as (ad & l & m & d & ->). destruct Hi as [Hi|[]]. congruence.
  Qed.
  Lemma completes_held p e : forall q : pendq M, In p (held q) -> ~ In p e -> In p (held (fold_left (fun q p => fst (pend_complete p L1 q)) e q)).
  Proof. induction e as [|p0 e IH]; intros q Hi Hn; [exact Hi|]. cbn [fold_left]. apply IH; [apply complete_held; auto; intros ->; apply Hn; now left|]. intros H. apply Hn. now right. Qed.
  Lemma held_drop (q : pendq M) : held (clean_complete q) = held q.
  Proof. unfold held. cbn. induction (pq q) as [|[] l IH]; cbn; auto. Qed.
  Lemma scanned_held now timeout n l l' o e : scanned now timeout n l l' o e -> heldl l' = heldl l.
  Proof. induction 1; cbn; auto; unfold heldl in *; cbn; rewrite ?IHscanned; auto. Qed.
  Lemma given_up_in now timeout n l1 o e (q : pendq M) p : scanned now timeout n (drop_done (pq q)) l1 o e ->
    In p (given_up q (after_loop e (pq_set q l1))) -> In p e.
  Proof.
    intros F H. unfold given_up in H. apply filter_In in H. destruct H as (Hi & Hn). destruct (in_dec N.eq_dec p e) as [A|A]; [exact A|exfalso].
    assert (K : In p (held (after_loop e (pq_set q l1)))).
    { unfold after_loop. assert (K : In p (held (fold_left (fun q p => fst (pend_complete p L1 q)) e (pq_set q l1)))).
      - apply completes_held; [|exact A]. rewrite held_heldl. cbn [pq pq_set]. rewrite (scanned_held _ _ _ _ _ _ _ F), heldl_drop_done, <- held_heldl. exact Hi.
      - destruct (is_nil e); [exact K|now rewrite held_drop]. }
    assert (existsb (N.eqb p) (held (after_loop e (pq_set q l1))) = true) by (apply existsb_exists; exists p; split; [exact K|apply N.eqb_refl]). rewrite H in Hn. discriminate.
  Qed.
End Gen.

(** ** MQTT 5 *)
Notation wrun5 := (wrun wpid5 w5_dup carries5 lifetime5 mok5).
Notation wrun3 := (wrun wpid3 w3_dup carries3 lifetime3 mok3).
Lemma run5_wrun rm max timeout amax ops o log : Forall op5_ok ops -> run5 rm max timeout amax ops = (o, log) ->
  wrun5 rm max timeout log (o5_q o).
Proof.
  unfold run5. revert o log. induction ops as [|op ops IH] using rev_ind; intros o log Hok E.
  { cbn in E. injection E as <- <-. apply wr_new. }
  apply Forall_app in Hok as [Hok Hop]. inversion Hop as [|? ? Hop' _]; subst. clear Hop.
  rewrite fold_left_app in E. cbn [fold_left] in E.
  destruct (fold_left run5_step ops (out5_new rm max timeout amax, [EConn rm])) as [o0 log0] eqn:E0.
  specialize (IH o0 log0 Hok eq_refl). unfold run5_step in E. cbn in E.
  destruct (step5 o0 op) as [o1 evs] eqn:Es. injection E as <- <-.
  pose proof (proj1 (a_ord _ _ _ _ _ _ _ (wrun_all _ _ _ _ _ _ _ _ _ _ IH))) as OK.
  eapply wr_step; [exact IH|]. clear IH E0. destruct op as [now x|now topic retain payload props|now|k now p|rm' amax']; cbn [step5] in Es.
  - unfold out5_push, push_back in Es. cbn [clean_complete pq pq_max pq_set] in Es.
    destruct Hop' as [Hn Hq].
    destruct (N.leb_spec (pq_max (o5_q o0)) (N.of_nat (List.length (drop_done (pq (o5_q o0)))))); injection Es as <- <-; cbn.
    + apply ws_full.
    + exact (ws_queue wpid5 w5_dup carries5 lifetime5 mok5 (o5_q o0) now (o5_next o0) x Hq).
  - unfold out5_qos0 in Es. destruct (apply_alias (o5_amax o0) topic props (o5_al o0)) as [[al t'] p'].
    injection Es as <- <-. cbn. now apply ws_zero.
  - unfold handle_pendings5 in Es.
    destruct (loop_wstep wpid5 w5_dup carries5 lifetime5 mok5 (pendings_body5 now (o5_amax o0)) now (o5_q o0) (o5_al o0) (good_body5 _ _) OK)
      as (q1 & a' & outs & e & l1 & EL & Eq & HM & _ & _).
    rewrite EL in Es. injection Es as <- <-. apply HM.
  - unfold out5_on_queue in Es. assert (K := ws_ack wpid5 w5_dup carries5 lifetime5 mok5 (o5_q o0) k now p).
    destruct (ack_queue k now p (o5_q o0)) as [q' b]. injection Es as <- <-. exact K.
  - injection Es as <- <-. cbn. apply ws_resume.
Qed.

Lemma run3_wrun rm max timeout ops o log : Forall op3_ok ops -> run3 rm max timeout ops = (o, log) ->
  wrun3 rm max timeout log (o3_q o).
Proof.
  unfold run3. revert o log. induction ops as [|op ops IH] using rev_ind; intros o log Hok E.
  { cbn in E. injection E as <- <-. apply wr_new. }
  apply Forall_app in Hok as [Hok Hop]. inversion Hop as [|? ? Hop' _]; subst. clear Hop.
  rewrite fold_left_app in E. cbn [fold_left] in E.
  destruct (fold_left run3_step ops (out3_new rm max timeout, [EConn rm])) as [o0 log0] eqn:E0.
  specialize (IH o0 log0 Hok eq_refl). unfold run3_step in E. cbn in E.
  destruct (step3 o0 op) as [o1 evs] eqn:Es. injection E as <- <-.
  pose proof (proj1 (a_ord _ _ _ _ _ _ _ (wrun_all _ _ _ _ _ _ _ _ _ _ IH))) as OK.
  eapply wr_step; [exact IH|]. clear IH E0. destruct op as [now x|now w|now|k now p|]; cbn [step3] in Es.
  - unfold out3_push, push_back in Es. cbn [clean_complete pq pq_max pq_set] in Es.
    destruct Hop' as [Hn Hq].
    destruct (N.leb_spec (pq_max (o3_q o0)) (N.of_nat (List.length (drop_done (pq (o3_q o0)))))); injection Es as <- <-; cbn.
    + apply ws_full.
    + exact (ws_queue wpid3 w3_dup carries3 lifetime3 mok3 (o3_q o0) now (o3_next o0) x Hq).
  - injection Es as <- <-. now apply ws_zero.
  - unfold handle_pendings3 in Es.
    destruct (loop_wstep wpid3 w3_dup carries3 lifetime3 mok3 (pendings_body3 now) now (o3_q o0) tt (good_body3 _) OK)
      as (q1 & a' & outs & e & l1 & EL & Eq & HM & _ & HE).
    rewrite EL in Es. rewrite (HE (body3_exp now)) in *. injection Es as <- <-. apply HM.
  - unfold out3_on_queue in Es. assert (K := ws_ack wpid3 w3_dup carries3 lifetime3 mok3 (o3_q o0) k now p).
    destruct (ack_queue k now p (o3_q o0)) as [q' b]. injection Es as <- <-. exact K.
  - injection Es as <- <-. cbn. unfold out3_resume. cbn [o3_q].
    assert (reset_last_sent (o3_q o0) = set_max_inflight (pq_inflight (o3_q o0)) (reset_last_sent (o3_q o0))) as -> by reflexivity. apply ws_resume.
Qed.

Section Resume.
  Context {M W A : Type}.
  Variable wpid : W -> option pid.
  Variable wdup : W -> bool.
  Variable carries : N -> N -> M -> W -> Prop.
  Variable lifetime : M -> option N.
  Variable mok : M -> Prop.
  Lemma resume_sends (body : pstatus M -> A -> pstatus M * A * list (sent W) * list pid) now rm (q : pendq M) a :
    good_body wpid wdup carries lifetime mok now body -> Forall (entry_ok mok) (pq q) -> pq_timeout q <= now ->
    let q1 := set_max_inflight rm (reset_last_sent q) in
    exists l1 a' o e n,
      pend_loop body (S (List.length (pq (clean_complete q1)))) now 0 (clean_complete q1) a [] [] = Some (pq_set q1 l1, a', o, e) /\
      Forall2 (sends wpid carries now) o (filter (fun x => negb (dead lifetime now x)) (firstn n (unfinished q))) /\
      incl (given_up q1 (after_loop e (pq_set q1 l1))) (map fst (filter (dead lifetime now) (firstn n (unfinished q)))) /\
      N.of_nat n <= rm /\ (0 < rm -> unfinished q <> [] -> (0 < n)%nat) /\
      (N.of_nat (List.length (pq q)) <= rm -> n = List.length (unfinished q)).
  Proof.
    intros G OK HT q1.
    assert (OK1 : Forall (entry_ok mok) (pq q1)).
    { unfold q1. cbn. rewrite Forall_forall in *. intros s Hs. apply in_map_iff in Hs. destruct Hs as (s0 & <- & Hs). specialize (OK s0 Hs). destruct s0; cbn in *; auto. destruct OK. auto. }
    destruct (loop_wstep wpid wdup carries lifetime mok body now q1 a G OK1) as (q2 & a' & o & e & l1 & EL & Eq & _ & SC & _). subst q2.
    assert (HL : Forall (fun s => last_of s = 0) (drop_done (pq q1))).
    { apply Forall_drop_done. unfold q1. cbn. rewrite Forall_forall. intros s Hs. apply in_map_iff in Hs as (s0 & <- & _). destruct s0; reflexivity. }
    pose proof SC as SC2; eapply scanned_sends in SC2; [|exact HT|exact HL]; destruct SC2 as (S1 & S2).
    destruct (unfl_firstn (current_inflight (clean_complete q1)) (drop_done (pq q1))) as (k & E1 & Ek). rewrite E1 in S1, S2.
    assert (EU : unfl (drop_done (pq q1)) = unfinished q) by (rewrite unfl_drop_done; apply unfl_reset). rewrite EU in S1, S2.
    destruct (resume_bounds carries lifetime rm q) as (B1 & B2 & B3). fold q1 in B1, B2, B3. rewrite <- Ek in B1, B2, B3.
    exists l1, a', o, e, k. split; [exact EL|]. split; [exact S1|]. split; [|split; [exact B1|split; [exact B2|exact B3]]].
    intros p Hp. rewrite <- S2. eapply given_up_in; eauto.
  Qed.
End Resume.

Lemma resume_v5 rm max timeout amax ops rm' amax' now :
  Forall op5_ok ops -> timeout <= now ->
  let before := fst (run5 rm max timeout amax ops) in
  let resumed := fst (run5 rm max timeout amax (ops ++ [O5Resume rm' amax'])) in
  unfinished (o5_q resumed) = unfinished (o5_q before) /\
  exists n out gone,
    snd (run5 rm max timeout amax (ops ++ [O5Resume rm' amax'; O5Flush now])) =
      snd (run5 rm max timeout amax ops) ++ [EConn rm'] ++ map (ESent now) out ++ map (EExpired now) gone /\
    Forall2 (sends wpid5 carries5 now) out (filter (fun x => negb (dead lifetime5 now x)) (firstn n (unfinished (o5_q before)))) /\
    incl gone (map fst (filter (dead lifetime5 now) (firstn n (unfinished (o5_q before))))) /\
    N.of_nat n <= rm' /\ (0 < rm' -> unfinished (o5_q before) <> [] -> (0 < n)%nat) /\
    (max <= rm' -> n = List.length (unfinished (o5_q before))).
Proof.
  intros ok Ht before resumed.
  assert (ET := run5_timeout rm max timeout amax ops ok). fold before in ET.
  assert (HB := c12_bound_v5 rm max timeout amax ops ok). fold before in HB.
  assert (ER : resumed = out5_resume rm' amax' before) by (unfold resumed; rewrite run5_snoc; reflexivity).
  split; [rewrite ER; apply unfl_reset|].
  assert (OK : Forall (entry_ok mok5) (pq (o5_q before))).
  { destruct (run5 rm max timeout amax ops) as [o log] eqn:E. exact (proj1 (a_ord _ _ _ _ _ _ _ (wrun_all _ _ _ _ _ _ _ _ _ _ (run5_wrun _ _ _ _ _ _ _ ok E)))). }
  destruct (resume_sends wpid5 w5_dup carries5 lifetime5 mok5 (pendings_body5 now amax') now rm' (o5_q before) aliases_empty (good_body5 _ _) OK ltac:(now rewrite ET))
    as (l1 & a' & outs & e & n & EL & S1 & S2 & B1 & B2 & B3).
  set (q1 := set_max_inflight rm' (reset_last_sent (o5_q before))) in *.
  assert (ES : step5 resumed (O5Flush now) =
     (Out5 (o5_next resumed) (after_loop e (pq_set q1 l1)) amax' a',
      map (ESent now) outs ++ map (EExpired now) (given_up q1 (after_loop e (pq_set q1 l1))))).
  { cbn [step5]. unfold handle_pendings5. rewrite ER. cbn [o5_q o5_amax o5_al out5_resume o5_next]. fold q1. rewrite EL. reflexivity. }
  exists n, outs, (given_up q1 (after_loop e (pq_set q1 l1))). split; [|split; [exact S1|split; [exact S2|split; [exact B1|split; [exact B2|]]]]].
  - change (ops ++ [O5Resume rm' amax'; O5Flush now]) with (ops ++ [O5Resume rm' amax'] ++ [O5Flush now]). rewrite app_assoc, run5_snoc. unfold resumed in ES. rewrite ES. rewrite run5_snoc. cbn [snd fst step5].
    now rewrite <- app_assoc.
  - intros Hm. apply B3. lia.
Qed.

Lemma resume_v3 rm max timeout ops now :
  Forall op3_ok ops -> timeout <= now ->
  let before := fst (run3 rm max timeout ops) in
  let resumed := fst (run3 rm max timeout (ops ++ [O3Resume])) in
  unfinished (o3_q resumed) = unfinished (o3_q before) /\
  exists n out,
    snd (run3 rm max timeout (ops ++ [O3Resume; O3Flush now])) =
      snd (run3 rm max timeout ops) ++ [EConn rm] ++ map (ESent now) out /\
    Forall2 (sends wpid3 carries3 now) out (firstn n (unfinished (o3_q before))) /\
    N.of_nat n <= rm /\ (0 < rm -> unfinished (o3_q before) <> [] -> (0 < n)%nat) /\
    (max <= rm -> n = List.length (unfinished (o3_q before))).
Proof.
  intros ok Ht before resumed.
  assert (ET := run3_timeout rm max timeout ops ok). fold before in ET.
  assert (HB := c12_bound_v3 rm max timeout ops ok). fold before in HB.
  assert (EM := run3_rm rm max timeout ops). fold before in EM.
  set (q1 := set_max_inflight rm (reset_last_sent (o3_q before))) in *.
  assert (ER : resumed = Out3 (o3_next before) q1).
  { unfold resumed, q1. rewrite run3_snoc. cbn [step3 fst]. fold before. unfold out3_resume. rewrite <- EM. now destruct (o3_q before). }
  split; [rewrite ER; apply unfl_reset|].
  assert (OK : Forall (entry_ok mok3) (pq (o3_q before))).
  { destruct (run3 rm max timeout ops) as [o log] eqn:E. exact (proj1 (a_ord _ _ _ _ _ _ _ (wrun_all _ _ _ _ _ _ _ _ _ _ (run3_wrun _ _ _ _ _ _ ok E)))). }
  destruct (resume_sends wpid3 w3_dup carries3 lifetime3 mok3 (pendings_body3 now) now rm (o3_q before) tt (good_body3 _) OK ltac:(now rewrite ET))
    as (l1 & a' & outs & e & n & EL & S1 & S2 & B1 & B2 & B3). fold q1 in EL, S2.
  assert (ND : forall l, filter (dead lifetime3 now) l = [] /\ filter (fun x => negb (dead lifetime3 now x)) l = l).
  { induction l as [|[p [[t m]|]] l (I1 & I2)]; cbn; auto; split; auto; now rewrite I2. }
  rewrite (proj2 (ND _)) in S1. rewrite (proj1 (ND _)) in S2. cbn in S2.
  assert (EE : e = []).
  { assert (OK1 : Forall (entry_ok mok3) (pq q1)).
    { unfold q1. cbn. rewrite Forall_forall in *. intros s Hs. apply in_map_iff in Hs. destruct Hs as (s0 & <- & Hs). specialize (OK s0 Hs). destruct s0; cbn in *; auto. destruct OK. auto. }
    destruct (loop_wstep wpid3 w3_dup carries3 lifetime3 mok3 (pendings_body3 now) now q1 tt (good_body3 _) OK1) as (? & ? & ? & e' & ? & EL' & _ & _ & _ & HE).
    rewrite EL in EL'. injection EL' as _ _ _ ->. apply HE. apply body3_exp. }
  subst e.
  assert (ES : step3 resumed (O3Flush now) =
     (Out3 (o3_next resumed) (pq_set q1 l1), map (ESent now) outs ++ map (EExpired now) (given_up q1 (pq_set q1 l1)))).
  { cbn [step3]. unfold handle_pendings3. rewrite ER. cbn [o3_q o3_next]. rewrite EL. reflexivity. }
  assert (EG : given_up q1 (pq_set q1 l1) = []) by (change (incl (given_up q1 (pq_set q1 l1)) []) in S2; now apply incl_l_nil).
  rewrite EG, app_nil_r in ES.
  exists n, outs. split.
  { change [O3Resume; O3Flush now] with ([O3Resume] ++ [O3Flush now]). rewrite app_assoc, run3_snoc.
    fold resumed. rewrite ES. cbn [fst snd]. rewrite run3_snoc. cbn [snd step3]. fold before. rewrite EM. now rewrite <- !app_assoc. }
  split; [exact S1|]. split; [exact B1|]. split; [exact B2|]. intros Hm. apply B3. lia.
Qed.
