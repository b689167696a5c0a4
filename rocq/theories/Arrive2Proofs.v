(** The order in which the application of a correct client gets messages with QoS 2. *)
From Coq Require Import List Bool Arith NArith Lia Sorted String.
From Coq Require Import ZifyBool ZifyNat ZifyN.
From Verif Require Import Base BaseLemmas MsgModel PendingModel PendingProofs OutModel OutSpec OutProofs OutInv OutLemmas OutFacts OrderSpec OrderProofs CliSpec CliProofs CliFacts ArriveSpec ArriveProofs
  GlobModel Sess5Model Sess3Model ConnModel InSpec LinkSpec LinkProofs LinkProofs3 LinkFacts RegModel BrokerModel BrokerSpec LifeSpec LifeFacts RecordProofs.
Import List ListNotations.
Local Open Scope N_scope.
Local Open Scope list_scope.

(** The number of the last message queued under an identifier. *)
Definition lastidx {M} (p : pid) (Q : list (N * pid * M)) : nat :=
  snd (fold_left (fun (a : nat * nat) (q : N * pid * M) => (S (fst a), if snd (fst q) =? p then fst a else snd a)) Q (0%nat, 0%nat)).
Lemma lastidx_fst {M} p (Q : list (N * pid * M)) : forall a, fst (fold_left (fun (a : nat * nat) (q : N * pid * M) => (S (fst a), if snd (fst q) =? p then fst a else snd a)) Q a) = (fst a + length Q)%nat.
Proof. induction Q as [|q Q IH]; intros a; cbn; [lia|]. rewrite IH. cbn. lia. Qed.
Lemma lastidx_snoc {M} p (Q : list (N * pid * M)) t q m : lastidx p (Q ++ [(t, q, m)]) = if q =? p then length Q else lastidx p Q.
Proof. unfold lastidx. rewrite fold_left_app. cbn. now rewrite lastidx_fst. Qed.

Section Tag.
  Context {M W : Type}.
  Variable wpid : W -> option pid.
  Variable wdup : W -> bool.
  Variable carries : N -> N -> M -> W -> Prop.
  Variable lifetime : M -> option N.
  Variable mok : M -> Prop.
  Notation st := (pstatus M).
  Notation oev := (oev M W).
  Notation Inv := (OutProofs.Inv wpid wdup carries lifetime mok).
  Notation mstep := (mstep wpid wdup carries lifetime mok).
  Notation mrun := (mrun wpid wdup carries lifetime mok).
  Notation flushed := (flushed wpid wdup carries lifetime).
  Notation shows := (shows wpid carries).

  (** Transmissions with the numbers of their messages. *)
  Definition tpub (Q : list (N * pid * M)) (s : sent W) : list (W * nat) :=
    match s with SPub w => match wpid w with Some p => [(w, lastidx p Q)] | None => [] end | SRel _ => [] end.
  Definition tway (log : list oev) (d : list (W * nat)) (e : oev) : list (W * nat) :=
    match e with EConn _ => [] | ESent _ s => d ++ tpub (queued log) s | _ => d end.
  Inductive tarr : list oev -> list (W * nat) -> list (W * nat) -> Prop :=
  | ta_nil : tarr [] [] []
  | ta_event log d r e : tarr log d r -> tarr (log ++ [e]) (tway log d e) r
  | ta_take log s d r : tarr log (s :: d) r -> tarr log d (r ++ [s]).

  Lemma tarr_nil log d r : tarr log d r -> log = [] -> d = [] /\ r = [].
  Proof. induction 1 as [|log d r e H IH|log s d r H IH]; intros E; auto; [now destruct log|]. destruct (IH E) as (X & _). discriminate. Qed.
  Lemma tarr_snoc log e : (forall rm, e <> EConn rm) -> forall l d r, tarr l d r -> l = log ++ [e] ->
    exists d0 r0, tarr log d0 r0 /\ r ++ d = (r0 ++ d0) ++ flat_map (tpub (queued log)) (sends [e]).
  Proof.
    intros NC l d r H. induction H as [|l d r e' H IH|l s d r H IH]; intros E; [now destruct log| |].
    - apply app_inj_tail in E as (-> & ->). exists d, r. split; [exact H|]. destruct e; cbn; rewrite ?app_nil_r; auto; [destruct (NC rm eq_refl)|now rewrite app_assoc].
    - destruct (IH E) as (d0 & r0 & A & X). exists d0, r0. split; [exact A|]. rewrite <- X, <- app_assoc. reflexivity.
  Qed.
  Lemma tarr_conn log rm : forall l d r, tarr l d r -> l = log ++ [EConn rm] -> d = [] /\ exists d0, tarr log d0 r.
  Proof.
    intros l d r H. induction H as [|l d r e' H IH|l s d r H IH]; intros E; [now destruct log| |].
    - apply app_inj_tail in E as (-> & ->). split; [reflexivity|]. eauto.
    - destruct (IH E) as (X & _). discriminate.
  Qed.
  Lemma tarr_flush log t o g : forall d r, tarr (log ++ flush_events t o g) d r ->
    exists d0 r0, tarr log d0 r0 /\ r ++ d = (r0 ++ d0) ++ flat_map (tpub (queued log)) o.
  Proof.
    unfold flush_events. induction g as [|p g IH] using rev_ind; intros d r H.
    - cbn in H. rewrite app_nil_r in H. revert d r H. induction o as [|s o IH] using rev_ind; intros d r H.
      + cbn in *. rewrite app_nil_r in H. exists d, r. now rewrite app_nil_r.
      + rewrite map_app, app_assoc in H. cbn [map] in H. destruct (tarr_snoc (log ++ map (ESent t) o) (ESent t s) ltac:(discriminate) _ _ _ H eq_refl) as (d1 & r1 & A & X).
        destruct (IH _ _ A) as (d0 & r0 & A0 & X0). exists d0, r0. split; [exact A0|]. rewrite X, X0, flat_map_app, <- !app_assoc. do 3 f_equal.
        assert (queued (log ++ map (ESent t) o) = queued log) as ->; [|reflexivity]. rewrite queued_app. replace (queued (map (ESent t) o)) with (@nil (N * pid * M)) by (clear; induction o; cbn; auto). apply app_nil_r.
    - rewrite map_app in H. cbn [map] in H. rewrite !app_assoc in H. destruct (tarr_snoc _ (EExpired t p) ltac:(discriminate) _ _ _ H eq_refl) as (d1 & r1 & A & X).
      rewrite <- app_assoc in A. destruct (IH _ _ A) as (d0 & r0 & A0 & X0). exists d0, r0. split; [exact A0|]. rewrite X, X0. cbn. now rewrite app_nil_r.
  Qed.

  (** ** Queue entries *)
  Definition ent2 (Q : list (N * pid * M)) (x : list nat) (s : st) (j : nat) : Prop :=
    (j < length Q)%nat /\
    match s with
    | PNew ad l p m d => nth_error Q j = Some (ad, p, m) /\ j = lastidx p Q /\ (l <> 0 -> In j x) /\ (In j x \/ Forall (fun i => (i < j)%nat) x)
    | _ => True
    end.
  Definition tags2 Q x (l : list st) : Prop := exists ts, StronglySorted lt ts /\ Forall2 (ent2 Q x) l ts.
  Lemma tags2_drop_done Q x l : tags2 Q x l -> tags2 Q x (drop_done l).
  Proof.
    intros (ts & S & F). revert S. induction F as [|s j l ts E F IH]; intros S; [exists []; split; constructor|].
    destruct s; [exists (j :: ts); split; [exact S|constructor; auto]..|]. cbn. apply IH. now inversion S.
  Qed.
  Lemma tags2_map Q x Q' x' (R : st -> st -> Prop) l l' : (forall s s' j, R s s' -> ent2 Q x s j -> ent2 Q' x' s' j) ->
    Forall2 R l l' -> tags2 Q x l -> tags2 Q' x' l'.
  Proof.
    intros H F (ts & S & K). exists ts. split; [exact S|]. clear S. revert ts K. induction F as [|s s' l l' E F IH]; intros ts K; inversion K; subst; constructor; eauto.
  Qed.
  Lemma tags2_fin Q x l l' : Forall2 fin l l' -> tags2 Q x l -> tags2 Q x l'.
  Proof. apply tags2_map. intros s s' j [->|((ad & lt & p & m & d & ->) & ->)]; [auto|]. intros (A & _). split; [exact A|exact I]. Qed.

  Lemma flushed_none now timeout n l l' o e : flushed now timeout n l l' o e -> o = [] -> Forall2 fin l l'.
  Proof.
    induction 1; intros E; try discriminate; try (apply fin_refl); constructor; auto; [now left|]. right. split; [eauto 7|reflexivity].
  Qed.
  Lemma flushed_due now timeout n l l' o e : flushed now timeout n l l' o e -> o <> [] -> timeout <= now.
  Proof. induction 1; intros E; auto; try congruence; lia. Qed.

  Lemma flushed_arrive (log : list oev) now timeout n l l' o e : flushed now timeout n l l' o e -> timeout <= now ->
    forall x ts, first_in_order x -> StronglySorted lt ts -> Forall2 (ent2 (queued log) x) l ts ->
    let a := flat_map (tpub (queued log)) o in
    Forall2 (shows log) (map fst a) (map snd a) /\ first_in_order (x ++ map snd a) /\ Forall2 (ent2 (queued log) (x ++ map snd a)) l' ts.
  Proof.
    intros F TO. induction F as [l|n|n s r r' o e Hd F IH|n ad p m d r r' o e Hd He F IH|n ad l p m d w r r' o e Hd He H1 H2 H3 F IH|n l p r r' o e Hd F IH]; intros x ts FX SS K a.
    - cbn. rewrite app_nil_r. repeat split; auto.
    - cbn. rewrite app_nil_r. repeat split; auto.
    - inversion K as [|? j ? ts' E K']; subst. inversion SS; subst. destruct (IH x ts' FX ltac:(assumption) K') as (Y1 & Y2 & Y3). split; [exact Y1|]. split; [exact Y2|]. constructor; [|exact Y3].
      destruct E as (A & B). split; [exact A|]. destruct s as [ad l p m d|l p|]; auto. destruct B as (B1 & B0 & B2 & B3). cbn in Hd.
      assert (In j (x ++ map snd a)) by (apply in_app_iff; left; apply B2; lia). auto.
    - inversion K as [|? j ? ts' E K']; subst. inversion SS; subst. destruct (IH x ts' FX ltac:(assumption) K') as (Y1 & Y2 & Y3). split; [exact Y1|]. split; [exact Y2|]. constructor; [|exact Y3].
      destruct E as (A & _). split; [exact A|exact I].
    - inversion K as [|? j ? ts' E K']; subst. inversion SS as [|? ? SS' SF]; subst. destruct E as (A & B1 & B0 & B2 & B3).
      destruct (IH (x ++ [j]) ts') as (Y1 & Y2 & Y3); [now apply first_snoc|exact SS'| |].
      { clear - K' SF. induction K' as [|s i l ts' E K IH]; [constructor|]. inversion SF; subst. constructor; [|auto]. destruct E as (A & B). split; [exact A|]. destruct s; auto.
        destruct B as (B1 & B0 & B2 & B3). split; [exact B1|]. split; [exact B0|]. split; [intros X; apply in_app_iff; left; auto|]. destruct B3 as [B3|B3]; [left; apply in_app_iff; now left|right; apply Forall_app; split; [exact B3|repeat constructor; assumption]]. }
      subst a. cbn [flat_map tpub]. rewrite H1. cbn [app map fst snd]. rewrite <- B0. rewrite <- app_assoc in Y2, Y3. split; [|split; [exact Y2|]].
      + constructor; [|exact Y1]. exists ad, p, m, now. auto.
      + constructor; [|exact Y3]. split; [exact A|]. split; [exact B1|]. split; [exact B0|]. assert (In j (x ++ j :: map snd (flat_map (tpub (queued log)) o))) by (apply in_app_iff; right; now left). auto.
    - inversion K as [|? j ? ts' E K']; subst. inversion SS; subst. destruct (IH x ts' FX ltac:(assumption) K') as (Y1 & Y2 & Y3). split; [exact Y1|]. split; [exact Y2|]. constructor; [|exact Y3].
      destruct E as (A & _). split; [exact A|exact I].
  Qed.

  (** ** Runs *)
  Definition Tag (q : pendq M) (log : list oev) : Prop :=
    forall d r, tarr log d r ->
    Forall2 (shows log) (map fst (r ++ d)) (map snd (r ++ d)) /\ first_in_order (map snd (r ++ d)) /\ tags2 (queued log) (map snd (r ++ d)) (pq q).

  Lemma mstep_tag n q log evs n' q' : mstep n q evs n' q' -> Inv q log -> no_reuse (log ++ evs) -> Tag q log -> Tag q' (log ++ evs).
  Proof.
    intros S HI NR H d r A. destruct S as [n q t m Ht Hm Hl|n q t m Hl|n q t w Hw|n q t l' o e Ht F Fs Fg|n q k t p Ht|n q rm]; rewrite ?queued_app.
    - destruct (tarr_snoc log (EQueued t n m) ltac:(discriminate) _ _ _ A eq_refl) as (d0 & r0 & A0 & X). cbn in X. rewrite app_nil_r in X. rewrite X. destruct (H _ _ A0) as (X1 & X2 & X3).
      split; [now apply shows_all|]. split; [exact X2|]. cbn [queued flat_map app pq pq_set].
      pose proof (shows_bound _ _ _ _ _ X1) as XB. apply tags2_drop_done in X3. destruct X3 as (ts0 & S0 & K0).
      assert (NH : forall ad l m' dd, ~ In (PNew ad l n m' dd) (drop_done (pq q))).
      { intros ad l m' dd Hi. apply in_drop_done in Hi. specialize (NR log t n m [] eq_refl). rewrite (i_act _ _ _ _ _ _ _ HI n) in NR. apply memb_false in NR. apply NR.
        unfold heldl. apply in_flat_map. exists (PNew ad l n m' dd). split; [exact Hi|now left]. }
      exists (ts0 ++ [length (queued log)]). split.
      + clear - S0 K0. revert S0. induction K0 as [|s j l ts E K IH]; intros S; [repeat constructor|]. inversion S; subst. cbn. constructor; [auto|]. apply Forall_app. split; [assumption|]. repeat constructor. apply E.
      + apply Forall2_app.
        * clear - K0 NH. induction K0 as [|s j l ts (A & B) K IH]; constructor; [|apply IH; intros; intros Y; eapply NH; right; exact Y].
          split; [rewrite app_length; lia|]. destruct s as [ad l0 p m0 dd| |]; auto. destruct B as (B1 & B0 & B2). split; [now rewrite nth_error_app1|]. split; [|auto].
          rewrite lastidx_snoc. destruct (N.eqb_spec n p) as [->|]; [exfalso; eapply NH; now left|exact B0].
        * constructor; [|constructor]. split; [rewrite app_length; cbn; lia|]. split; [rewrite nth_error_app2, Nat.sub_diag by lia; reflexivity|]. rewrite lastidx_snoc, N.eqb_refl. split; [reflexivity|]. split; [intros Y; contradiction|auto].
    - destruct (tarr_snoc log (EFull t n m) ltac:(discriminate) _ _ _ A eq_refl) as (d0 & r0 & A0 & X). cbn in X. rewrite app_nil_r in X. rewrite X. destruct (H _ _ A0) as (X1 & X2 & X3).
      cbn. rewrite app_nil_r. split; [now apply shows_all|]. split; [exact X2|]. now apply tags2_drop_done.
    - destruct (tarr_snoc log (ESent t (SPub w)) ltac:(discriminate) _ _ _ A eq_refl) as (d0 & r0 & A0 & X). cbn in X. rewrite Hw in X. cbn in X. rewrite app_nil_r in X. rewrite X. destruct (H _ _ A0) as (X1 & X2 & X3).
      cbn. rewrite app_nil_r. split; [now apply shows_all|]. split; [exact X2|exact X3].
    - specialize (F (i_nd _ _ _ _ _ _ _ HI) (i_ok _ _ _ _ _ _ _ HI)). destruct (tarr_flush log t o _ _ _ A) as (d0 & r0 & A0 & X). rewrite X. destruct (H _ _ A0) as (X1 & X2 & X3).
      rewrite queued_flush, app_nil_r. cbn [pq pq_set]. apply tags2_drop_done in X3. rewrite !map_app in *.
      destruct o as [|s0 o].
      + cbn. rewrite !app_nil_r. split; [now apply shows_all|]. split; [exact X2|]. apply tags2_drop_done. eapply tags2_fin; [|exact X3]. eapply flushed_none; eauto.
      + pose proof (flushed_due _ _ _ _ _ _ _ F ltac:(discriminate)) as DU. destruct X3 as (ts & SS & K).
        destruct (flushed_arrive log _ _ _ _ _ _ _ F DU _ ts X2 SS K) as (Y1 & Y2 & Y3). split; [apply shows_all; now apply Forall2_app|]. split; [exact Y2|].
        apply tags2_drop_done. exists ts. auto.
    - destruct (tarr_snoc log (EAcked k t p (snd (ack_queue k t p q))) ltac:(discriminate) _ _ _ A eq_refl) as (d0 & r0 & A0 & X). cbn in X. rewrite app_nil_r in X. rewrite X. destruct (H _ _ A0) as (X1 & X2 & X3).
      cbn -[ack_queue]. rewrite app_nil_r. split; [now apply shows_all|]. split; [exact X2|].
      destruct (ack_queue_spec k t p q) as [(a & s & b & s' & E & L & Hp & Hk & Eq)|[_ Eq]]; rewrite Eq; cbn [fst pq pq_set]; [|exact X3]. rewrite E in X3.
      refine (tags2_map _ _ _ _ (fun s s' => s' = s \/ match s' with PNew _ _ _ _ _ => False | _ => True end) (a ++ s :: b) _ _ _ X3).
      + intros z z' j [->|Z] (B1 & B2); [split; auto|]. split; [exact B1|]. destruct z'; tauto.
      + assert (R : forall l : list st, Forall2 (fun s s' => s' = s \/ match s' with PNew _ _ _ _ _ => False | _ => True end) l l) by (induction l; constructor; auto).
        apply Forall2_app; [apply R|]. constructor; [|apply R]. right. destruct k, Hk as (_ & ->); exact I.
    - destruct (tarr_conn log rm _ _ _ A eq_refl) as (-> & d0 & A0). destruct (H _ _ A0) as (X1 & X2 & X3). rewrite !map_app in *.
      apply Forall2_app_inv_l in X1 as (xr & xd & X1 & X4 & E). rewrite app_nil_r. cbn [queued flat_map]. rewrite app_nil_r.
      assert (E' : map snd r = xr). { apply Forall2_length in X1. rewrite map_length in X1. assert (length xr = length (map snd r)) by (rewrite map_length; auto). clear - E H0. revert xr E H0. generalize (map snd r) as z. induction z as [|y z IH]; intros [|y' xr] E L; cbn in *; try discriminate; auto. injection E as -> E. f_equal. apply IH; auto. }
      subst xr. apply app_inv_head in E. cbn [map]. rewrite app_nil_r. split; [now apply shows_all|]. split; [eapply first_prefix; eauto|].
      refine (tags2_map _ _ _ _ (fun s s' => s' = reset_status s) (pq q) _ _ _ X3).
      + intros s s' j -> (B1 & B2). split; [exact B1|]. destruct s as [ad l p m dd|l p|]; cbn; auto. destruct B2 as (B2 & B0 & B3 & B4). split; [exact B2|]. split; [exact B0|]. split; [intros Y; contradiction|].
        destruct B4 as [B4|B4]; [|right; apply Forall_app in B4; tauto]. destruct (first_cut _ _ _ X2 B4); auto.
      + clear. cbn. induction (pq q); cbn; constructor; auto.
  Qed.

  Lemma mrun_tag rm max timeout log n q : mrun rm max timeout log n q -> no_reuse log -> Tag q log.
  Proof.
    induction 1 as [|log n q evs n' q' R IH S]; intros NR.
    - intros d r A. destruct (tarr_conn [] rm _ _ _ A eq_refl) as (-> & d0 & A0). destruct (tarr_nil _ _ _ A0 eq_refl) as (_ & ->).
      cbn. split; [constructor|]. split; [intros a i b E; now destruct a|]. exists []. split; constructor.
    - assert (NR' : no_reuse log). { intros a t0 p0 m0 b Eb. apply (NR a t0 p0 m0 (b ++ evs)). now rewrite Eb, <- app_assoc. }
      eapply mstep_tag; eauto. eapply mrun_inv; eauto.
  Qed.
  (** Only what has arrived, at any earlier point of the log. *)
  Lemma tarr_later log evs d r : tarr log d r -> exists d', tarr (log ++ evs) d' r.
  Proof.
    revert log d. induction evs as [|e evs IH]; intros log d A; [rewrite app_nil_r; eauto|]. replace (log ++ e :: evs) with ((log ++ [e]) ++ evs) by now rewrite <- app_assoc.
    eapply IH. constructor. exact A.
  Qed.
  Lemma tag_received q log d r : Tag q log -> tarr log d r -> Forall2 (shows log) (map fst r) (map snd r) /\ first_in_order (map snd r).
  Proof.
    intros T A. destruct (T d r A) as (X1 & X2 & _). rewrite !map_app in *. split; [|eapply first_prefix; eauto].
    clear - X1. revert X1. generalize (map fst d) as a, (map snd d) as b. induction r as [|y r IH]; intros a b X; cbn in *; [constructor|]. inversion X; subst. constructor; eauto.
  Qed.
End Tag.

(** ** The application *)
Lemma sorted_snoc (y : list nat) i : StronglySorted lt y -> Forall (fun j => (j < i)%nat) y -> StronglySorted lt (y ++ [i]).
Proof.
  induction y as [|j y IH]; intros S F; cbn; [repeat constructor|]. inversion S; subst. inversion F; subst. constructor; [auto|]. apply Forall_app. split; [assumption|repeat constructor; assumption].
Qed.
Lemma lastidx_app {M} p (Q : list (N * pid * M)) : forall R, (forall t m, ~ In (t, p, m) R) -> lastidx p (Q ++ R) = lastidx p Q.
Proof.
  induction R as [|[[t q] m] R IH] using rev_ind; intros H; [now rewrite app_nil_r|]. rewrite app_assoc, lastidx_snoc. destruct (N.eqb_spec q p) as [->|].
  - exfalso. apply (H t m). apply in_app_iff. right. now left.
  - apply IH. intros t' m' Hi. apply (H t' m'). apply in_app_iff. now left.
Qed.
Lemma queued_in {M W} (log : list (oev M W)) t p m : In (t, p, m) (queued log) -> In (EQueued t p m) log.
Proof. unfold queued. intros H. apply in_flat_map in H as (e & He & Hi). destruct e; try contradiction. destruct Hi as [E|[]]. injection E as -> -> ->. exact He. Qed.
Lemma lastidx_at {M W} (a b : list (oev M W)) t p m : (forall t1 m1, ~ In (EQueued t1 p m1) b) ->
  (lastidx p (queued (a ++ EQueued t p m :: b)) < length (queued (a ++ EQueued t p m :: b)))%nat.
Proof.
  intros H. rewrite queued_app. change (queued (EQueued t p m :: b)) with ([(t, p, m)] ++ queued b). rewrite app_assoc, lastidx_app.
  - rewrite lastidx_snoc, N.eqb_refl, !app_length. cbn. lia.
  - intros t1 m1 Hi. apply queued_in in Hi. exact (H t1 m1 Hi).
Qed.

Section App2.
  Context {M W : Type}.
  Variable wqp : W -> qospid.
  Variable wdup : W -> bool.
  Variable carries : N -> N -> M -> W -> Prop.
  Variable lifetime : M -> option N.
  Variable mqos : M -> qos.
  Hypothesis carries_qos : forall t0 t m w, carries t0 t m w -> qp_qos (wqp w) = mqos m.
  Variable timeout : N.
  Local Notation wpid := (fun w => qp_pid (wqp w)).
  Local Notation oev := (oev M W).
  Local Notation life := (fun p => OutSpec.life wpid wdup carries lifetime timeout p).
  Local Notation CInv := (fun p => CliProofs.Inv wqp carries p).
  Local Notation pubs := (pubs wpid).
  Local Notation shows := (shows wpid carries).
  Local Notation tarr := (@tarr M W wpid).
  Variable full : list oev.
  Hypothesis full_taken : forall p, taken wqp wdup carries lifetime timeout p full.
  Hypothesis full_life : forall p, exists st, life p full st.
  Hypothesis clean : expired_unsent full wpid.
  Hypothesis recvd : forall log rest d r, full = log ++ rest -> tarr log d r -> Forall2 (shows full) (map fst r) (map snd r) /\ first_in_order (map snd r).

  Definition is2 (w : W) : bool := match wqp w with Q2 _ => true | _ => false end.
  Definition cur (p : pid) (Q : list (N * pid * M)) (y : list nat) : Prop :=
    In (lastidx p Q) y /\ exists t m, nth_error (queued full) (lastidx p Q) = Some (t, p, m).
  Record J (log : list oev) (c : client W) (d r : list (W * nat)) (y : list nat) : Prop := {
    j_arr : tarr log d r;
    j_down : map fst d = pubs (c_down c);
    j_cur : forall w i p, In (w, i) d -> wpid w = Some p -> i = lastidx p (queued log) /\ (i < length (queued log))%nat;
    j_bound : forall w i, In (w, i) r -> (i < length (queued log))%nat;
    j_app : Forall2 (shows full) (filter is2 (c_app c)) y;
    j_sort : StronglySorted lt y;
    j_all : forall i, In i y <-> exists w, In (w, i) r /\ is2 w = true;
    j_inv : forall p st, life p log st -> exists X two dd, CInv p (expired_unsent full wpid) X two st c dd (outstanding wpid log) /\ (two = true -> (dd <> [] <-> cur p (queued log) y))
  }.

  Lemma life_prefix p a b : full = a ++ b -> exists s, life p a s.
  Proof.
    intros Eb. destruct (full_life p) as (st & HL). rewrite Eb in HL. clear - HL. revert st HL. induction b as [|x b IH] using rev_ind; intros st HL; [rewrite app_nil_r in HL; eauto|].
    rewrite app_assoc in HL. apply OutLemmas.life_snoc_inv in HL as (s0 & HL & _). eauto.
  Qed.
  Lemma pubs_in w l : In w (pubs l) <-> In (SPub w) l /\ wpid w <> None.
  Proof.
    unfold ArriveSpec.pubs. rewrite in_flat_map. split.
    - intros ([v|q] & Hi & Hw); [|contradiction]. destruct (qp_pid (wqp v)) eqn:E; [|contradiction]. destruct Hw as [->|[]]. split; [exact Hi|]. now rewrite E.
    - intros (Hi & Hw). exists (SPub w). split; [exact Hi|]. destruct (qp_pid (wqp w)); [now left|contradiction].
  Qed.
  Lemma tarr_takes log : forall a d r, tarr log (a ++ d) r -> tarr log d (r ++ a).
  Proof.
    induction a as [|s a IH]; intros d r H; [now rewrite app_nil_r|]. replace (r ++ s :: a) with ((r ++ [s]) ++ a) by now rewrite <- app_assoc. apply IH. now constructor.
  Qed.

  (** An event of the log. *)
  Lemma j_event log rest c1 e c2 d r y : full = log ++ e :: rest -> CliSpec.heard wqp c1 e c2 -> J log c1 d r y ->
    J (log ++ [e]) c2 (tway wpid log d e) r y.
  Proof.
    intros E Hd [JA JD JC JB JP JS JL JI].
    assert (APP : c_app c2 = c_app c1) by (destruct Hd; reflexivity).
    constructor; auto.
    - now constructor.
    - destruct Hd; cbn [tway c_down]; auto.
      + rewrite pubs_app, map_app, JD. f_equal. destruct s as [w|q]; cbn; [|reflexivity]. now destruct (qp_pid (wqp w)).
      + rewrite pubs_app, JD. destruct k; cbn; now rewrite app_nil_r.
    - intros w i p Hi Hw.
      destruct e as [rm|t q m|t q m|t s|k t q ok|t q]; cbn [tway] in Hi; rewrite queued_app; cbn [queued flat_map]; rewrite ?app_nil_r; try (exact (JC w i p Hi Hw)).
      + contradiction.
      + inversion Hd as [|? ? ? ? Q| | | |]; subst. destruct (JC w i p Hi Hw) as (A & B). split; [|rewrite app_length; lia]. rewrite lastidx_snoc. destruct (N.eqb_spec q p) as [->|]; [|exact A].
        exfalso. destruct Q as (Q & _). rewrite Forall_forall in Q. assert (K : In w (pubs (c_down c2))) by (rewrite <- JD; now apply (in_map fst _ (w, i))). apply pubs_in in K as (K & _). apply (Q _ K). exact Hw.
      + apply in_app_iff in Hi as [Hi|Hi]; [exact (JC w i p Hi Hw)|]. destruct s as [v|q]; [|contradiction]. cbn in Hi. destruct (qp_pid (wqp v)) as [q|] eqn:V; [|contradiction]. destruct Hi as [Hi|[]]. injection Hi as -> <-.
        rewrite V in Hw. injection Hw as ->. split; [reflexivity|]. destruct (life_prefix p log (ESent t (SPub w) :: rest) E) as (st & HL).
        destruct (life_prefix p (log ++ [ESent t (SPub w)]) rest ltac:(now rewrite <- app_assoc)) as (st' & HL'). apply OutLemmas.life_snoc_inv in HL' as (s0 & HL0 & HS).
        assert (Q : exists a b t0 m, log = a ++ EQueued t0 p m :: b /\ (forall t1 m1, ~ In (EQueued t1 p m1) b)).
        { inversion HS; subst; try (cbn in *; congruence).
          - destruct (CliProofs.life_queued wqp wdup carries lifetime timeout p _ _ _ HL0) as (a & b & Ea & Hb). eauto 8.
          - destruct (CliProofs.life_sent wqp wdup carries lifetime timeout p _ _ _ _ HL0) as (a & b & Ea & Hb & _). eauto 8.
          - destruct (CliProofs.life_sent wqp wdup carries lifetime timeout p _ _ _ _ HL0) as (a & b & Ea & Hb & _). eauto 8. }
        destruct Q as (a & b & t0 & m & -> & Hb). now apply lastidx_at.
    - intros w i Hi. rewrite queued_app, app_length. specialize (JB w i Hi). lia.
    - now rewrite APP.
    - intros p st HL. apply OutLemmas.life_snoc_inv in HL as (s0 & HL & HS). destruct (JI p s0 HL) as (X & two & dd & HI & HC).
      destruct (CliProofs.here wqp wdup carries lifetime timeout p full (full_taken p) _ _ _ _ _ E HL HS) as (K1 & K2).
      assert (OS : outstanding wpid (log ++ [e]) = outstanding_step wpid (outstanding wpid log) e) by (unfold outstanding; now rewrite fold_left_app).
      rewrite OS. destruct (is_queued_dec p e) as [(t & m & ->)|NQ].
      + inversion HS; subst; [cbn in *; congruence|]. inversion Hd; subst. eexists _, _, []. split; [cbn [outstanding_step]; eapply inv_queue; eauto|]. intros _. split; [intros K; now contradiction K|].
        intros (K & _). exfalso. rewrite queued_app in K. cbn in K. rewrite lastidx_snoc, N.eqb_refl in K. apply JL in K as (w & K & _). apply JB in K. lia.
      + exists X, two, dd. split; [eapply inv_event; eauto|]. intros T. rewrite (HC T). unfold cur. rewrite queued_app, lastidx_app; [reflexivity|].
        intros t m Hi. apply queued_in in Hi as [->|[]]. exact (NQ t m eq_refl).
  Qed.

  (** A packet that reaches the client: identifiers whose messages it does not give on. *)
  Lemma same_got p (c : client W) dn up sto : got wqp p (Client dn up sto (c_app c)) = got wqp p c.
  Proof. reflexivity. Qed.
  Lemma other_got p (c : client W) w dn up sto : wpid w <> Some p -> got wqp p (Client dn up sto (c_app c ++ [w])) = got wqp p c.
  Proof.
    intros H. unfold got. cbn. rewrite filter_app. cbn. destruct (qp_pid (wqp w)) as [q|]; [|apply app_nil_r]. destruct (N.eqb_spec q p) as [->|]; [contradiction H; reflexivity|apply app_nil_r].
  Qed.
  Lemma own_got p (c : client W) w dn up sto : wpid w = Some p -> got wqp p (Client dn up sto (c_app c ++ [w])) = got wqp p c ++ [w].
  Proof. intros H. unfold got. cbn. rewrite filter_app. cbn. now rewrite H, N.eqb_refl. Qed.
  Lemma nothing {A} (l e : list A) : l = l ++ e -> e = [].
  Proof. intros H. rewrite <- (app_nil_r l) in H at 1. now apply app_inv_head in H. Qed.
  (** The same message again is not given on. *)
  Lemma stored_given p X two st c dd og w : CInv p (expired_unsent full wpid) X two st c dd og -> In (SPub w) (c_down c) -> wqp w = Q2 p -> In p (c_stored c) -> dd <> [].
  Proof.
    intros (HX & HD & _ & _ & HN) Hi Hw Hs. assert (Hp : wpid w = Some p) by (cbn; now rewrite Hw). assert (T : two = true). { specialize (HX w (HD w Hi Hp)). destruct two; [reflexivity|congruence]. }
    subst two. destruct st as [|t0 m|t0 m l|l]; cbn in HN.
    - destruct HN as (K & _). contradiction (K eq_refl _ Hi). 
    - destruct HN as ((K & _) & _). contradiction (K _ Hi).
    - destruct HN as (_ & _ & _ & _ & _ & K). exact (K clean Hs).
    - destruct HN as (_ & K & _). exact (K clean).
  Qed.

  Lemma j_receive log rest0 c s rest d r y : full = log ++ rest0 -> c_down c = s :: rest -> J log c d r y ->
    exists d' r' y', J log (receive wqp c s rest) d' r' y'.
  Proof.
    intros E Ed HJ. pose proof HJ as [JA JD JC JB JP JS JL JI].
    assert (FIX : c_down (receive wqp c s rest) = rest).
    { unfold receive. destruct s as [w|q]; [|reflexivity]. destruct (wqp w) as [|q|q]; [reflexivity|reflexivity|]. now destruct (existsb (N.eqb q) (c_stored c)). }
    assert (PL : forall p st, life p log st -> exists X two dd e, CInv p (expired_unsent full wpid) X two st c dd (outstanding wpid log) /\ (two = true -> (dd <> [] <-> cur p (queued log) y)) /\
              got wqp p (receive wqp c s rest) = got wqp p c ++ e /\ CInv p (expired_unsent full wpid) X two st (receive wqp c s rest) (dd ++ e) (outstanding wpid log)).
    { intros p st HL. destruct (JI p st HL) as (X & two & dd & HI & HC). destruct (inv_receive wqp wdup carries lifetime mqos carries_qos p _ _ _ _ _ _ _ _ _ HI Ed) as (e & G & HI'). exists X, two, dd, e. auto. }
    (* a packet that is no PUBLISH with an identifier *)
    assert (LESS : pubs [s] = [] -> filter is2 (c_app (receive wqp c s rest)) = filter is2 (c_app c) -> (forall p, got wqp p (receive wqp c s rest) = got wqp p c) -> J log (receive wqp c s rest) d r y).
    { intros Ep Ea Eg. constructor; auto.
      - rewrite FIX, JD, Ed. change (s :: rest) with ([s] ++ rest). now rewrite pubs_app, Ep.
      - now rewrite Ea.
      - intros p st HL. destruct (PL p st HL) as (X & two & dd & e & HI & HC & G & HI'). rewrite Eg in G. apply nothing in G. subst e. rewrite app_nil_r in HI'. eauto 8. }
    destruct s as [w|q].
    2:{ exists d, r, y. apply LESS; auto. }
    destruct (wqp w) as [|q|q] eqn:V.
    - exists d, r, y. apply LESS.
      + cbn. now rewrite V.
      + unfold receive. rewrite V. cbn [c_app]. rewrite filter_app. cbn. unfold is2 at 2. rewrite V. apply app_nil_r.
      + intros p. unfold receive. rewrite V. apply other_got. cbn. rewrite V. discriminate.
    - assert (Hw : wpid w = Some q) by (cbn; now rewrite V). assert (N2 : is2 w = false) by (unfold is2; now rewrite V).
      destruct d as [|[w0 i] d]; [rewrite Ed in JD; cbn in JD; rewrite V in JD; discriminate JD|]. rewrite Ed in JD. cbn in JD. rewrite V in JD. cbn in JD. injection JD as -> JD.
      exists d, (r ++ [(w, i)]), y. constructor; auto.
      + now constructor.
      + now rewrite FIX.
      + intros v j p Hi. apply JC. now right.
      + intros v j Hi. apply in_app_iff in Hi as [Hi|[Hi|[]]]; [eauto|]. injection Hi as -> ->. exact (proj2 (JC v j q (or_introl eq_refl) Hw)).
      + unfold receive. rewrite V. cbn [c_app]. rewrite filter_app. cbn. rewrite N2, app_nil_r. exact JP.
      + intros j. rewrite JL. split; intros (v & Hi & Hv); exists v; (split; [|exact Hv]); [apply in_app_iff; now left|]. apply in_app_iff in Hi as [Hi|[Hi|[]]]; [exact Hi|]. injection Hi as -> _. congruence.
      + intros p st HL. destruct (PL p st HL) as (X & two & dd & e & HI & HC & G & HI'). exists X, two, (dd ++ e). split; [exact HI'|]. intros T. subst two. destruct (N.eq_dec q p) as [->|N].
        * exfalso. destruct HI as (HX & HD & _). specialize (HX w (HD w ltac:(rewrite Ed; now left) Hw)). congruence.
        * assert (EG : got wqp p (receive wqp c (SPub w) rest) = got wqp p c) by (unfold receive; rewrite V; apply other_got; congruence). rewrite EG in G. apply nothing in G. subst e. rewrite app_nil_r. auto.
    - assert (Hw : wpid w = Some q) by (cbn; now rewrite V). assert (N2 : is2 w = true) by (unfold is2; now rewrite V).
      destruct d as [|[w0 i] d]; [rewrite Ed in JD; cbn in JD; rewrite V in JD; discriminate JD|]. rewrite Ed in JD. cbn in JD. rewrite V in JD. cbn in JD. injection JD as -> JD.
      destruct (JC w i q (or_introl eq_refl) Hw) as (Ei & Bi).
      assert (JA' : tarr log d (r ++ [(w, i)])) by now constructor.
      destruct (recvd _ _ _ _ E JA') as (RS & RF). rewrite !map_app in *. cbn [map fst snd] in *.
      assert (SH : shows full w i). { apply Forall2_app_inv_l in RS as (x1 & x2 & R1 & R2 & RE). inversion R2 as [|? ? ? ? S1 S2]; subst. inversion S2; subst. apply app_inj_tail in RE as (_ & <-). exact S1. }
      assert (SR : forall v j, In (v, j) r -> shows full v j).
      { intros v j Hi. destruct (recvd _ _ _ _ E JA) as (R1 & _). clear - R1 Hi. induction r as [|[v' j'] r IH]; [contradiction|]. cbn in R1. inversion R1; subst. destruct Hi as [Hi|Hi]; [injection Hi as -> ->; assumption|auto]. }
      pose proof SH as (t & p' & m & t' & S1 & S2 & S3). assert (p' = q) by congruence. subst p'.
      assert (REP : In i (map snd r) -> In i y).
      { intros Hi. apply in_map_iff in Hi as ((v & j) & Hj & Hi). cbn in Hj. subst j. apply JL. exists v. split; [exact Hi|]. destruct (SR v i Hi) as (tv & pv & mv & tv' & V1 & V2 & V3). rewrite S1 in V1. injection V1 as <- <- <-.
        apply carries_qos in V3. apply carries_qos in S3. rewrite V in S3. cbn in S3. unfold is2. destruct (wqp v); cbn in V3; congruence || reflexivity. }
      assert (SUB : forall j, In j y -> In j (map snd r)). { intros j Hj. apply JL in Hj as (v & Hj & _). now apply (in_map snd _ (v, j)). }
      destruct (existsb (N.eqb q) (c_stored c)) eqn:ST.
      + assert (IY : In i y).
        { destruct (life_prefix q _ _ E) as (st & HL). destruct (PL q st HL) as (X & two & dd & e & HI & HC & _ & _).
          assert (DD : dd <> []). { eapply stored_given; [exact HI|rewrite Ed; now left|exact V|]. apply existsb_exists in ST as (z & Hz & Ez). apply N.eqb_eq in Ez. now subst z. }
          assert (T : two = true). { destruct HI as (HX & HD & _). specialize (HX w (HD w ltac:(rewrite Ed; now left) Hw)). destruct two; [reflexivity|congruence]. }
          apply (HC T) in DD as (DD & _). now rewrite Ei. }
        assert (EA : c_app (receive wqp c (SPub w) rest) = c_app c) by (unfold receive; now rewrite V, ST).
        exists d, (r ++ [(w, i)]), y. constructor; auto.
        * now rewrite FIX.
        * intros v j p Hi. apply JC. now right.
        * intros v j Hi. apply in_app_iff in Hi as [Hi|[Hi|[]]]; [eauto|]. injection Hi as -> ->. exact Bi.
        * now rewrite EA.
        * intros j. rewrite JL. split; intros (v & Hi & Hv); [exists v; split; [apply in_app_iff; now left|exact Hv]|]. apply in_app_iff in Hi as [Hi|[Hi|[]]]; [eauto|]. injection Hi as -> ->. now apply JL.
        * intros p st HL. destruct (PL p st HL) as (X & two & dd & e & HI & HC & G & HI'). assert (EG : got wqp p (receive wqp c (SPub w) rest) = got wqp p c) by (unfold got; now rewrite EA).
          rewrite EG in G. apply nothing in G. subst e. rewrite app_nil_r in HI'. eauto 8.
      + assert (EA : c_app (receive wqp c (SPub w) rest) = c_app c ++ [w]) by (unfold receive; now rewrite V, ST).
        assert (OWN : forall st, life q log st -> exists X dd, CInv q (expired_unsent full wpid) X true st (receive wqp c (SPub w) rest) [w] (outstanding wpid log) /\ dd = ([] : list W) /\ (dd <> [] <-> cur q (queued log) y)).
        { intros st HL. destruct (PL q st HL) as (X & two & dd & e & HI & HC & G & HI').
          assert (T : two = true). { destruct HI as (HX & HD & _). specialize (HX w (HD w ltac:(rewrite Ed; now left) Hw)). destruct two; [reflexivity|congruence]. } subst two.
          assert (EG : got wqp q (receive wqp c (SPub w) rest) = got wqp q c ++ [w]). { unfold got. rewrite EA, filter_app. cbn. rewrite V. cbn. now rewrite N.eqb_refl. }
          rewrite EG in G. apply app_inv_head in G. subst e. assert (dd = []). { destruct HI' as (_ & _ & _ & L1 & _). specialize (L1 eq_refl). rewrite app_length in L1. cbn in L1. destruct dd; [reflexivity|cbn in L1; lia]. }
          subst dd. exists X, []. auto. }
        destruct (life_prefix q _ _ E) as (st0 & HL0). destruct (OWN st0 HL0) as (_ & dd0 & _ & D0 & C0).
        assert (NY : ~ In i y). { intros K. assert (cur q (queued log) y). { split; [now rewrite <- Ei|]. exists t, m. now rewrite <- Ei. } apply C0 in H. contradiction. }
        exists d, (r ++ [(w, i)]), (y ++ [i]). constructor; auto.
        * now rewrite FIX.
        * intros v j p Hi. apply JC. now right.
        * intros v j Hi. apply in_app_iff in Hi as [Hi|[Hi|[]]]; [eauto|]. injection Hi as -> ->. exact Bi.
        * rewrite EA, filter_app. cbn. rewrite N2. apply Forall2_app; [exact JP|]. repeat constructor. exact SH.
        * apply sorted_snoc; [exact JS|]. destruct (RF (map snd r) i [] eq_refl) as [K|K]; [contradiction (NY (REP K))|]. rewrite Forall_forall in *. intros j Hj. apply K. now apply SUB.
        * intros j. rewrite in_app_iff, JL. split.
          -- intros [(v & Hi & Hv)|[<-|[]]]; [exists v; split; [apply in_app_iff; now left|exact Hv]|]. exists w. split; [apply in_app_iff; right; now left|exact N2].
          -- intros (v & Hi & Hv). apply in_app_iff in Hi as [Hi|[Hi|[]]]; [left; eauto|]. injection Hi as -> ->. right. now left.
        * intros p st HL. destruct (N.eq_dec q p) as [<-|N].
          -- destruct (OWN st HL) as (X & _ & HI & _). exists X, true, [w]. split; [exact HI|]. intros _. split; [|discriminate]. intros _. split; [rewrite <- Ei; apply in_app_iff; right; now left|]. exists t, m. now rewrite <- Ei.
          -- destruct (PL p st HL) as (X & two & dd & e & HI & HC & G & HI'). assert (EG : got wqp p (receive wqp c (SPub w) rest) = got wqp p c). { unfold receive. rewrite V, ST. apply other_got. congruence. }
             rewrite EG in G. apply nothing in G. subst e. rewrite app_nil_r in HI'. exists X, two, dd. split; [exact HI'|]. intros T. rewrite (HC T). unfold cur. rewrite in_app_iff. split; [tauto|].
             intros ([K|[K|[]]] & t2 & m2 & K2); [split; eauto|]. rewrite <- K in K2. rewrite S1 in K2. congruence.
  Qed.

  Lemma met_j c0 log c : met wqp c0 log c -> c0 = client_new -> forall rest, full = log ++ rest -> exists d r y, J log c d r y.
  Proof.
    induction 1 as [c|c log c1 e c2 H IH Hd|c log c1 s rest' H IH Hd]; intros E0 rest E.
    - subst c. exists [], [], []. constructor; cbn [c_app c_down client_new map ArriveSpec.pubs flat_map filter].
      + constructor.
      + reflexivity.
      + intros w i p [].
      + intros w i [].
      + constructor.
      + constructor.
      + intros i. split; [intros []|intros (w & [] & _)].
      + intros p st HL. exists (fun _ => False), true, []. assert (st = Idle) as -> by (inversion HL; [reflexivity|]; match goal with X : _ ++ [_] = [] |- _ => destruct (app_cons_not_nil _ _ _ (eq_sym X)) end).
        split; [|intros _; split; [intros K; now contradiction K|intros ([] & _)]].
        split; [intros w []|]. split; [intros w []|]. split; [constructor|]. split; [cbn; lia|]. split; [intros _ s []|intros _ []].
    - rewrite <- app_assoc in E. destruct (IH E0 _ E) as (d & r & y & HJ). exists (tway wpid log d e), r, y. eapply j_event; eauto.
    - destruct (IH E0 _ E) as (d & r & y & HJ). eapply j_receive; eauto.
  Qed.
  Lemma once_in_order c : met wqp client_new full c -> exists y, Forall2 (shows full) (filter is2 (c_app c)) y /\ StronglySorted lt y.
  Proof. intros H. destruct (met_j _ _ _ H eq_refl [] ltac:(now rewrite app_nil_r)) as (d & r & y & []). eauto. Qed.
End App2.

Lemma sorted_each y : StronglySorted lt y -> each_once_in_order y.
Proof.
  intros H a i b ->. induction a as [|j a IH]; [constructor|]. inversion H as [|? ? S F]; subst. constructor; [|auto]. rewrite Forall_forall in F. apply F. apply in_elt.
Qed.
Lemma once_run {M W} (wqp : W -> qospid) wdup (carries : N -> N -> M -> W -> Prop) lifetime mok (mqos : M -> qos) rm max timeout log n q :
  (forall t0 t m w, carries t0 t m w -> qp_qos (wqp w) = mqos m) ->
  mrun (fun w => qp_pid (wqp w)) wdup carries lifetime mok rm max timeout log n q -> no_reuse log -> expired_unsent log (fun w => qp_pid (wqp w)) ->
  (forall p, exists st, OutSpec.life (fun w => qp_pid (wqp w)) wdup carries lifetime timeout p log st) ->
  given_once_in_order wqp carries log.
Proof.
  intros HC R NR CL HL c H. pose proof (mrun_tag _ _ _ _ _ _ _ _ _ _ _ R NR) as T.
  destruct (once_in_order wqp wdup carries lifetime mqos HC timeout log) with (c := c) as (y & Y1 & Y2); auto.
  - intros p. eapply mrun_taken; eauto.
  - intros log' rest d r E A. destruct (tarr_later _ _ rest _ _ A) as (d' & A'). rewrite <- E in A'. eapply tag_received; eauto.
  - exists y. split; [exact Y1|now apply sorted_each].
Qed.

(** ** Queues, sessions and sessions of a broker run *)
Lemma once5_lemma rm max timeout amax ops : Forall op5_ok ops -> no_reuse (snd (run5 rm max timeout amax ops)) -> expired_unsent (snd (run5 rm max timeout amax ops)) wpid5 ->
  given_once_in_order w5_qp carries5 (snd (run5 rm max timeout amax ops)).
Proof.
  intros F NR CL. eapply (once_run w5_qp w5_dup carries5 lifetime5 mok5 p5_qos); [intros t0 t m w H; apply H|exact (run5_m rm max timeout amax ops F)|exact NR|exact CL|].
  exact (c11_v5 rm max timeout amax ops F NR).
Qed.
Lemma once3_lemma rm max timeout ops : Forall op3_ok ops -> no_reuse (snd (run3 rm max timeout ops)) ->
  given_once_in_order w3_qp carries3 (snd (run3 rm max timeout ops)).
Proof.
  intros F NR. pose proof (c11_v3 rm max timeout ops F NR) as HL. eapply (once_run w3_qp w3_dup carries3 lifetime3 mok3 p3_qos); [intros t0 t m w H; apply H|exact (run3_m rm max timeout ops F)|exact NR| |exact HL].
  exact (no_lifetime w3_qp w3_dup carries3 timeout _ HL).
Qed.

Section Broker.
  Variables (hash5 : wpub5 -> N) (hash3 : wpub3 -> N) (pick : draw -> broker -> string -> string -> N).
  Variables (c : config) (h : list past) (b : broker) (k : N).
  Hypotheses (R : brun hash5 hash3 pick c h b) (P : forall p, In p h -> proper p) (T : forall p, In p h -> after_1970 p).
  Lemma broker5_once s : sess_at b k = Some (A5 s) -> exists l log, LifeSpec.life5 k h l /\ logs5 c l log /\ (few_enough c log -> expired_unsent log wpid5 -> given_once_in_order w5_qp carries5 log).
  Proof.
    intros A. destruct (is_run5 hash5 hash3 pick c h b k s R P T A) as (l & L & S & C). destruct (run_linked _ _ _ _ S C) as (rm & amax & ops & log & F & RN & LG & _).
    exists l, log. split; [exact L|]. split; [exact LG|]. intros FE CL. assert (El : log = snd (run5 rm (cf_max_pending c) (cf_inflight_timeout c) amax ops)) by now rewrite RN.
    rewrite El in *. apply once5_lemma; auto. now apply few_no_reuse5.
  Qed.
  Lemma broker3_once s : sess_at b k = Some (A3 s) -> exists l log, LifeSpec.life3 k h l /\ logs3 c l log /\ (few_enough c log -> given_once_in_order w3_qp carries3 log).
  Proof.
    intros A. destruct (is_run3 hash5 hash3 pick c h b k s R P T A) as (l & L & S & C). destruct (run_linked3 _ _ _ _ S C) as (ops & log & F & RN & LG).
    exists l, log. split; [exact L|]. split; [exact LG|]. intros FE. assert (El : log = snd (run3 (cf_inflight_client c) (cf_max_pending c) (cf_inflight_timeout c) ops)) by now rewrite RN.
    rewrite El in *. apply once3_lemma; auto. now apply few_no_reuse3.
  Qed.
End Broker.
