(** The order in which messages reach a client. *)
From Coq Require Import List Bool Arith NArith Lia Sorted String.
From Coq Require Import ZifyBool ZifyNat ZifyN.
From Verif Require Import Base BaseLemmas MsgModel PendingModel PendingProofs OutModel OutSpec OutProofs OutInv OrderSpec OrderProofs OrderLast OrderFacts CliSpec ArriveSpec
  GlobModel Sess5Model Sess3Model ConnModel InSpec LinkSpec LinkProofs LinkProofs3 RegModel BrokerModel BrokerSpec LifeSpec LifeFacts RecordProofs.
Import List ListNotations.
Local Open Scope N_scope.
Local Open Scope list_scope.

(** ** Lists of numbers *)
Lemma first_prefix a b : first_in_order (a ++ b) -> first_in_order a.
Proof. intros H u i v ->. apply (H u i (v ++ b)). now rewrite <- app_assoc. Qed.
Lemma first_snoc x j : first_in_order x -> In j x \/ Forall (fun i => (i < j)%nat) x -> first_in_order (x ++ [j]).
Proof.
  intros H K a i b E. destruct b as [|y b _] using rev_ind.
  - apply app_inj_tail in E as (-> & ->). exact K.
  - rewrite app_comm_cons, app_assoc in E. apply app_inj_tail in E as (-> & _). now apply (H a i b).
Qed.
Lemma first_occ (j : nat) l : In j l -> exists a b, l = a ++ j :: b /\ ~ In j a.
Proof.
  induction l as [|y l IH]; intros H; [contradiction|]. destruct (Nat.eq_dec y j) as [->|N]; [exists [], l; split; auto|].
  destruct H as [H|H]; [contradiction|]. destruct (IH H) as (a & b & -> & Na). exists (y :: a), b. split; [reflexivity|]. intros [X|X]; contradiction.
Qed.
Lemma first_cut a b j : first_in_order (a ++ b) -> In j (a ++ b) -> In j a \/ Forall (fun i => (i < j)%nat) a.
Proof.
  intros H K. apply in_app_iff in K as [K|K]; [now left|]. destruct (in_dec Nat.eq_dec j a) as [Y|Y]; [now left|right].
  destruct (first_occ j b K) as (u & v & -> & Nu). destruct (H (a ++ u) j v) as [X|X]; [now rewrite <- app_assoc| |].
  - apply in_app_iff in X. tauto.
  - apply Forall_app in X. tauto.
Qed.

Section Gen.
  Context {M W : Type}.
  Variable wpid : W -> option pid.
  Variable wdup : W -> bool.
  Variable carries : N -> N -> M -> W -> Prop.
  Variable lifetime : M -> option N.
  Variable mok : M -> Prop.
  Notation st := (pstatus M).
  Notation oev := (oev M W).
  Notation elapsed := (elapsed lifetime).
  Notation scanned := (scanned wpid wdup carries lifetime).
  Notation wstep := (wstep wpid wdup carries lifetime mok).
  Notation wrun := (wrun wpid wdup carries lifetime mok).
  Notation forever := (@forever M lifetime).
  Notation pubs := (pubs wpid).
  Notation shows := (shows wpid carries).
  Notation arrives := (@arrives M W).

  Lemma pubs_app a b : pubs (a ++ b) = pubs a ++ pubs b.
  Proof. unfold ArriveSpec.pubs. apply flat_map_app. Qed.

  (** ** Receipts along a log *)
  Definition sends (evs : list oev) : list (sent W) := flat_map (fun e => match e with ESent _ s => [s] | _ => [] end) evs.
  Lemma sends_app a b : sends (a ++ b) = sends a ++ sends b.
  Proof. unfold sends. apply flat_map_app. Qed.
  Lemma sends_flush t o g : sends (flush_events t o g) = o.
  Proof.
    unfold flush_events. rewrite sends_app. replace (sends (map (EExpired t) g)) with (@nil (sent W)) by (induction g; cbn; auto).
    rewrite app_nil_r. induction o as [|s o IH]; cbn; [reflexivity|]. now f_equal.
  Qed.
  Lemma arrives_nil log d r : arrives log d r -> log = [] -> d = [] /\ r = [].
  Proof.
    induction 1 as [|log d r e H IH|log s d r H IH]; intros E; auto; [now destruct log|]. destruct (IH E) as (X & _). discriminate.
  Qed.
  Lemma arrives_snoc log e : (forall rm, e <> EConn rm) -> forall l d r, arrives l d r -> l = log ++ [e] ->
    exists d0 r0, arrives log d0 r0 /\ r ++ d = (r0 ++ d0) ++ sends [e].
  Proof.
    intros NC l d r H. induction H as [|l d r e' H IH|l s d r H IH]; intros E; [now destruct log| |].
    - apply app_inj_tail in E as (-> & ->). exists d, r. split; [exact H|]. destruct e; cbn; rewrite ?app_nil_r; auto; [destruct (NC rm eq_refl)|now rewrite app_assoc].
    - destruct (IH E) as (d0 & r0 & A & X). exists d0, r0. split; [exact A|]. rewrite <- X, <- app_assoc. reflexivity.
  Qed.
  Lemma arrives_conn log rm : forall l d r, arrives l d r -> l = log ++ [EConn rm] -> d = [] /\ exists d0, arrives log d0 r.
  Proof.
    intros l d r H. induction H as [|l d r e' H IH|l s d r H IH]; intros E; [now destruct log| |].
    - apply app_inj_tail in E as (-> & ->). split; [reflexivity|]. eauto.
    - destruct (IH E) as (X & _). discriminate.
  Qed.
  Lemma arrives_app log evs : (forall rm, ~ In (EConn rm) evs) -> forall d r, arrives (log ++ evs) d r ->
    exists d0 r0, arrives log d0 r0 /\ r ++ d = (r0 ++ d0) ++ sends evs.
  Proof.
    induction evs as [|e evs IH] using rev_ind; intros NC d r H.
    - rewrite app_nil_r in H. exists d, r. cbn. now rewrite app_nil_r.
    - rewrite app_assoc in H. destruct (arrives_snoc (log ++ evs) e ltac:(intros rm ->; apply (NC rm), in_app_iff; right; now left) _ _ _ H eq_refl) as (d1 & r1 & A & X).
      destruct (IH ltac:(intros rm Y; apply (NC rm), in_app_iff; now left) _ _ A) as (d0 & r0 & A0 & X0). exists d0, r0. split; [exact A0|]. rewrite X, X0, sends_app, <- !app_assoc. reflexivity.
  Qed.

  (** Events, and then [k] packets that are taken. *)
  Lemma arrives_go log d r evs k : arrives log d r ->
    arrives (log ++ evs) (skipn k (fold_left under_way evs d)) (r ++ firstn k (fold_left under_way evs d)).
  Proof.
    intros A. assert (B : arrives (log ++ evs) (fold_left under_way evs d) r).
    { revert log d A. induction evs as [|e evs IH]; intros log d A; [rewrite app_nil_r; exact A|]. cbn [fold_left].
      replace (log ++ e :: evs) with ((log ++ [e]) ++ evs) by now rewrite <- app_assoc. apply IH. now constructor. }
    revert B. generalize (fold_left under_way evs d) as w. generalize (log ++ evs) as l. clear. intros l. revert r.
    induction k as [|k IH]; intros r w B; [cbn; now rewrite app_nil_r|]. destruct w as [|s w]; [cbn; now rewrite app_nil_r|]. cbn.
    replace (r ++ s :: firstn k w) with ((r ++ [s]) ++ firstn k w) by now rewrite <- app_assoc. apply IH. now constructor.
  Qed.

  (** ** Queue entries and the numbers of their messages *)
  Definition ent (Q : list (N * pid * M)) (x : list nat) (T : N) (s : st) (j : nat) : Prop :=
    (j < length Q)%nat /\
    match s with
    | PNew ad l p m d => nth_error Q j = Some (ad, p, m) /\ (l <> 0 -> In j x) /\
        (In j x \/ Forall (fun i => (i < j)%nat) x \/ (l = 0 /\ elapsed ad T m))
    | _ => True
    end.
  Definition tags Q x T (l : list st) : Prop := exists ts, StronglySorted lt ts /\ Forall2 (ent Q x T) l ts.

  Lemma tags_drop_done Q x T l : tags Q x T l -> tags Q x T (drop_done l).
  Proof.
    intros (ts & S & F). revert S. induction F as [|s j l ts E F IH]; intros S; [exists []; split; constructor|].
    destruct s; [exists (j :: ts); split; [exact S|constructor; auto]..|]. cbn. apply IH. now inversion S.
  Qed.
  Lemma tags_map Q x T Q' x' T' (R : st -> st -> Prop) l l' : (forall s s' j, R s s' -> ent Q x T s j -> ent Q' x' T' s' j) ->
    Forall2 R l l' -> tags Q x T l -> tags Q' x' T' l'.
  Proof.
    intros H F (ts & S & K). exists ts. split; [exact S|]. clear S. revert ts K. induction F as [|s s' l l' E F IH]; intros ts K; inversion K; subst; constructor; eauto.
  Qed.
  Lemma same_refl (l : list st) : Forall2 eq l l.
  Proof. induction l; constructor; auto. Qed.
  Lemma tags_fin Q x T l l' : Forall2 fin l l' -> tags Q x T l -> tags Q x T l'.
  Proof.
    apply tags_map. intros s s' j [->|((ad & lt & p & m & d & ->) & ->)]; [auto|]. intros (A & _). split; [exact A|exact I].
  Qed.
  Lemma ent_later Q x T T' s j : T <= T' \/ forever -> ent Q x T s j -> ent Q x T' s j.
  Proof.
    intros L (A & B). split; [exact A|]. destruct s as [ad l p m d|l p|]; auto. destruct B as (B1 & B2 & [B3|[B3|(B3 & v & E & V)]]); split; auto; split; auto.
    right. right. split; [exact B3|]. destruct L as [L|L]; [exists v; split; [exact E|lia]|rewrite (L m) in E; discriminate].
  Qed.
  Lemma tags_later Q x T T' l : T <= T' \/ forever -> tags Q x T l -> tags Q x T' l.
  Proof. intros L. apply (tags_map Q x T Q x T' eq); [|apply same_refl]. intros s s' j <-. now apply ent_later. Qed.
  Lemma tags_more Q x T l a : tags Q x T l -> tags (Q ++ a) x T l.
  Proof.
    apply (tags_map Q x T (Q ++ a) x T eq); [|apply same_refl]. intros s s' j <- (A & B). split; [rewrite app_length; lia|].
    destruct s; auto. destruct B as (B1 & B2 & B3). split; [|auto]. now rewrite nth_error_app1.
  Qed.
  Lemma shows_more (log evs : list oev) w i : shows log w i -> shows (log ++ evs) w i.
  Proof.
    intros (t & p & m & t' & A & B). exists t, p, m, t'. split; [|exact B]. rewrite queued_app, nth_error_app1; [exact A|]. apply nth_error_Some. congruence.
  Qed.
  Lemma shows_all (log evs : list oev) ws x : Forall2 (shows log) ws x -> Forall2 (shows (log ++ evs)) ws x.
  Proof. induction 1; constructor; auto. now apply shows_more. Qed.
  Lemma shows_bound (log : list oev) ws x : Forall2 (shows log) ws x -> Forall (fun i => (i < length (queued log))%nat) x.
  Proof. induction 1 as [|w i ws x (t & p & m & t' & A & _) F IH]; constructor; auto. apply nth_error_Some. congruence. Qed.

  (** ** One pass *)
  Lemma scanned_arrive (log : list oev) now timeout n l l' o e : scanned now timeout n l l' o e -> timeout <= now ->
    forall x ts, first_in_order x -> StronglySorted lt ts -> Forall2 (ent (queued log) x now) l ts ->
    exists y, Forall2 (shows log) (pubs o) y /\ first_in_order (x ++ y) /\ Forall2 (ent (queued log) (x ++ y) now) l' ts.
  Proof.
    intros F TO. induction F as [l|n|n s r r' o e Hd F IH|n ad p m d r r' o e Hd He F IH|n ad l p m d w r r' o e Hd He H1 H2 H3 F IH|n l p r r' o e Hd F IH]; intros x ts FX SS K.
    - exists []. rewrite app_nil_r. repeat split; auto. constructor.
    - exists []. rewrite app_nil_r. repeat split; auto. constructor.
    - inversion K as [|? j ? ts' E K']; subst. inversion SS; subst. destruct (IH x ts' FX ltac:(assumption) K') as (y & Y1 & Y2 & Y3). exists y. split; [exact Y1|]. split; [exact Y2|]. constructor; [|exact Y3].
      destruct E as (A & B). split; [exact A|]. destruct s as [ad l p m d|l p|]; auto. destruct B as (B1 & B2 & B3). cbn in Hd.
      assert (In j (x ++ y)) by (apply in_app_iff; left; apply B2; lia). auto.
    - inversion K as [|? j ? ts' E K']; subst. inversion SS; subst. destruct (IH x ts' FX ltac:(assumption) K') as (y & Y1 & Y2 & Y3). exists y. split; [exact Y1|]. split; [exact Y2|]. constructor; [|exact Y3].
      destruct E as (A & B1 & B2 & B3). split; [exact A|]. split; [exact B1|]. split; [intros X; contradiction|]. right. right. auto.
    - inversion K as [|? j ? ts' E K']; subst. inversion SS as [|? ? SS' SF]; subst. destruct E as (A & B1 & B2 & B3).
      assert (J : In j x \/ Forall (fun i => (i < j)%nat) x) by (destruct B3 as [B3|[B3|(B3 & B4)]]; auto; destruct He; auto).
      destruct (IH (x ++ [j]) ts') as (y & Y1 & Y2 & Y3); [now apply first_snoc|exact SS'| |].
      { clear - K' SF. induction K' as [|s i l ts' E K IH]; [constructor|]. inversion SF; subst. constructor; [|auto]. destruct E as (A & B). split; [exact A|]. destruct s; auto.
        destruct B as (B1 & B2 & B3). split; [exact B1|]. split; [intros X; apply in_app_iff; left; auto|]. destruct B3 as [B3|[B3|B3]]; [left; apply in_app_iff; now left|right; left; apply Forall_app; split; [exact B3|repeat constructor; assumption]|auto]. }
      exists (j :: y). rewrite <- app_assoc in Y2, Y3. split; [|split; [exact Y2|]].
      + cbn. rewrite H1. cbn. constructor; [|exact Y1]. exists ad, p, m, now. auto.
      + constructor; [|exact Y3]. assert (In j (x ++ j :: y)) by (apply in_app_iff; right; now left). split; [exact A|]. auto.
    - inversion K as [|? j ? ts' E K']; subst. inversion SS; subst. destruct (IH x ts' FX ltac:(assumption) K') as (y & Y1 & Y2 & Y3). exists y. split; [exact Y1|]. split; [exact Y2|]. constructor; [|exact Y3].
      destruct E as (A & _). split; [exact A|exact I].
  Qed.

  (** ** Runs *)
  Definition Arr (q : pendq M) (log : list oev) : Prop :=
    steady log \/ forever -> forall d r, arrives log d r ->
    exists x, Forall2 (shows log) (pubs (r ++ d)) x /\ first_in_order x /\ tags (queued log) x (clock log) (pq q).

  Lemma wstep_arr q log evs q' : wstep q evs q' -> Arr q log -> Arr q' (log ++ evs).
  Proof.
    intros S H ST d r A. assert (ST0 : steady log \/ forever) by (destruct ST as [ST|ST]; [left; exact (steady_app _ _ ST)|now right]). specialize (H ST0).
    destruct S as [q t n m Hm|q t n m|q t w Hw|q t l1 l2 o e g F F2 Fe|q k t p|q rm]; rewrite ?queued_app, ?clock_snoc.
    - destruct (arrives_app log [EQueued t n m] ltac:(intros ? [X|[]]; discriminate X) d r A) as (d0 & r0 & A0 & X). destruct (H _ _ A0) as (x & X1 & X2 & X3).
      exists x. rewrite X, pubs_app. cbn [sends flat_map app ArriveSpec.pubs queued pq pq_set]. rewrite app_nil_r. split; [now apply shows_all|]. split; [exact X2|].
      pose proof (shows_bound _ _ _ X1) as XB. apply tags_drop_done in X3. destruct (tags_more _ _ _ _ [(t, n, m)] X3) as (ts & S & K).
      destruct X3 as (ts0 & S0 & K0).
      exists (ts0 ++ [length (queued log)]). split.
      + clear - S0 K0. revert S0. induction K0 as [|s j l ts E K IH]; intros S; [repeat constructor|]. inversion S; subst. cbn. constructor; [auto|]. apply Forall_app. split; [assumption|]. repeat constructor. apply E.
      + apply Forall2_app.
        * clear - K0. induction K0 as [|s j l ts (A & B) K IH]; constructor; auto. split; [rewrite app_length; lia|]. destruct s; auto. destruct B as (B1 & B2 & B3). split; [|auto]. now rewrite nth_error_app1.
        * constructor; [|constructor]. split; [rewrite app_length; cbn; lia|]. split; [rewrite nth_error_app2, Nat.sub_diag by lia; reflexivity|]. split; [intros Y; contradiction|auto].
    - destruct (arrives_app log [EFull t n m] ltac:(intros ? [X|[]]; discriminate X) d r A) as (d0 & r0 & A0 & X). destruct (H _ _ A0) as (x & X1 & X2 & X3).
      exists x. rewrite X, pubs_app. cbn. rewrite !app_nil_r. split; [now apply shows_all|]. split; [exact X2|]. now apply tags_drop_done.
    - destruct (arrives_app log [ESent t (SPub w)] ltac:(intros ? [X|[]]; discriminate X) d r A) as (d0 & r0 & A0 & X). destruct (H _ _ A0) as (x & X1 & X2 & X3).
      exists x. rewrite X, pubs_app. cbn. rewrite Hw. cbn. rewrite !app_nil_r. split; [now apply shows_all|]. split; [exact X2|]. eapply tags_later; [|exact X3].
      destruct ST as [ST|ST]; [left; exact (steady_next carries log t (SPub w) [] ST)|now right].
    - destruct (arrives_app log (flush_events t o g)) with (d := d) (r := r) as (d0 & r0 & A0 & X); [|exact A|].
      { intros rm Hi. unfold flush_events in Hi. apply in_app_iff in Hi as [Hi|Hi]; apply in_map_iff in Hi as (? & Hi & _); discriminate Hi. }
      destruct (H _ _ A0) as (x & X1 & X2 & X3). rewrite sends_flush in X. rewrite X, pubs_app, queued_flush, app_nil_r, clock_flush. cbn [pq pq_set]. apply tags_drop_done in X3.
      destruct o as [|s0 o].
      + exists x. cbn. rewrite app_nil_r. split; [now apply shows_all|]. split; [exact X2|]. apply tags_drop_done. eapply tags_fin; [exact F2|]. rewrite (scanned_none _ _ _ _ _ _ _ _ _ _ _ F eq_refl). exact X3.
      + cbn [is_nil]. pose proof (scanned_due _ _ _ _ mok _ _ _ _ _ _ _ F ltac:(discriminate)) as DU.
        assert (LE : clock log <= t \/ forever) by (destruct ST as [ST|ST]; [left; apply (steady_next carries log t s0 (map (ESent t) o ++ map (EExpired t) g)); exact ST|now right]).
        apply (tags_later _ _ _ _ _ LE) in X3. destruct X3 as (ts & SS & K).
        destruct (scanned_arrive log _ _ _ _ _ _ _ F DU x ts X2 SS K) as (y & Y1 & Y2 & Y3). exists (x ++ y). split; [apply shows_all; now apply Forall2_app|]. split; [exact Y2|].
        apply tags_drop_done. eapply tags_fin; [exact F2|]. exists ts. auto.
    - destruct (arrives_app log [EAcked k t p (snd (ack_queue k t p q))] ltac:(intros ? [X|[]]; discriminate X) d r A) as (d0 & r0 & A0 & X). destruct (H _ _ A0) as (x & X1 & X2 & X3).
      exists x. rewrite X, pubs_app. cbn -[ack_queue]. rewrite !app_nil_r. split; [now apply shows_all|]. split; [exact X2|].
      destruct (ack_queue_spec k t p q) as [(a & s & b & s' & E & L & Hp & Hk & Eq)|[_ Eq]]; rewrite Eq; cbn [fst pq pq_set]; [|exact X3]. rewrite E in X3.
      refine (tags_map _ _ _ _ _ _ (fun s s' => s' = s \/ match s' with PNew _ _ _ _ _ => False | _ => True end) (a ++ s :: b) _ _ _ X3).
      + intros z z' j [->|Z] (B1 & B2); [split; auto|]. split; [exact B1|]. destruct z'; tauto.
      + assert (R : forall l : list st, Forall2 (fun s s' => s' = s \/ match s' with PNew _ _ _ _ _ => False | _ => True end) l l) by (induction l; constructor; auto).
        apply Forall2_app; [apply R|]. constructor; [|apply R]. right. destruct k, Hk as (_ & ->); exact I.
    - destruct (arrives_conn log rm _ _ _ A eq_refl) as (-> & d0 & A0). destruct (H _ _ A0) as (x & X1 & X2 & X3).
      rewrite pubs_app in X1. apply Forall2_app_inv_l in X1 as (xr & xd & X1 & X4 & ->). exists xr. rewrite app_nil_r. cbn. rewrite app_nil_r.
      split; [now apply shows_all|]. split; [eapply first_prefix; eauto|].
      refine (tags_map _ _ _ _ _ _ (fun s s' => s' = reset_status s) (pq q) _ _ _ X3).
      + intros s s' j -> (B1 & B2). split; [exact B1|]. destruct s as [ad l p m dd|l p|]; cbn; auto. destruct B2 as (B2 & B3 & B4). split; [exact B2|]. split; [intros Y; contradiction|].
        destruct B4 as [B4|[B4|(B4 & B5)]]; [|right; left; apply Forall_app in B4; tauto|auto]. destruct (first_cut _ _ _ X2 B4); auto.
      + clear. induction (pq q); cbn; constructor; auto.
  Qed.

  Lemma wrun_arr rm max timeout log q : wrun rm max timeout log q -> Arr q log.
  Proof.
    induction 1 as [|log q evs q' R IH S]; [|eapply wstep_arr; eauto].
    intros _ d r A. destruct (arrives_conn [] rm _ _ _ A eq_refl) as (-> & d0 & A0). destruct (arrives_nil _ _ _ A0 eq_refl) as (_ & ->).
    exists []. split; [constructor|]. split; [intros a i b E; now destruct a|]. exists []. split; constructor.
  Qed.
  Lemma arr_in_order q log : Arr q log -> steady log \/ forever -> arrive_in_order wpid carries log.
  Proof.
    intros H ST d r A. destruct (H ST d r A) as (x & X1 & X2 & _). rewrite pubs_app in X1. apply Forall2_app_inv_l in X1 as (xr & xd & X1 & _ & ->).
    exists xr. split; [exact X1|]. eapply first_prefix; eauto.
  Qed.
End Gen.

(** ** The application of a correct client *)
Section App.
  Context {M W : Type}.
  Variable wqp : W -> qospid.
  Variable carries : N -> N -> M -> W -> Prop.
  Variable mqos : M -> qos.
  Hypothesis carries_qos : forall t t' m w, carries t t' m w -> qp_qos (wqp w) = mqos m.
  Notation wpid := (fun w => qp_pid (wqp w)).
  Notation pubs := (pubs wpid).

  Lemma pubs_first w (l : list W) : forall d, pubs d = w :: l -> exists a d', d = a ++ SPub w :: d' /\ pubs a = [] /\ pubs d' = l.
  Proof.
    induction d as [|[v|p] d IH]; cbn; intros E; [discriminate| |].
    - destruct (wqp v) eqn:V; cbn in E.
      + destruct (IH E) as (a & d' & -> & A & B). exists (SPub v :: a), d'. split; [reflexivity|]. split; [cbn; rewrite V; exact A|exact B].
      + injection E as <- E. exists [], d. auto.
      + injection E as <- E. exists [], d. auto.
    - destruct (IH E) as (a & d' & -> & A & B). exists (SRel p :: a), d'. auto.
  Qed.
  Lemma arrives_takes (log : list (oev M W)) : forall a d r, arrives log (a ++ d) r -> arrives log d (r ++ a).
  Proof.
    induction a as [|s a IH]; intros d r H; [now rewrite app_nil_r|]. replace (r ++ s :: a) with ((r ++ [s]) ++ a) by now rewrite <- app_assoc. apply IH. now constructor.
  Qed.
  Lemma qos1_app (a b : list W) : with_qos1 wqp (a ++ b) = with_qos1 wqp a ++ with_qos1 wqp b.
  Proof. unfold with_qos1. apply filter_app. Qed.
  Lemma met_arrives : forall c0 (log : list (oev M W)) c, met wqp c0 log c -> c0 = client_new ->
    exists d r, arrives log d r /\ pubs d = pubs (c_down c) /\ with_qos1 wqp (c_app c) = with_qos1 wqp (pubs r).
  Proof.
    intros c0 log c H. induction H as [c|c log c1 e c2 H IH E|c log c1 s rest H IH E]; intros E0.
    - subst. exists [], []. split; [constructor|]. auto.
    - destruct (IH E0) as (d & r & A & B & C). exists (under_way d e), r. split; [now constructor|]. destruct E; cbn [under_way c_down c_app]; (split; [|exact C]); rewrite ?pubs_app, ?B; auto.
      destruct k; cbn; now rewrite app_nil_r.
    - destruct (IH E0) as (d & r & A & B & C). rewrite E in B.
      assert (K : forall w, s = SPub w -> wpid w <> None -> exists d' r', arrives log d' r' /\ pubs d' = pubs rest /\ pubs r' = pubs r ++ [w]).
      { intros w -> Hw. assert (B' : pubs d = w :: pubs rest) by (rewrite B; cbn; now destruct (qp_pid (wqp w))).
        destruct (pubs_first _ _ _ B') as (a & d' & -> & Ea & Ed). exists d', (r ++ a ++ [SPub w]). split; [apply arrives_takes; now rewrite <- app_assoc|]. split; [exact Ed|].
        rewrite !pubs_app, Ea. cbn. now destruct (qp_pid (wqp w)). }
      unfold receive. destruct s as [w|p].
      + destruct (wqp w) eqn:V.
        * exists d, r. split; [exact A|]. cbn [c_down c_app]. split; [rewrite B; cbn; now rewrite V|]. rewrite qos1_app, C. cbn. rewrite V. apply app_nil_r.
        * destruct (K w eq_refl ltac:(cbn; rewrite V; discriminate)) as (d' & r' & A' & B' & C'). exists d', r'. split; [exact A'|]. split; [exact B'|]. cbn [c_app]. now rewrite C', !qos1_app, C.
        * destruct (K w eq_refl ltac:(cbn; rewrite V; discriminate)) as (d' & r' & A' & B' & C'). exists d', r'. split; [exact A'|].
          destruct (existsb (N.eqb p) (c_stored c1)); cbn [c_down c_app]; (split; [exact B'|]); rewrite C', !qos1_app, C; cbn; rewrite V; now rewrite ?app_nil_r.
      + exists d, r. split; [exact A|]. split; [exact B|exact C].
  Qed.
  Lemma filter_split {A} (g : A -> bool) : forall x a i b, filter g x = a ++ i :: b -> exists a' b', x = a' ++ i :: b' /\ filter g a' = a /\ g i = true.
  Proof.
    induction x as [|y x IH]; cbn; intros a i b E; [now destruct a|]. destruct (g y) eqn:G.
    - destruct a as [|z a]; injection E as -> E; [exists [], x; auto|]. destruct (IH _ _ _ E) as (a' & b' & -> & <- & Gi). exists (z :: a'), b'. cbn. rewrite G. auto.
    - destruct (IH _ _ _ E) as (a' & b' & -> & <- & Gi). exists (y :: a'), b'. cbn. rewrite G. auto.
  Qed.
  Lemma first_filter g x : first_in_order x -> first_in_order (filter g x).
  Proof.
    intros H a i b E. destruct (filter_split g x a i b E) as (a' & b' & -> & <- & Gi). destruct (H a' i b' eq_refl) as [K|K].
    - left. apply filter_In. auto.
    - right. rewrite Forall_forall in *. intros j Hj. apply filter_In in Hj. apply K, Hj.
  Qed.
  Lemma arrive_given (log : list (oev M W)) : arrive_in_order wpid carries log -> given_in_order wqp carries log.
  Proof.
    intros H. cbn zeta. assert (K : forall d r, arrives log d r -> exists x, Forall2 (shows wpid carries log) (with_qos1 wqp (pubs r)) x /\ first_in_order x).
    2: { split; [exact K|]. intros c C. destruct (met_arrives _ _ _ C eq_refl) as (d & r & A & _ & E). rewrite E. exact (K d r A). }
    intros d r A. destruct (H d r A) as (x & X1 & X2).
    set (g := fun i => match nth_error (queued log) i with Some (_, _, m) => match mqos m with L1 => true | _ => false end | None => false end).
    exists (filter g x). split; [|now apply first_filter]. clear X2. induction X1 as [|w i ws x S F IH]; [constructor|].
    assert (G : g i = match wqp w with Q1 _ => true | _ => false end).
    { destruct S as (t & p & m & t' & S1 & S2 & S3). apply carries_qos in S3. unfold g. rewrite S1, <- S3. now destruct (wqp w). }
    cbn. rewrite G. destruct (wqp w); [exact IH|constructor; [exact S|exact IH]|exact IH].
  Qed.
End App.

(** ** Queues, sessions and sessions of a broker run *)
Lemma arrive5_lemma rm max timeout amax ops : Forall op5_ok ops -> steady (snd (run5 rm max timeout amax ops)) ->
  arrive_in_order wpid5 carries5 (snd (run5 rm max timeout amax ops)).
Proof. intros F ST. destruct (run5 rm max timeout amax ops) as [o log] eqn:E. eapply arr_in_order; [eapply wrun_arr, run5_wrun; eauto|now left]. Qed.
Lemma arrive3_lemma rm max timeout ops : Forall op3_ok ops -> arrive_in_order wpid3 carries3 (snd (run3 rm max timeout ops)).
Proof. intros F. destruct (run3 rm max timeout ops) as [o log] eqn:E. eapply arr_in_order; [eapply wrun_arr, run3_wrun; eauto|right; intros m; reflexivity]. Qed.

Section Broker.
  Variables (hash5 : wpub5 -> N) (hash3 : wpub3 -> N) (pick : draw -> broker -> string -> string -> N).
  Variables (c : config) (h : list past) (b : broker) (k : N).
  Hypotheses (R : brun hash5 hash3 pick c h b) (P : forall p, In p h -> proper p) (T : forall p, In p h -> after_1970 p).
  Lemma broker5_arrive s : sess_at b k = Some (A5 s) -> exists l log, life5 k h l /\ logs5 c l log /\ arrive_in_order wpid5 carries5 log.
  Proof.
    intros A. destruct (is_run5 hash5 hash3 pick c h b k s R P T A) as (l & L & S & C). destruct (run_linked _ _ _ _ S C) as (rm & amax & ops & log & F & RN & LG & _).
    exists l, log. split; [exact L|]. split; [exact LG|]. pose proof (arrive5_lemma rm (cf_max_pending c) (cf_inflight_timeout c) amax ops F) as K. rewrite RN in K. apply K.
    apply up_steady. eapply rising_log; [exact LG|]. eapply life_rising; eauto.
  Qed.
  Lemma broker3_arrive s : sess_at b k = Some (A3 s) -> exists l log, life3 k h l /\ logs3 c l log /\ arrive_in_order wpid3 carries3 log.
  Proof.
    intros A. destruct (is_run3 hash5 hash3 pick c h b k s R P T A) as (l & L & S & C). destruct (run_linked3 _ _ _ _ S C) as (ops & log & F & RN & LG).
    exists l, log. split; [exact L|]. split; [exact LG|]. pose proof (arrive3_lemma (cf_inflight_client c) (cf_max_pending c) (cf_inflight_timeout c) ops F) as K. now rewrite RN in K.
  Qed.
End Broker.
Lemma carries5_qos t t' m w : carries5 t t' m w -> qp_qos (w5_qp w) = p5_qos m.
Proof. intros (_ & _ & H & _). exact H. Qed.
Lemma carries3_qos t t' m w : carries3 t t' m w -> qp_qos (w3_qp w) = p3_qos m.
Proof. intros (_ & _ & H & _). exact H. Qed.
Lemma given5_lemma log : arrive_in_order wpid5 carries5 log -> given_in_order w5_qp carries5 log.
Proof. exact (arrive_given w5_qp carries5 p5_qos carries5_qos log). Qed.
Lemma given3_lemma log : arrive_in_order wpid3 carries3 log -> given_in_order w3_qp carries3 log.
Proof. exact (arrive_given w3_qp carries3 p3_qos carries3_qos log). Qed.
