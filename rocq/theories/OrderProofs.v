(** Outgoing messages when packet identifiers may be in use twice. *)
From Coq Require Import List Bool Arith NArith Lia Permutation.
From Coq Require Import ZifyBool ZifyNat ZifyN.
From Verif Require Import Base BaseLemmas MsgModel PendingModel PendingProofs OutModel OutSpec OutProofs OutInv OrderSpec.
Import ListNotations.
Local Open Scope N_scope.
Local Open Scope list_scope.

Section Gen.
  Context {M W : Type}.
  Variable wpid : W -> option pid.
  Variable wdup : W -> bool.
  Variable carries : N -> N -> M -> W -> Prop.
  Variable lifetime : M -> option N.
  Variable mok : M -> Prop.
  Notation st := (pstatus M).
  Notation oev := (oev M W).
  Notation elapsed := (elapsed lifetime).
  Notation timely := (timely carries lifetime).
  Notation first_sent := (first_sent wpid wdup).
  Notation firsts := (firsts wpid wdup).
  Notation entry_ok := (entry_ok mok).
  Notation mx := (mx timely).

  (** ** One pass over the queue *)
  Inductive scanned (now timeout : N) : nat -> list st -> list st -> list (sent W) -> list pid -> Prop :=
  | sc_stop l : scanned now timeout 0 l l [] []
  | sc_nil n : scanned now timeout n [] [] [] []
  | sc_skip n s r r' o e : due now timeout s = false -> scanned now timeout n r r' o e ->
      scanned now timeout (S n) (s :: r) (s :: r') o e
  | sc_exp n ad p x d r r' o e : timeout <= now -> elapsed ad now x -> scanned now timeout n r r' o e ->
      scanned now timeout (S n) (PNew ad 0 p x d :: r) (PNew ad 0 p x d :: r') o (p :: e)
  | sc_send n ad l p x d w r r' o e : timeout + l <= now -> ~ (elapsed ad now x /\ l = 0) ->
      wpid w = Some p -> wdup w = d -> carries ad now x w -> scanned now timeout n r r' o e ->
      scanned now timeout (S n) (PNew ad l p x d :: r) (PNew ad now p x true :: r') (SPub w :: o) e
  | sc_rel n l p r r' o e : timeout + l <= now -> scanned now timeout n r r' o e ->
      scanned now timeout (S n) (PRec l p :: r) (PRec now p :: r') (SRel p :: o) e.

  Lemma pass_scanned {A} (body : st -> A -> _) now timeout : good_body wpid wdup carries lifetime mok now body ->
    forall n l a, Forall entry_ok l ->
    let '(l1, _, o, e) := pass body now timeout n l a in scanned now timeout n l l1 o e.
  Proof.
    intros [Hn Hr]. induction n as [|n IH]; intros [|s r] a Hok; try constructor.
    cbn [pass]. inversion Hok as [|? ? Hs Hok']; subst. destruct (due now timeout s) eqn:Ed.
    - destruct s as [ad l p x d|l p|]; [|destruct (Hr l p a) as [a' E]; rewrite E|discriminate].
      + cbn in Ed. destruct Hs as [Hm _]. destruct (Hn ad l p x d a Hm) as [(El & -> & E)|(Hne & a' & w & E & H1 & H2 & H3)]; rewrite E.
        * specialize (IH r a Hok'). destruct (pass body now timeout n r a) as [[[r1 a2] o] e]. cbn. apply sc_exp; [lia|auto|auto].
        * specialize (IH r a' Hok'). destruct (pass body now timeout n r a') as [[[r1 a2] o] e]. cbn. eapply sc_send; eauto. lia.
      + cbn in Ed. specialize (IH r a' Hok'). destruct (pass body now timeout n r a') as [[[r1 a2] o] e]. cbn. apply sc_rel; [lia|auto].
    - specialize (IH r a Hok'). destruct (pass body now timeout n r a) as [[[r1 a2] o] e]. apply sc_skip; auto.
  Qed.

  (** Entries that are given up. *)
  Definition fin (s s' : st) : Prop := s' = s \/ (exists ad l p x d, s = PNew ad l p x d) /\ s' = PDone.
  Lemma fin_refl l : Forall2 fin l l.
  Proof. induction l; constructor; auto. now left. Qed.
  Lemma fin_trans a : forall b c, Forall2 fin a b -> Forall2 fin b c -> Forall2 fin a c.
  Proof.
    induction a as [|x a IH]; intros b c H1 H2; inversion H1; subst; inversion H2; subst; constructor; eauto.
    match goal with A : fin x ?y, B : fin ?y ?z |- _ => destruct A as [->|(A & ->)]; [exact B|]; destruct B as [->|((? & ? & ? & ? & ? & B) & ->)]; [now right|discriminate B] end.
  Qed.
  Lemma complete_fin p (q : pendq M) : Forall2 fin (pq q) (pq (fst (pend_complete p L1 q))).
  Proof.
    rewrite complete1. destruct (update_first_spec (current_inflight q) (is_new p) (fun _ => PDone) (pq q)) as [(a & x & b & E & L & _ & Hx & Eu)|[_ Eu]]; rewrite Eu; cbn [fst pq pq_set].
    - rewrite E. apply Forall2_app; [apply fin_refl|]. constructor; [|apply fin_refl]. right. split; [|reflexivity]. destruct (is_new_inv p x Hx) as (ad & l & m & d & ->). eauto 7.
    - apply fin_refl.
  Qed.
  Lemma completes_fin e : forall q : pendq M, Forall2 fin (pq q) (pq (fold_left (fun q p => fst (pend_complete p L1 q)) e q)).
  Proof. induction e as [|p e IH]; intros q; [apply fin_refl|]. cbn [fold_left]. eapply fin_trans; [apply complete_fin|apply IH]. Qed.

  (** ** Runs *)
  Inductive wstep : pendq M -> list oev -> pendq M -> Prop :=
  | ws_queue q t n m : mok m -> wstep q [EQueued t n m] (pq_set q (drop_done (pq q) ++ [PNew t 0 n m false]))
  | ws_full q t n m : wstep q [EFull t n m] (clean_complete q)
  | ws_zero q t w : wpid w = None -> wstep q [ESent t (SPub w)] q
  | ws_flush q t l1 l2 o e g :
      scanned t (pq_timeout q) (current_inflight (clean_complete q)) (drop_done (pq q)) l1 o e ->
      Forall2 fin l1 l2 -> (e = [] -> l2 = l1) ->
      wstep q (flush_events t o g) (pq_set q (drop_done l2))
  | ws_ack q k t p : wstep q [EAcked k t p (snd (ack_queue k t p q))] (fst (ack_queue k t p q))
  | ws_resume q rm : wstep q [EConn rm] (set_max_inflight rm (reset_last_sent q)).

  Lemma fin_ok l1 : forall l2, Forall2 fin l1 l2 -> Forall entry_ok l1 -> Forall entry_ok l2.
  Proof.
    induction l1 as [|s l1 IH]; intros l2 H F; inversion H; subst; [constructor|]. inversion F; subst. constructor; eauto.
    match goal with A : fin _ _ |- _ => destruct A as [->|(_ & ->)]; [assumption|exact I] end.
  Qed.
  Lemma scanned_ok now timeout n l l' o e : scanned now timeout n l l' o e -> Forall entry_ok l -> Forall entry_ok l'.
  Proof.
    induction 1; intros Hok; auto; inversion Hok as [|? ? Hs Hok']; subst; constructor; auto.
    cbn. destruct Hs as [Hm _]. split; [exact Hm|discriminate].
  Qed.

  Lemma loop_wstep {A} (body : st -> A -> st * A * list (sent W) * list pid) now q a :
    good_body wpid wdup carries lifetime mok now body -> Forall entry_ok (pq q) ->
    exists q1 a' o e l1, pend_loop body (S (length (pq (clean_complete q)))) now 0 (clean_complete q) a [] [] = Some (q1, a', o, e) /\ q1 = pq_set q l1 /\
      (forall g, wstep q (flush_events now o g) (after_loop e q1)) /\
      scanned now (pq_timeout q) (current_inflight (clean_complete q)) (drop_done (pq q)) l1 o e /\
      ((forall s a, snd (body s a) = []) -> e = []).
  Proof.
    intros Hg Hok. rewrite (pend_loop_pass body now (pq_timeout q) (clean_complete q) a eq_refl). cbn [clean_complete pq pq_set].
    pose proof (pass_scanned body now (pq_timeout q) Hg (current_inflight (clean_complete q)) (drop_done (pq q)) a (Forall_drop_done _ _ Hok)) as S.
    assert (He : (forall s a, snd (body s a) = []) -> forall n l a, snd (pass body now (pq_timeout q) n l a) = []).
    { intros Hb. induction n as [|n IH]; intros [|s l] a0; try reflexivity. cbn [pass]. destruct (due now (pq_timeout q) s).
      - assert (Hs := Hb s a0). destruct (body s a0) as [[[s' a1] o1] e1]. specialize (IH l a1). destruct (pass body now (pq_timeout q) n l a1) as [[[? ?] ?] ?]. cbn in *. now subst.
      - specialize (IH l a0). destruct (pass body now (pq_timeout q) n l a0) as [[[? ?] ?] ?]. exact IH. }
    specialize (fun Hb => He Hb (current_inflight (clean_complete q)) (drop_done (pq q)) a).
    change (pq_set q (drop_done (pq q))) with (clean_complete q) in *.
    destruct (pass body now (pq_timeout q) (current_inflight (clean_complete q)) (drop_done (pq q)) a) as [[[l1 a1] o] e].
    exists (pq_set (clean_complete q) l1), a1, o, e, l1. split; [reflexivity|]. split; [reflexivity|]. split; [|split; [exact S|exact He]]. intros g.
    assert (Q : after_loop e (pq_set (clean_complete q) l1) = pq_set q (drop_done (pq (fold_left (fun q p => fst (pend_complete p L1 q)) e (pq_set (clean_complete q) l1))))).
    { destruct (completes_fields e (pq_set (clean_complete q) l1)) as [C1 _]. cbn zeta in C1. unfold after_loop. destruct e as [|p e]; cbn [is_nil].
      - cbn [fold_left pq pq_set clean_complete]. unfold pq_set. f_equal. symmetry. destruct l1 as [|[] r]; try reflexivity. exfalso.
        destruct (drop_done_spec (pq q)) as (k & _ & ND). destruct (drop_done (pq q)) as [|s0 r0] eqn:ED; inversion S; subst; eapply ND; reflexivity.
      - rewrite C1. reflexivity. }
    rewrite Q. eapply ws_flush; [exact S|apply (completes_fin e (pq_set (clean_complete q) l1))|]. intros ->. reflexivity.
  Qed.

  (** ** Order of first transmissions *)
  Definition deadb (T t : N) (x : M) : bool := match lifetime x with Some v => v <=? T - t | None => false end.
  Lemma deadb_spec T t x : deadb T t x = true <-> elapsed t T x.
  Proof.
    unfold deadb, OutSpec.elapsed. destruct (lifetime x) as [v|]; split; intros H.
    - exists v. split; [reflexivity|lia].
    - destruct H as (v' & E & H). injection E as <-. lia.
    - discriminate.
    - destruct H as (v' & E & _). discriminate.
  Qed.
  Definition livel (T : N) (l : list st) : list (N * pid * M) :=
    flat_map (fun s => match s with PNew t _ p x false => if deadb T t x then [] else [(t, p, x)] | _ => [] end) l.
  Lemma livel_app T a b : livel T (a ++ b) = livel T a ++ livel T b.
  Proof. unfold livel. now rewrite flat_map_app. Qed.
  Lemma livel_drop_done T l : livel T (drop_done l) = livel T l.
  Proof. induction l as [|[] l IH]; cbn; auto. Qed.
  Lemma livel_reset T l : livel T (map reset_status l) = livel T l.
  Proof. induction l as [|[ad lt p x []|lt p|] l IH]; cbn; auto. f_equal. exact IH. Qed.
  Definition forever : Prop := forall m, lifetime m = None.
  Lemma livel_less T T' l : T <= T' \/ forever -> mx true (map inr (livel T' l)) (livel T l).
  Proof.
    intros L. induction l as [|[ad lt p x []|lt p|] l IH]; cbn; auto; [constructor|]. destruct (deadb T ad x) eqn:D; cbn.
    - assert (deadb T' ad x = true) as ->; [|exact IH]. unfold deadb in *. destruct L as [L|L]; [destruct (lifetime x); [|discriminate]; lia|now rewrite (L x) in D].
    - destruct (deadb T' ad x); cbn; [apply mx_skip; auto|apply mx_keep; [reflexivity|auto]].
  Qed.
  Lemma livel_fin T l : forall l', Forall2 fin l l' -> mx true (map inr (livel T l')) (livel T l).
  Proof.
    induction l as [|s l IH]; intros l' H; inversion H as [|? ? ? ? A B]; subst; [constructor|]. specialize (IH _ B).
    destruct A as [->|((ad & lt & p & x & d & ->) & ->)].
    - cbn. rewrite map_app. apply mx_app; [apply mx_refl|exact IH].
    - cbn. destruct d; [exact IH|]. destruct (deadb T ad x); cbn; [exact IH|]. now apply mx_skip.
  Qed.
  Lemma mx_less a c c' q : mx true (a ++ map inr c) q -> mx true (map inr c') c -> mx true (a ++ map inr c') q.
  Proof. intros H K. eapply mx_comp; eauto. Qed.

  Lemma scanned_none now timeout n l l' o e : scanned now timeout n l l' o e -> o = [] -> l' = l.
  Proof. induction 1; intros E; auto; try discriminate; now rewrite IHscanned. Qed.
  Lemma scanned_due now timeout n l l' o e : scanned now timeout n l l' o e -> o <> [] -> timeout <= now.
  Proof. induction 1; intros E; auto; try congruence; lia. Qed.

  Lemma scanned_live now timeout n l l' o e : scanned now timeout n l l' o e -> timeout <= now -> Forall entry_ok l ->
    mx true (map inl (firsts now o) ++ map inr (livel now l')) (livel now l).
  Proof.
    intros F T. induction F as [l|n|n s r r' o e Hd F IH|n ad p x d r r' o e Hd He F IH|n ad l p x d w r r' o e Hd He H1 H2 H3 F IH|n l p r r' o e Hd F IH]; intros Hok.
    - apply mx_refl.
    - constructor.
    - inversion Hok as [|? ? Hs Hok']; subst. specialize (IH Hok'). destruct s as [ad l p x d|l p|]; [|exact IH|exact IH].
      destruct d; [exact IH|]. destruct Hs as [_ Hs]. rewrite Hs in Hd by reflexivity. cbn in Hd. lia.
    - inversion Hok as [|? ? Hs Hok']; subst. specialize (IH Hok'). cbn. destruct d; [exact IH|]. apply deadb_spec in He. rewrite He. exact IH.
    - inversion Hok as [|? ? Hs Hok']; subst. specialize (IH Hok'). cbn. rewrite H1. destruct (wdup w) eqn:D; [exact IH|].
      destruct Hs as [_ Hs]. specialize (Hs eq_refl). subst l. destruct (deadb now ad x) eqn:DB; [apply deadb_spec in DB; tauto|].
      cbn. apply mx_keep; [|exact IH]. split; [reflexivity|]. split; [exact H3|]. intros X. apply deadb_spec in X. congruence.
    - inversion Hok as [|? ? Hs Hok']; subst. exact (IH Hok').
  Qed.

  (** The time of the last transmission. *)
  Definition clock (log : list oev) : N := fold_left (fun T e => match e with ESent t _ => t | _ => T end) log 0.
  Lemma clock_snoc log e : clock (log ++ [e]) = match e with ESent t _ => t | _ => clock log end.
  Proof. unfold clock. now rewrite fold_left_app. Qed.
  Lemma clock_flush log t o g : clock (log ++ flush_events t o g) = if is_nil o then clock log else t.
  Proof.
    unfold clock, flush_events. rewrite !fold_left_app.
    assert (G : forall T, fold_left (fun T e => match e with ESent t _ => t | _ => T end) (map (EExpired t) g : list oev) T = T) by (induction g; cbn; auto).
    rewrite G. destruct o as [|s o]; [reflexivity|]. cbn [map fold_left is_nil]. induction o as [|s' o IH]; cbn; auto.
  Qed.
  Lemma clock_last log : clock log = 0 \/ exists l1 s l2, log = l1 ++ ESent (clock log) s :: l2.
  Proof.
    induction log as [|e log IH] using rev_ind; [now left|]. rewrite clock_snoc.
    assert (K : clock log = 0 \/ exists l1 s l2, log ++ [e] = l1 ++ ESent (clock log) s :: l2).
    { destruct IH as [->|(l1 & s & l2 & E)]; [now left|right]. exists l1, s, (l2 ++ [e]). rewrite E at 1. now rewrite <- app_assoc. }
    destruct e; auto. right. exists log, s, []. reflexivity.
  Qed.
  Lemma steady_app a b : steady (a ++ b : list oev) -> steady a.
  Proof. intros H l1 t s l2 t' s' l3 ->. apply (H l1 t s l2 t' s' (l3 ++ b)). rewrite <- !app_assoc. cbn. now rewrite <- app_assoc. Qed.
  Lemma steady_next log t s l2 : steady (log ++ ESent t s :: l2 : list oev) -> clock log <= t.
  Proof.
    intros H. destruct (clock_last log) as [->|(l1 & s1 & l3 & E)]; [lia|]. rewrite E in H. apply (H l1 (clock log) s1 l3 t s l2). now rewrite <- app_assoc.
  Qed.

  Definition Ord (q : pendq M) (log : list oev) : Prop :=
    Forall entry_ok (pq q) /\ (steady log \/ forever -> mx true (map inl (first_sent log) ++ map inr (livel (clock log) (pq q))) (queued log)).

  Lemma wstep_ok q evs q' : wstep q evs q' -> Forall entry_ok (pq q) -> Forall entry_ok (pq q').
  Proof.
    intros S H. destruct S; cbn [pq pq_set clean_complete set_max_inflight reset_last_sent]; auto.
    - apply Forall_app. split; [now apply Forall_drop_done|]. constructor; [|constructor]. cbn. auto.
    - now apply Forall_drop_done.
    - apply Forall_drop_done. eapply fin_ok; [eassumption|]. eapply scanned_ok; [eassumption|]. now apply Forall_drop_done.
    - destruct (ack_queue_spec k t p q) as [(a & x & b & x' & E & L & Hp & Hk & Eq)|[_ Eq]]; rewrite Eq; cbn; [|exact H].
      rewrite E in H. apply Forall_app in H. destruct H as (H1 & H2). inversion H2; subst. apply Forall_app. split; [auto|]. constructor; [|auto]. destruct k, Hk as (_ & ->); exact I.
    - rewrite Forall_forall in *. intros s Hs. apply in_map_iff in Hs as (s0 & <- & Hs). specialize (H s0 Hs). destruct s0; cbn in *; tauto.
  Qed.

  (** Replacing one entry by one that is not waiting. *)
  Lemma ack_fin_live T k t p q : mx true (map inr (livel T (pq (fst (ack_queue k t p q))))) (livel T (pq q)).
  Proof.
    destruct (ack_queue_spec k t p q) as [(a & x & b & x' & E & L & Hp & Hk & Eq)|[_ Eq]]; rewrite Eq; cbn [fst pq pq_set]; [|apply mx_refl].
    rewrite E, !livel_app, map_app. apply mx_app; [apply mx_refl|]. change (x' :: b) with ([x'] ++ b). change (x :: b) with ([x] ++ b). rewrite !livel_app, map_app. apply mx_app; [|apply mx_refl].
    assert (livel T [x'] = []) as -> by (destruct k, Hk as (_ & ->); reflexivity). cbn [map]. destruct x as [ad l0 p0 m []| |]; cbn; try constructor. destruct (deadb T ad m); cbn; [constructor|]. apply mx_skip; [reflexivity|constructor].
  Qed.

  Lemma wstep_ord q log evs q' : wstep q evs q' -> Ord q log -> Ord q' (log ++ evs).
  Proof.
    intros S (HO & HM). split; [eapply wstep_ok; eauto|]. intros ST. assert (ST0 : steady log \/ forever) by (destruct ST as [ST|ST]; [left; exact (steady_app _ _ ST)|now right]). specialize (HM ST0).
    destruct S; rewrite ?first_sent_app, ?queued_app, ?clock_snoc.
    - cbn [pq pq_set first_sent OutSpec.first_sent queued flat_map app]. rewrite !app_nil_r, livel_app, livel_drop_done. rewrite map_app, app_assoc.
      cbn. destruct (deadb (clock log) t m); cbn.
      + rewrite app_nil_r. clear - HM. revert HM. generalize (map inl (first_sent log) ++ map inr (livel (clock log) (pq q))) as A. generalize (queued log) as Q. intros Q A H. induction H; cbn; [apply mx_skip; [reflexivity|constructor]|constructor; auto|apply mx_skip; auto].
      + now apply mx_snoc.
    - cbn -[livel]. rewrite !app_nil_r, livel_drop_done. exact HM.
    - cbn -[livel]. rewrite H. assert ((if wdup w then [] else []) = ([] : list (N * pid * W))) as -> by now destruct (wdup w). rewrite !app_nil_r.
      eapply mx_less; [exact HM|]. apply livel_less. destruct ST as [ST|ST]; [left; apply (steady_next log t (SPub w) []); exact ST|now right].
    - rewrite first_sent_flush, queued_flush, app_nil_r, clock_flush. cbn [pq pq_set]. rewrite livel_drop_done, map_app, <- app_assoc.
      destruct o as [|s0 o].
      + cbn. rewrite (scanned_none _ _ _ _ _ _ _ H eq_refl) in *. eapply mx_less; [exact HM|]. rewrite <- (livel_drop_done (clock log) (pq q)). now apply livel_fin.
      + cbn [is_nil]. pose proof (scanned_due _ _ _ _ _ _ _ H ltac:(discriminate)) as DU.
        assert (LE : clock log <= t \/ forever) by (destruct ST as [ST|ST]; [left; apply (steady_next log t s0 (map (ESent t) o ++ map (EExpired t) g)); exact ST|now right]).
        eapply mx_comp; [exact HM|]. pose proof (scanned_live _ _ _ _ _ _ _ H DU (Forall_drop_done _ _ HO)) as K. rewrite livel_drop_done in K.
        pose proof (livel_less (clock log) t (pq q) LE) as K2.
        assert (K3 : mx true (map inl (firsts t (s0 :: o)) ++ map inr (livel t l1)) (livel (clock log) (pq q))) by (exact (mx_comp timely true [] _ _ _ K2 K)).
        eapply mx_less; [exact K3|]. now apply livel_fin.
    - cbn -[livel]. rewrite !app_nil_r. eapply mx_less; [exact HM|]. apply ack_fin_live.
    - cbn -[livel]. rewrite !app_nil_r, livel_reset. exact HM.
  Qed.

  (** ** Where transmissions come from *)
  Definition sourced (log : list oev) (l : list st) : Prop := forall ad lt p x d, In (PNew ad lt p x d) l -> In (EQueued ad p x) log.
  Lemma in_drop_done (s : st) l : In s (drop_done l) -> In s l.
  Proof. induction l as [|[] l IH]; cbn; auto. Qed.
  Lemma fin_in ad lt p x d l : forall l', Forall2 fin l l' -> In (PNew ad lt p x d) l' -> In (PNew ad lt p x d) l.
  Proof.
    induction l as [|s l IH]; intros l' H Hi; inversion H as [|? ? ? ? A B]; subst; [contradiction|]. destruct Hi as [->|Hi]; [|right; eauto].
    destruct A as [->|(_ & A)]; [now left|discriminate].
  Qed.
  Lemma scanned_in now timeout n l l' o e ad lt p x d : scanned now timeout n l l' o e -> In (PNew ad lt p x d) l' -> exists lt0 d0, In (PNew ad lt0 p x d0) l.
  Proof.
    induction 1; intros Hi.
    - eauto.
    - contradiction.
    - destruct Hi as [->|Hi]; [exists lt, d; now left|]. destruct (IHscanned Hi) as (a & b & K). exists a, b. now right.
    - destruct Hi as [E|Hi]; [injection E as -> <- -> -> ->; exists 0, d; now left|]. destruct (IHscanned Hi) as (a & b & K). exists a, b. now right.
    - destruct Hi as [E|Hi]; [injection E as -> <- -> -> <-; exists l, d0; now left|]. destruct (IHscanned Hi) as (a & b & K). exists a, b. now right.
    - destruct Hi as [E|Hi]; [discriminate|]. destruct (IHscanned Hi) as (a & b & K). exists a, b. now right.
  Qed.
  Lemma scanned_out now timeout n l l' o e s : scanned now timeout n l l' o e -> In s o ->
    match s with
    | SPub w => exists ad lt p x, In (PNew ad lt p x (wdup w)) l /\ wpid w = Some p /\ carries ad now x w
    | SRel p => exists lt, In (PRec lt p) l
    end.
  Proof.
    induction 1 as [l|n|n s0 r r' o e Hd F IH|n ad p x d r r' o e Hd He F IH|n ad l p x d w r r' o e Hd He H1 H2 H3 F IH|n l p r r' o e Hd F IH]; intros Hi; try contradiction.
    - specialize (IH Hi). destruct s; [destruct IH as (a & b & c & y & K & L); exists a, b, c, y|destruct IH as (a & K); exists a]; (split; [right; exact K|exact L]) || (right; exact K).
    - specialize (IH Hi). destruct s; [destruct IH as (a & b & c & y & K & L); exists a, b, c, y|destruct IH as (a & K); exists a]; (split; [right; exact K|exact L]) || (right; exact K).
    - destruct Hi as [<-|Hi]; [exists ad, l, p, x; split; [left; now rewrite H2|auto]|].
      specialize (IH Hi). destruct s; [destruct IH as (a & b & c & y & K & L); exists a, b, c, y|destruct IH as (a & K); exists a]; (split; [right; exact K|exact L]) || (right; exact K).
    - destruct Hi as [<-|Hi]; [exists l; now left|].
      specialize (IH Hi). destruct s; [destruct IH as (a & b & c & y & K & L); exists a, b, c, y|destruct IH as (a & K); exists a]; (split; [right; exact K|exact L]) || (right; exact K).
  Qed.
  Lemma ack_in k t p0 (q : pendq M) ad lt p x d : In (PNew ad lt p x d) (pq (fst (ack_queue k t p0 q))) -> In (PNew ad lt p x d) (pq q).
  Proof.
    destruct (ack_queue_spec k t p0 q) as [(a & y & b & x' & E & L & Hp & Hk & Eq)|[_ Eq]]; rewrite Eq; cbn [fst pq pq_set]; auto.
    rewrite E, !in_app_iff. cbn [In]. intros [H|[H|H]]; auto. destruct k, Hk as (_ & ->); discriminate.
  Qed.
  Lemma wstep_sourced q log evs q' : wstep q evs q' -> sourced log (pq q) -> sourced (log ++ evs) (pq q').
  Proof.
    intros S H ad lt p x d Hi. rewrite in_app_iff. destruct S; cbn [pq pq_set clean_complete set_max_inflight reset_last_sent] in Hi.
    - apply in_app_iff in Hi. destruct Hi as [Hi|[E|[]]]; [left; eapply H; eapply in_drop_done; eauto|]. injection E as -> <- -> -> <-. right. now left.
    - left. eapply H. eapply in_drop_done; eauto.
    - left. eauto.
    - left. apply in_drop_done in Hi. eapply fin_in in Hi; [|eassumption]. eapply scanned_in in Hi; [|eassumption]. destruct Hi as (a & b & Hi). eapply H. eapply in_drop_done; eauto.
    - left. eapply H. eapply ack_in; eauto.
    - left. apply in_map_iff in Hi. destruct Hi as (s & E & Hi). destruct s; cbn in E; try discriminate. injection E as -> <- -> -> ->. eauto.
  Qed.
  (** Every PUBLISH with an identifier carries a message queued before under it. *)
  Definition Srcs (log : list oev) : Prop := forall l1 t w p l2, log = l1 ++ ESent t (SPub w) :: l2 -> wpid w = Some p ->
    exists t0 m, In (EQueued t0 p m) l1 /\ carries t0 t m w.
  Lemma srcs_app log evs : Srcs log ->
    (forall e1 t w p e2, evs = e1 ++ ESent t (SPub w) :: e2 -> wpid w = Some p -> exists t0 m, In (EQueued t0 p m) log /\ carries t0 t m w) -> Srcs (log ++ evs).
  Proof.
    intros H1 H2 l1 t w p l2 E P.
    assert (K : forall (log evs l1 l2 : list oev) x, log ++ evs = l1 ++ x :: l2 -> (exists r, log = l1 ++ x :: r) \/ exists e1, l1 = log ++ e1 /\ evs = e1 ++ x :: l2).
    { clear. induction log as [|y log IH]; intros evs l1 l2 x E; [right; exists l1; auto|]. destruct l1 as [|z l1]; cbn in E; injection E as -> E; [left; now exists log|].
      destruct (IH _ _ _ _ E) as [(r & ->)|(e1 & -> & ->)]; [left; now exists r|right; now exists e1]. }
    destruct (K _ _ _ _ _ E) as [(r & ->)|(e1 & -> & ->)].
    - destruct (H1 l1 t w p r eq_refl P) as (t0 & m & A & B). eauto.
    - destruct (H2 e1 t w p l2 eq_refl P) as (t0 & m & A & B). exists t0, m. rewrite in_app_iff. auto.
  Qed.
  Lemma wstep_srcs q log evs q' : wstep q evs q' -> sourced log (pq q) -> Srcs log -> Srcs (log ++ evs).
  Proof.
    intros S H HS. apply srcs_app; [exact HS|]. intros e1 t0 w0 p0 e2 E P.
    assert (Hi : In (ESent t0 (SPub w0)) evs) by (rewrite E, in_app_iff; cbn; auto). clear E. destruct S; cbn [In] in Hi; try (destruct Hi as [Hi|[]]; try discriminate).
    - injection Hi as -> ->. congruence.
    - unfold flush_events in Hi. rewrite in_app_iff, !in_map_iff in Hi. destruct Hi as [(s & E & Hi)|(s & E & Hi)]; [|discriminate]. injection E as <- ->.
      destruct (scanned_out _ _ _ _ _ _ _ _ H0 Hi) as (ad & lt & p & x & A & B & C). exists ad, x. split; [|exact C]. rewrite P in B. injection B as ->. eapply H. eapply in_drop_done; eauto.
  Qed.

  (** Matching first transmissions with messages, whatever the clock does. *)
  Definition Tim (q : pendq M) (log : list oev) : Prop :=
    exists matched rest, Permutation (queued log) (matched ++ waitl (pq q) ++ rest) /\ Forall2 (transmits timely) (first_sent log) matched.
  Lemma scanned_match now timeout n l l' o e : scanned now timeout n l l' o e -> Forall entry_ok l ->
    exists m, Permutation (waitl l) (m ++ waitl l') /\ Forall2 (transmits timely) (firsts now o) m.
  Proof.
    induction 1 as [l|n|n s r r' o e Hd F IH|n ad p x d r r' o e Hd He F IH|n ad l p x d w r r' o e Hd He H1 H2 H3 F IH|n l p r r' o e Hd F IH]; intros Hok.
    - exists []. split; [reflexivity|constructor].
    - exists []. split; [reflexivity|constructor].
    - inversion Hok as [|? ? Hs Hok']; subst. destruct (IH Hok') as (m & P & G). exists m. split; [|exact G]. change (s :: r) with ([s] ++ r). change (s :: r') with ([s] ++ r'). rewrite !waitl_app, P. apply Permutation_app_swap_app.
    - inversion Hok as [|? ? Hs Hok']; subst. destruct (IH Hok') as (m & P & G). exists m. split; [|exact G].
      change (PNew ad 0 p x d :: r) with ([PNew ad 0 p x d] ++ r). change (PNew ad 0 p x d :: r') with ([PNew ad 0 p x d] ++ r'). rewrite !waitl_app, P. apply Permutation_app_swap_app.
    - inversion Hok as [|? ? Hs Hok']; subst. destruct (IH Hok') as (m & P & G). cbn. rewrite H1. destruct (wdup w) eqn:D; [exists m; split; [exact P|exact G]|].
      destruct Hs as [_ Hs]. specialize (Hs eq_refl). subst l. exists ((ad, p, x) :: m). split; [cbn; now constructor|]. constructor; [|exact G]. split; [reflexivity|]. split; [exact H3|tauto].
    - inversion Hok as [|? ? Hs Hok']; subst. destruct (IH Hok') as (m & P & G). exists m. split; [exact P|exact G].
  Qed.
  Lemma waitl_fin l : forall l', Forall2 fin l l' -> exists r, Permutation (waitl l) (waitl l' ++ r).
  Proof.
    induction l as [|s l IH]; intros l' H; inversion H as [|? ? ? ? A B]; subst; [exists []; reflexivity|]. destruct (IH _ B) as (r & P). destruct A as [->|((ad & lt & p & x & d & ->) & ->)].
    - exists r. change (s :: l) with ([s] ++ l). change (s :: l'0) with ([s] ++ l'0). rewrite !waitl_app, <- app_assoc. now apply Permutation_app_head.
    - destruct d; [exists r; exact P|]. exists ((ad, p, x) :: r). cbn. rewrite P. apply Permutation_middle.
  Qed.
  Lemma waitl_ack k t p (q : pendq M) : exists r, Permutation (waitl (pq q)) (waitl (pq (fst (ack_queue k t p q))) ++ r).
  Proof.
    destruct (ack_queue_spec k t p q) as [(a & y & b & x' & E & L & Hp & Hk & Eq)|[_ Eq]]; rewrite Eq; cbn [fst pq pq_set]; [|exists []; now rewrite app_nil_r].
    exists (waitl [y]). rewrite E. change (y :: b) with ([y] ++ b). change (x' :: b) with ([x'] ++ b). rewrite !waitl_app, <- app_assoc. apply Permutation_app_head.
    assert (waitl [x'] = []) as -> by (destruct k, Hk as (_ & ->); reflexivity). apply Permutation_app_comm.
  Qed.
  Lemma waitl_reset l : waitl (map reset_status l) = (waitl l : list (N * pid * M)).
  Proof. induction l as [|[ad lt p x []|lt p|] l IH]; cbn -[waitl] in *; auto. change (PNew ad 0 p x false :: map reset_status l) with ([PNew ad 0 p x false] ++ map reset_status l). change (PNew ad lt p x false :: l) with ([PNew ad lt p x false] ++ l). rewrite !waitl_app, IH. reflexivity. Qed.
  Lemma wstep_tim q log evs q' : wstep q evs q' -> Forall entry_ok (pq q) -> Tim q log -> Tim q' (log ++ evs).
  Proof.
    intros S HO (m & r & P & F). unfold Tim. destruct S; rewrite first_sent_app, queued_app.
    - exists m, r. cbn -[waitl]. rewrite app_nil_r, waitl_app, waitl_drop_done. split; [|exact F]. rewrite P. rewrite <- !app_assoc. apply Permutation_app_head, Permutation_app_head. cbn. symmetry. apply Permutation_cons_append.
    - exists m, r. cbn -[waitl]. rewrite !app_nil_r, waitl_drop_done. auto.
    - exists m, r. cbn -[waitl]. rewrite H. assert ((if wdup w then [] else []) = ([] : list (N * pid * W))) as -> by now destruct (wdup w). rewrite !app_nil_r. auto.
    - rewrite first_sent_flush, queued_flush, app_nil_r. cbn [pq pq_set]. rewrite waitl_drop_done.
      destruct (scanned_match _ _ _ _ _ _ _ H (Forall_drop_done _ _ HO)) as (m2 & P2 & F2). rewrite waitl_drop_done in P2. destruct (waitl_fin _ _ H0) as (r2 & P3).
      exists (m ++ m2), (r2 ++ r). split; [|now apply Forall2_app]. rewrite P, P2, P3, <- !app_assoc. reflexivity.
    - destruct (waitl_ack k t p q) as (r2 & P2). exists m, (r2 ++ r). cbn -[waitl]. rewrite !app_nil_r. split; [|exact F]. now rewrite P, P2, <- !app_assoc.
    - exists m, r. cbn -[waitl]. rewrite !app_nil_r, waitl_reset. auto.
  Qed.

  (** ** Nothing is skipped *)
  Definition wait (s : st) : bool := match s with PNew _ _ _ _ false => true | _ => false end.
  Fixpoint srt (l : list st) : Prop := match l with [] => True | s :: r => if wait s then Forall (fun x => wait x = true) r else srt r end.
  Lemma srt_all l : Forall (fun x => wait x = true) l -> srt l.
  Proof. destruct 1; cbn; auto. now rewrite H. Qed.
  Lemma srt_tail s r : srt (s :: r) -> srt r.
  Proof. cbn. destruct (wait s); auto. apply srt_all. Qed.
  Lemma srt_drop_done l : srt l -> srt (drop_done l).
  Proof. induction l as [|[] l IH]; cbn [drop_done]; auto. Qed.
  Lemma srt_snoc l s : srt l -> wait s = true -> srt (l ++ [s]).
  Proof.
    intros H HW. induction l as [|x l IH]; cbn in *; [now rewrite HW|]. destruct (wait x); [|auto]. apply Forall_app. split; [exact H|]. constructor; [exact HW|constructor].
  Qed.
  Lemma wait_reset : forall s : st, wait (reset_status s) = wait s.
  Proof. intros [ad lt p x []|lt p|]; reflexivity. Qed.
  Lemma srt_reset l : srt l -> srt (map reset_status l).
  Proof.
    induction l as [|s l IH]; cbn; auto. rewrite wait_reset. destruct (wait s); auto. intros H. rewrite Forall_forall in *. intros x Hx. apply in_map_iff in Hx. destruct Hx as (y & <- & Hy). rewrite wait_reset. auto.
  Qed.
  Lemma srt_split a x b : srt (a ++ x :: b) -> wait x = false -> Forall (fun s => wait s = false) a /\ srt b.
  Proof.
    intros H HW. induction a as [|s a IH]; cbn in *; [rewrite HW in H; auto|]. destruct (wait s) eqn:E.
    - apply Forall_app in H. destruct H as (_ & H). inversion H; subst. congruence.
    - destruct (IH H). auto.
  Qed.
  Lemma srt_join a x b : Forall (fun s => wait s = false) a -> wait x = false -> srt b -> srt (a ++ x :: b).
  Proof. intros H HW B. induction H as [|s a E F IH]; cbn; [now rewrite HW|now rewrite E]. Qed.
  Lemma scanned_srt now timeout n l l' o : scanned now timeout n l l' o [] -> timeout <= now -> Forall entry_ok l -> srt l -> srt l'.
  Proof.
    intros F. remember [] as e eqn:Ee. revert Ee. induction F as [l|n|n s r r' o e Hd F IH|n ad p x d r r' o e Hd He F IH|n ad l p x d w r r' o e Hd He H1 H2 H3 F IH|n l p r r' o e Hd F IH]; intros Ee T Hok HS; auto; try discriminate; inversion Hok as [|? ? Hs Hok']; subst.
    - specialize (IH eq_refl T Hok' (srt_tail _ _ HS)). cbn. destruct (wait s) eqn:HW; [|exact IH]. destruct s as [ad l p x []| |]; try discriminate. destruct Hs as [_ Hs]. rewrite Hs in Hd by reflexivity. cbn in Hd. lia.
    - specialize (IH eq_refl T Hok' (srt_tail _ _ HS)). exact IH.
    - specialize (IH eq_refl T Hok' (srt_tail _ _ HS)). exact IH.
  Qed.
  (** Messages transmitted and not yet confirmed, by identifier. *)
  Definition sentc (p : pid) (l : list st) : nat := List.length (filter (fun s => match s with PNew _ _ q _ true => q =? p | _ => false end) l).
  Lemma sentc_app p a b : sentc p (a ++ b) = (sentc p a + sentc p b)%nat.
  Proof. unfold sentc. now rewrite filter_app, app_length. Qed.
  Lemma sentc_drop_done p l : sentc p (drop_done l) = sentc p l.
  Proof. induction l as [|[] l IH]; cbn; auto. Qed.
  Lemma sentc_reset p l : sentc p (map reset_status l) = sentc p l.
  Proof. unfold sentc. induction l as [|[ad lt q x []|lt q|] l IH]; cbn; auto. destruct (q =? p); cbn; auto. Qed.
  Lemma scanned_sentc p now timeout n l l' o e : scanned now timeout n l l' o e ->
    sentc p l' = (sentc p l + List.length (filter (fun s => (snd (fst s) =? p)%N) (firsts now o)))%nat.
  Proof.
    induction 1 as [l|n|n s r r' o e Hd F IH|n ad q x d r r' o e Hd He F IH|n ad l q x d w r r' o e Hd He H1 H2 H3 F IH|n l q r r' o e Hd F IH]; unfold sentc in *; cbn [filter firsts flat_map].
    - now rewrite Nat.add_0_r.
    - reflexivity.
    - destruct s as [? ? q ? []| |]; cbn; auto. destruct (q =? p); cbn; auto.
    - destruct d; auto. destruct (q =? p); cbn; auto.
    - rewrite filter_app, app_length. rewrite H1. rewrite H2. fold (firsts now o). destruct d; cbn [filter fst snd length]; destruct (q =? p); cbn; rewrite ?IH; cbn; rewrite ?Nat.add_succ_r; reflexivity.
    - cbn. exact IH.
  Qed.
  Lemma ack_first k t p (q : pendq M) :
    (exists a x b x', pq q = a ++ x :: b /\ (forall y, In y a -> match k with AckPuback | AckPubrec => is_new p y = false | AckPubcomp => is_rec p y = false end) /\
       match k with
       | AckPuback => (exists ad l m d, x = PNew ad l p m d) /\ x' = PDone
       | AckPubrec => (exists ad l m d, x = PNew ad l p m d) /\ x' = PRec t p
       | AckPubcomp => (exists l, x = PRec l p) /\ x' = PDone
       end /\ ack_queue k t p q = (pq_set q (a ++ x' :: b), true)) \/
    ack_queue k t p q = (q, false).
  Proof.
    assert (Hset : pq_set q (pq q) = q) by (destruct q; reflexivity).
    destruct k; cbn [ack_queue]; rewrite ?complete1, ?complete2; unfold pend_pubrec.
    - destruct (update_first_spec (current_inflight q) (is_new p) (fun _ => PDone) (pq q)) as [(a & x & b & E & L & B & Hx & Eu)|[Hn Eu]]; rewrite Eu; [left|right; now rewrite Hset].
      exists a, x, b, PDone. destruct (is_new_inv p x Hx) as (ad & l & m & d & ->). repeat split; eauto 6.
    - destruct (update_first_spec (current_inflight q) (is_new p) (fun _ => PRec t p) (pq q)) as [(a & x & b & E & L & B & Hx & Eu)|[Hn Eu]]; rewrite Eu; [left|right; now rewrite Hset].
      exists a, x, b, (PRec t p). destruct (is_new_inv p x Hx) as (ad & l & m & d & ->). repeat split; eauto 6.
    - destruct (update_first_spec (current_inflight q) (is_rec p) (fun _ => PDone) (pq q)) as [(a & x & b & E & L & B & Hx & Eu)|[Hn Eu]]; rewrite Eu; [left|right; now rewrite Hset].
      exists a, x, b, PDone. destruct (is_rec_inv p x Hx) as (l & ->). repeat split; eauto 6.
  Qed.

  Notation lasting := (lasting (W := W) lifetime).
  Notation honest := (honest (M := M) wpid wdup).
  Definition Exa (q : pendq M) (log : list oev) : Prop := lasting log -> honest log ->
    mx false (map inl (first_sent log) ++ map inr (waitl (pq q))) (queued log) /\ srt (pq q) /\ forall p, (received p log + sentc p (pq q) = first_under wpid wdup p log)%nat.
  Lemma lasting_app a b : lasting (a ++ b) -> lasting a.
  Proof. intros H t p m Hi. apply (H t p m). rewrite queued_app, in_app_iff. auto. Qed.
  Lemma honest_app a b : honest (a ++ b) -> honest a.
  Proof. intros H l1 l2 p ->. apply (H l1 (l2 ++ b)). now rewrite app_assoc. Qed.
  Lemma received_app p (a b : list oev) : received p (a ++ b) = (received p a + received p b)%nat.
  Proof. unfold received. now rewrite filter_app, app_length. Qed.
  Lemma first_under_app p (a b : list oev) : first_under wpid wdup p (a ++ b) = (first_under wpid wdup p a + first_under wpid wdup p b)%nat.
  Proof. unfold first_under. now rewrite first_sent_app, filter_app, app_length. Qed.
  Lemma received_flush p t o g : received p (flush_events t o g : list oev) = 0%nat.
  Proof. unfold received, flush_events. rewrite filter_app, app_length. induction o; cbn; auto. induction g; cbn; auto. Qed.

  Lemma wstep_exa q log evs q' : wstep q evs q' -> Forall entry_ok (pq q) -> sourced log (pq q) -> Exa q log -> Exa q' (log ++ evs).
  Proof.
    intros S HO HS H LA HN. destruct (H (lasting_app _ _ LA) (honest_app _ _ HN)) as (HM & HT & HC).
    destruct S; rewrite first_sent_app, queued_app.
    - cbn -[waitl srt sentc received first_under]. rewrite app_nil_r, waitl_app, waitl_drop_done, map_app, app_assoc. split; [now apply mx_snoc|]. split; [apply srt_snoc; [now apply srt_drop_done|reflexivity]|].
      intros p. rewrite received_app, first_under_app, sentc_app, sentc_drop_done. cbn. rewrite !Nat.add_0_r. apply HC.
    - cbn -[waitl srt sentc received first_under]. rewrite !app_nil_r, waitl_drop_done. split; [exact HM|]. split; [now apply srt_drop_done|]. intros p. rewrite received_app, first_under_app, sentc_drop_done. cbn. rewrite !Nat.add_0_r. apply HC.
    - assert (E0 : first_sent [ESent t (SPub w) : oev] = []) by (cbn; rewrite H0; now destruct (wdup w)). rewrite E0. cbn -[waitl srt sentc received first_under]. rewrite !app_nil_r. split; [exact HM|]. split; [exact HT|].
      intros p. rewrite received_app, first_under_app. unfold first_under at 2. rewrite E0. cbn. rewrite !Nat.add_0_r. apply HC.
    - rewrite first_sent_flush, queued_flush, app_nil_r. cbn [pq pq_set]. rewrite waitl_drop_done.
      assert (NE : e = []).
      { assert (K : forall n l l1 o e, scanned t (pq_timeout q) n l l1 o e -> (forall ad lt p x d, In (PNew ad lt p x d) l -> lifetime x = None) -> e = []).
        { clear. induction 1 as [l|n|n s r r' o e Hd F IH|n ad p x d r r' o e Hd He F IH|n ad l p x d w r r' o e Hd He H1 H2 H3 F IH|n l p r r' o e Hd F IH]; intros HL; auto.
          - apply IH. intros. eapply HL. right. eauto.
          - destruct He as (v & E & _). rewrite (HL _ _ _ _ _ (or_introl eq_refl)) in E. discriminate.
          - apply IH. intros. eapply HL. right. eauto.
          - apply IH. intros. eapply HL. right. eauto. }
        eapply K; [exact H0|]. intros ad lt p x d Hi. apply in_drop_done in Hi. apply HS in Hi. apply (LA ad p x). rewrite queued_app, in_app_iff. left. unfold queued. apply in_flat_map. exists (EQueued ad p x). split; [exact Hi|now left]. }
      subst e. rewrite (H2 eq_refl) in *. clear H2 H1.
      assert (CNT : forall p, (received p (log ++ flush_events t o g) + sentc p (drop_done l1) = first_under wpid wdup p (log ++ flush_events t o g))%nat).
      { intros p. rewrite received_app, received_flush, first_under_app, sentc_drop_done. unfold first_under at 2. rewrite first_sent_flush, (scanned_sentc p _ _ _ _ _ _ _ H0), sentc_drop_done. specialize (HC p). lia. }
      destruct o as [|s0 o].
      + rewrite (scanned_none _ _ _ _ _ _ _ H0 eq_refl) in *. cbn [firsts flat_map map]. rewrite app_nil_r, waitl_drop_done. split; [exact HM|]. split; [now apply srt_drop_done, srt_drop_done|exact CNT].
      + pose proof (scanned_due _ _ _ _ _ _ _ H0 ltac:(discriminate)) as DU. split; [|split; [apply srt_drop_done; eapply scanned_srt; eauto; [now apply Forall_drop_done|now apply srt_drop_done]|exact CNT]].
        rewrite map_app, <- app_assoc. eapply mx_comp; [exact HM|].
        assert (K : forall n l l1 o e, scanned t (pq_timeout q) n l l1 o e -> e = [] -> Forall entry_ok l -> mx false (map inl (firsts t o) ++ map inr (waitl l1)) (waitl l)).
        { clear - DU. induction 1 as [l|n|n s r r' o e Hd F IH|n ad p x d r r' o e Hd He F IH|n ad l p x d w r r' o e Hd He H1 H2 H3 F IH|n l p r r' o e Hd F IH]; intros Ee Hok; auto; try discriminate.
          - apply mx_refl.
          - constructor.
          - inversion Hok as [|? ? Hs Hok']; subst. specialize (IH eq_refl Hok'). destruct s as [ad l p x d|l p|]; [|exact IH|exact IH]. destruct d; [exact IH|]. destruct Hs as [_ Hs]. rewrite Hs in Hd by reflexivity. cbn in Hd. lia.
          - inversion Hok as [|? ? Hs Hok']; subst. specialize (IH eq_refl Hok'). cbn. rewrite H1. destruct (wdup w) eqn:D; [exact IH|]. destruct Hs as [_ Hs]. specialize (Hs eq_refl). subst l.
            cbn. apply mx_keep; [|exact IH]. split; [reflexivity|]. split; [exact H3|]. tauto.
          - inversion Hok as [|? ? Hs Hok']; subst. exact (IH eq_refl Hok'). }
        specialize (K _ _ _ _ _ H0 eq_refl (Forall_drop_done _ _ HO)). now rewrite waitl_drop_done in K.
    - cbn [first_sent OutSpec.first_sent queued flat_map]. rewrite !app_nil_r.
      assert (HN2 : forall p0, (received p0 (log ++ [EAcked k t p (snd (ack_queue k t p q))]) <= first_under wpid wdup p0 log)%nat).
      { intros p0. specialize (HN (log ++ [EAcked k t p (snd (ack_queue k t p q))]) [] p0 ltac:(now rewrite app_nil_r)). rewrite first_under_app in HN. cbn in HN. lia. }
      destruct (ack_first k t p q) as [(a & x & b & x' & E & B & Hk & Eq)|Eq]; rewrite Eq in *; cbn [fst snd pq pq_set] in *.
      + assert (WX : wait x = false).
        { destruct (wait x) eqn:WX; [exfalso|reflexivity]. destruct x as [ad l0 p0 m0 []| |]; try discriminate.
          assert (KK : k = AckPuback \/ k = AckPubrec) by (destruct k; auto; destruct Hk as ((? & Hk) & _); discriminate).
          assert (p0 = p) as -> by (destruct KK as [-> | ->]; destruct Hk as ((? & ? & ? & ? & Hk) & _); congruence).
          assert (Z : sentc p (pq q) = 0%nat).
          { rewrite E, sentc_app. assert (sentc p a = 0%nat) as ->.
            - assert (BB : forall y, In y a -> is_new p y = false) by (destruct KK as [-> | ->]; exact B). clear - BB. unfold sentc in *. induction a as [|y a IH]; [reflexivity|]. pose proof (BB y (or_introl eq_refl)) as By. cbn [filter]. destruct y as [? ? q ? []| |]; cbn in By; rewrite ?By; (apply IH; intros; apply BB; now right).
            - cbn. assert (F : Forall (fun s => wait s = true) b).
              { rewrite E in HT. clear - HT. induction a as [|y a IH]; cbn in HT; auto. destruct (wait y); auto. apply Forall_app in HT. destruct HT as (_ & HT). now inversion HT. }
              clear - F. unfold sentc. induction F as [|y b Hy F IH]; cbn; auto. destruct y as [? ? ? ? []| |]; try discriminate. exact IH. }
          specialize (HC p). specialize (HN2 p). rewrite received_app in HN2.
          assert (R1 : received p [EAcked k t p true : oev] = 1%nat) by (unfold received; destruct KK as [-> | ->]; cbn; now rewrite N.eqb_refl). lia. }
        assert (WX' : wait x' = false) by (destruct k, Hk as (_ & ->); reflexivity). rewrite E in HT. destruct (srt_split _ _ _ HT WX) as (F1 & F2).
        assert (WL : waitl (a ++ x' :: b) = waitl (pq q)).
        { rewrite E. change (x :: b) with ([x] ++ b). change (x' :: b) with ([x'] ++ b). rewrite !waitl_app. f_equal. f_equal. destruct x as [? ? ? ? []| |]; try discriminate; destruct x' as [? ? ? ? []| |]; try discriminate; reflexivity. }
        rewrite WL. split; [exact HM|]. split; [now apply srt_join|]. intros p0. rewrite received_app, first_under_app. specialize (HC p0). rewrite E in HC.
        change (x :: b) with ([x] ++ b) in HC. change (x' :: b) with ([x'] ++ b). rewrite !sentc_app in *.
        assert (R0 : (received p0 [EAcked k t p true : oev] + sentc p0 [x'] = sentc p0 [x])%nat).
        { destruct k; destruct Hk as (Hx & ->); [destruct Hx as (? & ? & ? & d & ->); destruct d; try discriminate|destruct Hx as (? & ? & ? & d & ->); destruct d; try discriminate|destruct Hx as (? & ->)]; unfold received, sentc; cbn; try reflexivity; destruct (p =? p0); reflexivity. }
        replace (first_under wpid wdup p0 ([EAcked k t p true] : list oev)) with 0%nat by reflexivity. lia.
      + split; [exact HM|]. split; [exact HT|]. intros p0. rewrite received_app, first_under_app. specialize (HC p0).
        replace (received p0 [EAcked k t p false : oev]) with 0%nat by (destruct k; reflexivity). replace (first_under wpid wdup p0 ([EAcked k t p false] : list oev)) with 0%nat by reflexivity. lia.
    - cbn -[waitl srt sentc received first_under]. rewrite !app_nil_r, waitl_reset. split; [exact HM|]. split; [now apply srt_reset|]. intros p. rewrite received_app, first_under_app, sentc_reset. cbn. rewrite !Nat.add_0_r. apply HC.
  Qed.

  (** ** What is unfinished *)
  Definition unfs (l : list st) : list (pid * option (N * M)) :=
    flat_map (fun s => match s with PNew t _ p m _ => [(p, Some (t, m))] | PRec _ p => [(p, None)] | PDone => [] end) l.
  Lemma unfs_app a b : unfs (a ++ b) = unfs a ++ unfs b.
  Proof. apply flat_map_app. Qed.
  Lemma unfs_drop_done l : unfs (drop_done l) = unfs l.
  Proof. induction l as [|[] l IH]; cbn; auto. Qed.
  Lemma unfs_reset l : unfs (map reset_status l) = unfs l.
  Proof. unfold unfs. induction l as [|[] l IH]; cbn; auto; now rewrite IH. Qed.
  Lemma unfs_scanned now timeout n l l' o e : scanned now timeout n l l' o e -> unfs l' = unfs l.
  Proof. induction 1; cbn; auto; unfold unfs in *; cbn; rewrite ?IHscanned; auto. Qed.
  Lemma scanned_lasting now timeout n l l' o e : scanned now timeout n l l' o e -> (forall ad lt p x d, In (PNew ad lt p x d) l -> lifetime x = None) -> e = [].
  Proof.
    induction 1 as [l|n|n s r r' o e Hd F IH|n ad p x d r r' o e Hd He F IH|n ad l p x d w r r' o e Hd He H1 H2 H3 F IH|n l p r r' o e Hd F IH]; intros HL; auto.
    - apply IH. intros. eapply HL. right. eauto.
    - destruct He as (v & E & _). rewrite (HL _ _ _ _ _ (or_introl eq_refl)) in E. discriminate.
    - apply IH. intros. eapply HL. right. eauto.
    - apply IH. intros. eapply HL. right. eauto.
  Qed.
  Lemma ledger_app (a b : list oev) : ledger (a ++ b) = fold_left ledger_step b (ledger a).
  Proof. unfold ledger. apply fold_left_app. Qed.
  Lemma ledger_flush t o g l : fold_left ledger_step (flush_events t o g : list oev) l = l.
  Proof. unfold flush_events. rewrite fold_left_app. assert (E : fold_left ledger_step (map (ESent t) o : list oev) l = l) by (induction o; cbn; auto). rewrite E. induction g; cbn; auto. Qed.
  Lemma replace_new p y (l : list (pid * option (N * M))) p' t m : (p' =? p) = false -> replace_first (to_deliver p) y ((p', Some (t, m)) :: l) = (p', Some (t, m)) :: replace_first (to_deliver p) y l.
  Proof. intros H. cbn [replace_first]. unfold to_deliver at 1. cbn [fst snd]. now rewrite H. Qed.
  Lemma replace_rec p y (l : list (pid * option (N * M))) p' : (p' =? p) = false -> replace_first (to_release p) y ((p', None) :: l) = (p', None) :: replace_first (to_release p) y l.
  Proof. intros H. cbn [replace_first]. unfold to_release at 1. cbn [fst snd]. now rewrite H. Qed.
  Lemma replace_deliver p y a x b : (forall s, In s a -> is_new p s = false) -> (exists ad l m d, x = PNew ad l p m d) ->
    replace_first (to_deliver p) y (unfs (a ++ x :: b)) = unfs a ++ y ++ unfs b.
  Proof.
    intros Ha (ad & l & m & d & ->). induction a as [|s a IH].
    - cbn. unfold to_deliver. cbn. now rewrite N.eqb_refl.
    - pose proof (Ha s (or_introl eq_refl)) as Hs. specialize (IH (fun s H => Ha s (or_intror H))). destruct s as [ad' l' p' m' d'|l' p'|].
      + cbn in Hs. change (unfs ((PNew ad' l' p' m' d' :: a) ++ PNew ad l p m d :: b)) with ((p', Some (ad', m')) :: unfs (a ++ PNew ad l p m d :: b)).
        rewrite replace_new by (first [exact Hs|rewrite N.eqb_sym; exact Hs]). rewrite IH. reflexivity.
      + change (unfs ((PRec l' p' :: a) ++ PNew ad l p m d :: b)) with ((p', @None (N * M)) :: unfs (a ++ PNew ad l p m d :: b)).
        cbn [replace_first]. unfold to_deliver at 1. cbn [fst snd]. rewrite andb_false_r, IH. reflexivity.
      + exact IH.
  Qed.
  Lemma replace_release p y a x b : (forall s, In s a -> is_rec p s = false) -> (exists l, x = PRec l p) ->
    replace_first (to_release p) y (unfs (a ++ x :: b)) = unfs a ++ y ++ unfs b.
  Proof.
    intros Ha (l & ->). induction a as [|s a IH].
    - cbn. unfold to_release. cbn. now rewrite N.eqb_refl.
    - pose proof (Ha s (or_introl eq_refl)) as Hs. specialize (IH (fun s H => Ha s (or_intror H))). destruct s as [ad' l' p' m' d'|l' p'|].
      + change (unfs ((PNew ad' l' p' m' d' :: a) ++ PRec l p :: b)) with ((p', Some (ad', m')) :: unfs (a ++ PRec l p :: b)).
        cbn [replace_first]. unfold to_release at 1. cbn [fst snd]. rewrite andb_false_r, IH. reflexivity.
      + cbn in Hs. change (unfs ((PRec l' p' :: a) ++ PRec l p :: b)) with ((p', @None (N * M)) :: unfs (a ++ PRec l p :: b)).
        rewrite replace_rec by (first [exact Hs|rewrite N.eqb_sym; exact Hs]). rewrite IH. reflexivity.
      + exact IH.
  Qed.
  Definition Led (q : pendq M) (log : list oev) : Prop := lasting log -> unfinished q = ledger log.
  Lemma wstep_led q log evs q' : wstep q evs q' -> sourced log (pq q) -> Led q log -> Led q' (log ++ evs).
  Proof.
    intros S HS H LA. specialize (H (lasting_app _ _ LA)). rewrite ledger_app, <- H. change (@unfinished M) with (fun q : pendq M => unfs (pq q)) in *. cbn beta in *. destruct S; cbn [pq pq_set clean_complete].
    - cbn. now rewrite unfs_app, unfs_drop_done.
    - cbn. now rewrite unfs_drop_done.
    - reflexivity.
    - rewrite ledger_flush. assert (NE : e = []).
      { eapply scanned_lasting; [eassumption|]. intros ad lt p x d Hi. apply in_drop_done in Hi. apply HS in Hi. apply (LA ad p x). rewrite queued_app, in_app_iff. left. unfold queued. apply in_flat_map. exists (EQueued ad p x). split; [exact Hi|now left]. }
      match goal with X : _ = [] -> _ |- _ => rewrite (X NE) end. rewrite unfs_drop_done. erewrite unfs_scanned by eassumption. apply unfs_drop_done.
    - cbn [fold_left ledger_step]. destruct (ack_first k t p q) as [(a & x & b & x' & E & B & Hk & Eq)|Eq]; rewrite Eq; cbn [fst snd pq pq_set]; [|destruct k; reflexivity].
      rewrite E. destruct k; destruct Hk as (Hx & ->).
      + rewrite (replace_deliver p [] a x b B Hx), unfs_app. reflexivity.
      + rewrite (replace_deliver p _ a x b B Hx), unfs_app. reflexivity.
      + rewrite (replace_release p [] a x b B Hx), unfs_app. reflexivity.
    - cbn. apply unfs_reset.
  Qed.

  (** ** All runs *)
  Inductive wrun (rm max timeout : N) : list oev -> pendq M -> Prop :=
  | wr_new : wrun rm max timeout [EConn rm] (PendQ rm max timeout [])
  | wr_step log q evs q' : wrun rm max timeout log q -> wstep q evs q' -> wrun rm max timeout (log ++ evs) q'.
  Record All (q : pendq M) (log : list oev) : Prop := {
    a_ord : Ord q log;
    a_src : sourced log (pq q);
    a_srcs : Srcs log;
    a_tim : Tim q log;
    a_exa : Exa q log;
    a_led : Led q log
  }.
  Lemma wrun_all rm max timeout log q : wrun rm max timeout log q -> All q log.
  Proof.
    induction 1 as [|log q evs q' R IH S].
    - split.
      + split; [constructor|]. intros _. constructor.
      + intros ? ? ? ? ? [].
      + intros l1 t w p l2 E. destruct l1 as [|? [|]]; discriminate.
      + exists [], []. split; [reflexivity|constructor].
      + intros _ _. split; [constructor|]. split; [exact I|reflexivity].
      + intros _. reflexivity.
    - destruct IH. pose proof (proj1 a_ord0). split.
      + eapply wstep_ord; eauto.
      + eapply wstep_sourced; eauto.
      + eapply wstep_srcs; eauto.
      + eapply wstep_tim; eauto.
      + eapply wstep_exa; eauto.
      + eapply wstep_led; eauto.
  Qed.
  Lemma all_in_order q log : All q log -> steady log \/ forever -> in_order timely (first_sent log) (queued log).
  Proof. intros [(_ & H) _ _ _ _ _] ST. eapply mx_in_order. exact (H ST). Qed.
  Lemma all_exact q log : All q log -> lasting log -> honest log ->
    exists sent_ones waiting, queued log = sent_ones ++ waiting /\ Forall2 (transmits timely) (first_sent log) sent_ones.
  Proof. intros [_ _ _ _ H _] L HN. destruct (H L HN) as (K & _). destruct (mx_exact timely _ _ _ K) as (q1 & E & F). eauto. Qed.
  Lemma all_timely_lemma q log : All q log -> all_timely wpid wdup carries lifetime log.
  Proof. intros [_ _ _ (m & r & P & F) _]. exists m, (waitl (pq q) ++ r). auto. Qed.
End Gen.
