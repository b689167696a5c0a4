(** Consequences of the outgoing invariants used by [OutProps]. *)
From Coq Require Import List Bool Arith NArith Lia.
From Coq Require Import ZifyBool ZifyNat ZifyN.
From Verif Require Import Base BaseLemmas MsgModel PendingModel PendingProofs AliasModel OutModel OutSpec OutProofs OutInv.
Import ListNotations.
Local Open Scope N_scope.
Local Open Scope list_scope.

Lemma Forall2_length {A B} (R : A -> B -> Prop) a b : Forall2 R a b -> length a = length b.
Proof. induction 1; cbn; congruence. Qed.

Section Gen.
  Context {M W : Type}.
  Variable wpid : W -> option pid.
  Variable wdup : W -> bool.
  Variable carries : N -> N -> M -> W -> Prop.
  Variable lifetime : M -> option N.
  Variable mok : M -> Prop.
  Notation Inv := (Inv wpid wdup carries lifetime mok).
  Notation flushed := (flushed wpid wdup carries lifetime).
  Notation lstep := (lstep wpid wdup carries lifetime).
  Notation life := (life wpid wdup carries lifetime).
  Notation mrun := (mrun wpid wdup carries lifetime mok).
  Notation st := (pstatus M).

  Lemma lstep_det timeout p s e s1 s2 : lstep timeout p s e s1 -> lstep timeout p s e s2 -> s1 = s2.
  Proof.
    intros H1 H2.
    destruct H1; inversion H2; subst; try reflexivity; try congruence; cbn in *; try congruence;
      match goal with H : forall rm, EConn ?r <> EConn rm |- _ => now destruct (H r) | _ => idtac end.
  Qed.

  Lemma life_nil_inv timeout p s : life timeout p [] s -> s = Idle.
  Proof. intros H. inversion H; [reflexivity|]. now destruct log. Qed.
  Lemma life_snoc_inv timeout p log e s : life timeout p (log ++ [e]) s ->
    exists s0, life timeout p log s0 /\ lstep timeout p s0 e s.
  Proof.
    intros H. inversion H as [E|log0 s0 e0 s1 H1 H2 E]; [now destruct log|].
    apply app_inj_tail in E as [<- <-]. eauto.
  Qed.
  Lemma life_det timeout p log : forall s1 s2, life timeout p log s1 -> life timeout p log s2 -> s1 = s2.
  Proof.
    induction log as [|e log IH] using rev_ind; intros s1 s2 H1 H2.
    - apply life_nil_inv in H1, H2. congruence.
    - apply life_snoc_inv in H1 as (a & A1 & A2), H2 as (b & B1 & B2). rewrite (IH a b A1 B1) in A2.
      eapply lstep_det; eauto.
  Qed.
  Lemma life_split timeout p l1 e l2 s : life timeout p (l1 ++ e :: l2) s ->
    exists s0 s1, life timeout p l1 s0 /\ lstep timeout p s0 e s1.
  Proof.
    revert s. induction l2 as [|e2 l2 IH] using rev_ind; intros s H.
    - apply life_snoc_inv in H as (s0 & H1 & H2). eauto.
    - rewrite app_comm_cons, app_assoc in H. apply life_snoc_inv in H as (s0 & H1 & _). eauto.
  Qed.
  (** A waiting message was queued. *)
  Lemma life_waiting timeout p log t0 m : life timeout p log (Waiting t0 m) -> In (EQueued t0 p m) log.
  Proof.
    induction log as [|e log IH] using rev_ind; intros H; [apply life_nil_inv in H; discriminate|].
    apply life_snoc_inv in H as (s0 & H1 & H2). rewrite in_app_iff.
    inversion H2; subst; auto. right. now left.
  Qed.

  Lemma abs_in p (l : list st) (s : st) : NoDup (heldl l) -> In s l -> status_pid s = Some p -> abs p l = abs1 s.
  Proof.
    induction l as [|x l IH]; intros Hn Hs Ep; [destruct Hs|]. destruct Hs as [->|Hs].
    - now rewrite (abs_cons_same p s).
    - rewrite heldl_cons in Hn. destruct (status_pid x) as [q|] eqn:Ex; cbn in Hn.
      + inversion Hn; subst. rewrite abs_cons_other; [auto|]. intros E. rewrite Ex in E. injection E as ->.
        apply H1. apply in_heldl. eauto.
      + rewrite abs_cons_other by congruence. auto.
  Qed.

  Lemma ack_accept q log k now p : Inv q log -> In p (outstanding wpid log) ->
    match k with
    | AckPuback | AckPubrec => exists t0 m l, abs p (pq q) = InFlight t0 m l
    | AckPubcomp => exists l, abs p (pq q) = Released l
    end -> snd (ack_queue k now p q) = true.
  Proof.
    intros HI Hp Hk. destruct (i_out _ _ _ _ _ _ _ HI p Hp) as (s & Hs & Ep & L).
    assert (A := abs_in p (pq q) s (i_nd _ _ _ _ _ _ _ HI) Hs Ep).
    apply In_nth_error in Hs as [i Hi].
    destruct (ack_queue_spec k now p q) as [(a & x & b & x' & _ & _ & _ & _ & Eq)|[Hn Eq]]; rewrite Eq; [reflexivity|].
    exfalso. assert (Hw : (i < current_inflight q)%nat).
    { unfold current_inflight. assert (i < length (pq q))%nat by (apply nth_error_Some; congruence).
      destruct (N.le_gt_cases (pq_inflight q) (N.of_nat i)) as [H'|H']; [|lia].
      contradiction (L (i_win _ _ _ _ _ _ _ HI i s Hi H')). }
    specialize (Hn i s Hw Hi). rewrite A in Hk.
    destruct k.
    - destruct Hk as (t0 & m & l & E). destruct s as [ad l0 p0 x d|l0 p0|]; cbn in *; try discriminate.
      injection Ep as ->. rewrite N.eqb_refl in Hn. discriminate.
    - destruct Hk as (t0 & m & l & E). destruct s as [ad l0 p0 x d|l0 p0|]; cbn in *; try discriminate.
      injection Ep as ->. rewrite N.eqb_refl in Hn. discriminate.
    - destruct Hk as (l & E). destruct s as [ad l0 p0 x []|l0 p0|]; cbn in *; try discriminate.
      injection Ep as ->. rewrite N.eqb_refl in Hn. discriminate.
  Qed.

  (** After a resume everything in the window is due. *)
  Lemma flushed_all now timeout n l l' o e : flushed now timeout n l l' o e -> timeout <= now ->
    Forall (fun s => last_of s = 0) l -> NoDup (heldl l) ->
    map (sent_pid wpid) o = map Some (filter (fun p => negb (existsb (N.eqb p) e)) (heldl (firstn n l))) /\
    incl e (heldl (firstn n l)).
  Proof.
    intros F Ht. induction F as [l|n|n s r r' o e Hd F IH|n ad p x d r r' o e Hd He F IH|
      n ad l p x d w r r' o e Hd He H1 H2 H3 F IH|n l p r r' o e Hd F IH]; intros HL HN.
    - split; [reflexivity|intros ? []].
    - rewrite firstn_nil. split; [reflexivity|intros ? []].
    - inversion HL as [|? ? H0 HL']; subst. cbn [firstn]. rewrite heldl_cons in *.
      assert (status_pid s = None) as E.
      { destruct s as [ad l p x d|l p|]; cbn in *; [lia|lia|reflexivity]. }
      rewrite E in *. exact (IH HL' HN).
    - inversion HL as [|? ? H0 HL']; subst. cbn [firstn]. rewrite heldl_cons in *. cbn [status_pid app] in *.
      inversion HN as [|? ? HN1 HN2]; subst. destruct (IH HL' HN2) as [I1 I2]. split.
      + cbn [filter existsb]. rewrite N.eqb_refl. cbn. rewrite I1. f_equal. apply filter_ext_in. intros q Hq.
        destruct (N.eqb_spec q p) as [->|]; [|reflexivity]. exfalso. apply HN1.
        apply in_heldl in Hq as (s & Hs & E). apply in_heldl. exists s. split; [|exact E].
        rewrite <- (firstn_skipn n r). apply in_app_iff. now left.
      + intros q [->|Hq]; [now left|right; auto].
    - inversion HL as [|? ? H0 HL']; subst. cbn [firstn]. rewrite heldl_cons in *. cbn [status_pid app] in *.
      inversion HN as [|? ? HN1 HN2]; subst. destruct (IH HL' HN2) as [I1 I2]. split; [|intros q Hq; right; auto].
      cbn [map sent_pid filter]. rewrite H1. assert (existsb (N.eqb p) e = false) as ->.
      { change (memb p e = false). apply memb_false. intros Hp. apply HN1. specialize (I2 p Hp).
        apply in_heldl in I2 as (s & Hs & E). apply in_heldl. exists s. split; [|exact E].
        rewrite <- (firstn_skipn n r). apply in_app_iff. now left. }
      cbn. now rewrite I1.
    - inversion HL as [|? ? H0 HL']; subst. cbn [firstn]. rewrite heldl_cons in *. cbn [status_pid app] in *.
      inversion HN as [|? ? HN1 HN2]; subst. destruct (IH HL' HN2) as [I1 I2]. split; [|intros q Hq; right; auto].
      cbn [map sent_pid filter]. assert (existsb (N.eqb p) e = false) as ->.
      { change (memb p e = false). apply memb_false. intros Hp. apply HN1. specialize (I2 p Hp).
        apply in_heldl in I2 as (s & Hs & E). apply in_heldl. exists s. split; [|exact E].
        rewrite <- (firstn_skipn n r). apply in_app_iff. now left. }
      cbn. now rewrite I1.
  Qed.

  Lemma heldl_firstn n (l : list st) : heldl (firstn n l) = firstn (length (heldl (firstn n l))) (heldl l).
  Proof.
    rewrite <- (firstn_skipn n l) at 3. rewrite heldl_app. rewrite firstn_app, Nat.sub_diag, firstn_all.
    cbn. now rewrite app_nil_r.
  Qed.

  (** The window right after a resume and the clean-up at the start of a flush. *)
  Lemma resume_flush rm timeout now q log l' o e :
    let q1 := set_max_inflight rm (reset_last_sent q) in
    timeout <= now -> pq_timeout q = timeout -> Inv q log ->
    flushed now (pq_timeout q1) (current_inflight (clean_complete q1)) (drop_done (pq q1)) l' o e ->
    exists n, map (sent_pid wpid) o = map Some (filter (fun p => negb (existsb (N.eqb p) e)) (firstn n (held q))) /\
      incl e (firstn n (held q)) /\ (0 < rm -> held q <> [] -> (0 < n)%nat) /\ N.of_nat n <= rm /\
      (N.of_nat (length (pq q)) <= rm -> n = length (held q)).
  Proof.
    intros q1 Ht <- HI F. assert (HI1 := inv_resume _ _ _ _ _ q log rm HI). fold q1 in HI1.
    assert (Hh : held q = heldl (drop_done (pq q1))).
    { rewrite heldl_drop_done. unfold q1. cbn. rewrite held_heldl. generalize (pq q). clear.
      induction l as [|[] l IH]; cbn; [reflexivity|f_equal; exact IH|f_equal; exact IH|exact IH]. }
    assert (HL : Forall (fun s => last_of s = 0) (drop_done (pq q1))).
    { apply Forall_drop_done. unfold q1. cbn. rewrite Forall_forall. intros s Hs.
      apply in_map_iff in Hs as (s0 & <- & _). destruct s0; reflexivity. }
    assert (HN : NoDup (heldl (drop_done (pq q1)))) by (rewrite heldl_drop_done; apply (i_nd _ _ _ _ _ _ _ HI1)).
    set (n := current_inflight (clean_complete q1)) in *.
    destruct (flushed_all _ _ _ _ _ _ _ F Ht HL HN) as [H1 H2]. rewrite heldl_firstn in H1, H2.
    exists (length (heldl (firstn n (drop_done (pq q1))))). rewrite Hh. split; [exact H1|]. split; [exact H2|].
    assert (Hn : n = N.to_nat (N.min rm (N.of_nat (length (drop_done (pq q1)))))) by reflexivity.
    assert (K : forall l : list st, (length (heldl l) <= length l)%nat)
      by (induction l as [|s0 l IH]; [reflexivity|]; rewrite heldl_cons, app_length; destruct s0; cbn [status_pid length]; lia).
    split; [|split].
    - intros Hr Hne. destruct (drop_done (pq q1)) as [|s l] eqn:Ed; [contradiction Hne; reflexivity|].
      cbn [length] in Hn. destruct n as [|n']; [lia|]. cbn [firstn]. rewrite heldl_cons, app_length.
      assert (Hs : status_pid s <> None).
      { clear - Ed. revert Ed. generalize (pq q1). induction l0 as [|[] l0 IH]; cbn; intros E; try discriminate;
          [injection E as <- _; discriminate|injection E as <- _; discriminate|auto]. }
      destruct (status_pid s); [cbn; lia|congruence].
    - specialize (K (firstn n (drop_done (pq q1)))). rewrite firstn_length in K. lia.
    - intros Hl. assert (length (drop_done (pq q1)) <= length (pq q))%nat.
      { pose proof (drop_done_length (pq q1)) as D. unfold q1 in *. cbn in *. now rewrite map_length in D. }
      rewrite firstn_all2 by lia. reflexivity.
  Qed.

  (** The queue holds the messages queued last. *)
  Definition aligned (l : list st) (qs : list (N * pid * M)) : Prop :=
    exists pre ks, qs = pre ++ ks /\
      Forall2 (fun s k => forall p, status_pid s = Some p -> p = snd (fst k)) l ks.
  Lemma aligned_drop_done l qs : aligned l qs -> aligned (drop_done l) qs.
  Proof.
    intros (pre & ks & -> & F). revert pre. induction F as [|s k l ks H F IH]; intros pre; [exists pre, []; split; [reflexivity|constructor]|].
    destruct s; cbn; try (exists pre, (k :: ks); split; [reflexivity|constructor; auto]; fail).
    destruct (IH (pre ++ [k])) as (pre' & ks' & E & F'). exists pre', ks'. split; [|exact F'].
    rewrite <- E, <- app_assoc. reflexivity.
  Qed.
  Lemma aligned_settles l l' qs : settles l l' -> aligned l qs -> aligned l' qs.
  Proof.
    intros [L S] (pre & ks & -> & F). exists pre, ks. split; [reflexivity|].
    revert l' L S. induction F as [|s k l ks H F IH]; intros [|s' l'] L S; cbn in L; try discriminate; constructor.
    - intros p E. destruct (S 0%nat s' p eq_refl E) as (s0 & [= <-] & E0). auto.
    - apply IH; [lia|]. intros i x p E1 E2. destruct (S (Datatypes.S i) x p E1 E2) as (s0 & E3 & E4). eauto.
  Qed.
  Lemma mrun_aligned rm max timeout log n q : mrun rm max timeout log n q -> aligned (pq q) (queued log).
  Proof.
    induction 1 as [|log n q evs n' q' R IH S]; [exists [], []; split; [reflexivity|constructor]|].
    rewrite queued_app. destruct S; cbn [queued flat_map app]; rewrite ?app_nil_r; cbn [pq pq_set].
    - destruct (aligned_drop_done _ _ IH) as (pre & ks & -> & F). exists pre, (ks ++ [(t, n, m)]).
      split; [now rewrite <- app_assoc|]. apply Forall2_app; [exact F|]. constructor; [|constructor].
      cbn. intros p [= ->]. reflexivity.
    - now apply aligned_drop_done.
    - exact IH.
    - rewrite queued_flush, app_nil_r. apply aligned_drop_done.
      eapply aligned_settles; [eassumption|]. now apply aligned_drop_done.
    - eapply aligned_settles; [apply settles_ack|exact IH].
    - cbn. eapply aligned_settles; [apply settles_resume|exact IH].
  Qed.

  (** Position of a queued message in the log. *)
  Lemma queued_split (log : list (oev M W)) pre t p m ks : queued log = pre ++ (t, p, m) :: ks ->
    exists a b, log = a ++ EQueued t p m :: b /\ queued b = ks.
  Proof.
    revert pre. induction log as [|e log IH]; intros pre E; [now destruct pre|].
    destruct e as [| t' p' m' | | | |]; try (destruct (IH pre E) as (a & b & -> & E2); eexists (_ :: a), b; split; [reflexivity|exact E2]).
    cbn in E. destruct pre as [|x pre]; cbn in E.
    - injection E as -> -> -> E. exists [], log. split; [reflexivity|exact E].
    - injection E as _ E. destruct (IH pre E) as (a & b & -> & E2). exists (EQueued t' p' m' :: a), b. split; [reflexivity|exact E2].
  Qed.

  Lemma full_span rm max timeout log n q : mrun rm max timeout log n q -> no_reuse log ->
    0 < max -> max <= N.of_nat (length (drop_done (pq q))) ->
    exists a t0 p0 m0 b, log = a ++ EQueued t0 p0 m0 :: b /\ active p0 log = true /\
      max <= 1 + N.of_nat (length (queued b)).
  Proof.
    intros R NR Hm Hl. assert (HI := mrun_inv _ _ _ _ _ _ _ _ _ _ _ R NR).
    destruct (aligned_drop_done _ _ (mrun_aligned _ _ _ _ _ _ R)) as (pre & ks & E & F).
    destruct (drop_done (pq q)) as [|s l] eqn:Ed; [cbn in Hl; lia|].
    inversion F as [|? k ? ks' Hk F']; subst. destruct k as [[t0 p0] m0].
    assert (Hs : status_pid s <> None).
    { clear - Ed. revert Ed. generalize (pq q). induction l0 as [|[] l0 IH]; cbn; intros E; try discriminate;
        [injection E as <- _; discriminate|injection E as <- _; discriminate|auto]. }
    destruct (status_pid s) as [p|] eqn:Ep; [|congruence]. specialize (Hk p eq_refl). cbn in Hk. subst p.
    destruct (queued_split log pre t0 p0 m0 ks' E) as (a & b & El & Eb).
    exists a, t0, p0, m0, b. split; [exact El|]. split.
    - rewrite (i_act _ _ _ _ _ _ _ HI). apply memb_spec. rewrite <- heldl_drop_done, Ed. apply in_heldl.
      exists s. split; [now left|exact Ep].
    - rewrite Eb. apply Forall2_length in F'. cbn in Hl. lia.
  Qed.

  Lemma mrun_drop rm max timeout log n q : mrun rm max timeout log n q -> no_reuse log -> 0 < max ->
    forall l1 t p m l2, log = l1 ++ EFull t p m :: l2 ->
    exists a t0 p0 m0 b, l1 = a ++ EQueued t0 p0 m0 :: b /\ active p0 l1 = true /\
      max <= 1 + N.of_nat (length (queued b)).
  Proof.
    intros R NR Hm. induction R as [|log n q evs n' q' R IH S]; intros l1 t p m l2 E.
    { destruct l1 as [|? [|]]; discriminate. }
    specialize (IH (no_reuse_app _ _ NR)).
    (* where the event falls *)
    assert (C : (exists l2', log = l1 ++ EFull t p m :: l2') \/ (exists x, l1 = log ++ x /\ evs = x ++ EFull t p m :: l2)).
    { clear - E. revert l1 E. induction log as [|e log IH]; intros l1 E; [right; exists l1; auto|].
      destruct l1 as [|e1 l1]; cbn in E; injection E as -> E.
      - left. exists log. reflexivity.
      - destruct (IH l1 E) as [(l2' & ->)|(x & -> & Ex)]; [left; exists l2'; reflexivity|right; exists x; auto]. }
    destruct C as [(l2' & ->)|(x & -> & Ex)]; [eapply IH; reflexivity|].
    assert (Hsing : forall y, [y] = x ++ EFull t p m :: l2 -> x = [] /\ y = EFull t p m).
    { intros y Ey. destruct x as [|? [|]]; cbn in Ey; try discriminate. injection Ey as ->. auto. }
    destruct S; try (apply Hsing in Ex as [-> Ey]; try discriminate).
    - rewrite app_nil_r. destruct (mrun_len _ _ _ _ _ _ _ _ _ _ _ R) as (Em & _ & _).
      eapply full_span; eauto using no_reuse_app. lia.
    - exfalso. assert (Hin : In (EFull t p m) (flush_events t0 o (given_up q (pq_set q (drop_done l')))))
        by (rewrite Ex; apply in_app_iff; right; now left).
      unfold flush_events in Hin. apply in_app_iff in Hin as [Hin|Hin]; apply in_map_iff in Hin as (? & ? & _); discriminate.
  Qed.
End Gen.
