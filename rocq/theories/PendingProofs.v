(** Lemmas about the pending queue and its loop. *)
From Coq Require Import List Bool Arith NArith Lia.
From Coq Require Import ZifyBool ZifyNat ZifyN.
From Verif Require Import Base BaseLemmas PendingModel.
Import ListNotations.
Local Open Scope N_scope.

Section Q.
  Context {P : Type}.
  Implicit Types (l : list (pstatus P)) (s : pstatus P) (q : pendq P).

  Lemma current_inflight_le q : (current_inflight q <= length (pq q))%nat.
  Proof. unfold current_inflight. lia. Qed.
  Lemma current_inflight_inflight q : (N.of_nat (current_inflight q) <= pq_inflight q).
  Proof. unfold current_inflight. lia. Qed.

  Lemma set_nth_length i s l : length (set_nth i s l) = length l.
  Proof. revert i. induction l as [|x l IH]; intros [|i]; cbn; auto. Qed.

  Lemma set_nth_app a x b s : set_nth (length a) s (a ++ x :: b) = (a ++ s :: b)%list.
  Proof. induction a as [|y a IH]; cbn; [reflexivity|]. now rewrite IH. Qed.

  Lemma nth_error_mid {A} (a : list A) x b : nth_error (a ++ x :: b) (length a) = Some x.
  Proof. induction a; cbn; auto. Qed.

  Section Pass.
    Context {A W : Type}.
    Variable body : pstatus P -> A -> pstatus P * A * list W * list pid.
    Variables now timeout : N.

    (** One left-to-right pass over the first [n] entries. *)
    Fixpoint pass (n : nat) (l : list (pstatus P)) (a : A) : list (pstatus P) * A * list W * list pid :=
      match n, l with
      | S n', s :: r =>
          if due now timeout s then
            let '(s', a', o, e) := body s a in
            let '(r', a'', o', e') := pass n' r a' in (s' :: r', a'', o ++ o', e ++ e')%list
          else let '(r', a'', o', e') := pass n' r a in (s :: r', a'', o', e')
      | _, _ => (l, a, [], [])
      end.

    Lemma get_ready_step start q :
      get_ready_packet now start q =
      if (start <? current_inflight q)%nat then
        match nth_error (pq q) start with
        | Some s => if due now (pq_timeout q) s then Some start else get_ready_packet now (S start) q
        | None => get_ready_packet now (S start) q
        end
      else None.
    Proof.
      unfold get_ready_packet. destruct (Nat.ltb_spec start (current_inflight q)) as [H|H].
      - replace (current_inflight q - start)%nat with (S (current_inflight q - S start)) by lia.
        cbn [seq find]. destruct (nth_error (pq q) start); [|reflexivity].
        destruct (due now (pq_timeout q) p); reflexivity.
      - replace (current_inflight q - start)%nat with 0%nat by lia. reflexivity.
    Qed.

    Lemma pend_loop_gen : forall n fuel pre l q a outs exps,
      pq_timeout q = timeout -> pq q = (pre ++ l)%list -> current_inflight q = (length pre + n)%nat ->
      (n < fuel)%nat ->
      pend_loop body fuel now (length pre) q a outs exps =
      let '(l', a', o, e) := pass n l a in
      Some (pq_set q (pre ++ l')%list, a', (outs ++ o)%list, (exps ++ e)%list).
    Proof.
      induction n as [|n IH]; intros fuel pre l q a outs exps Ht Hq Hc Hf.
      - destruct fuel as [|fuel]; [lia|]. cbn [pend_loop pass]. rewrite get_ready_step.
        destruct (Nat.ltb_spec (length pre) (current_inflight q)); [lia|].
        rewrite <- Hq, !app_nil_r. destruct l; (destruct q; reflexivity).
      - destruct fuel as [|fuel]; [lia|]. cbn [pend_loop].
        assert (Hl : (length (pq q) >= S (length pre + n))%nat)
          by (pose proof (current_inflight_le q); lia).
        rewrite Hq, app_length in Hl. destruct l as [|s r]; [cbn in Hl; lia|].
        (* the scan either stops here or moves on; compare with the scan from the next index *)
        assert (Hs : nth_error (pq q) (length pre) = Some s) by (rewrite Hq; apply nth_error_mid).
        assert (Hr : get_ready_packet now (length pre) q =
                     if due now timeout s then Some (length pre) else get_ready_packet now (S (length pre)) q).
        { rewrite get_ready_step, Hs, Ht. destruct (Nat.ltb_spec (length pre) (current_inflight q)); [reflexivity|lia]. }
        rewrite Hr. cbn [pass]. destruct (due now timeout s) eqn:Ed.
        + rewrite Hs. destruct (body s a) as [[[s' a'] o] e] eqn:Eb.
          specialize (IH fuel (pre ++ [s'])%list r (pq_set q (set_nth (length pre) s' (pq q))) a'
                        (outs ++ o)%list (exps ++ e)%list).
          rewrite app_length in IH. cbn [length] in IH. rewrite Nat.add_1_r in IH. rewrite IH.
          * destruct (pass n r a') as [[[r' a''] o'] e']. unfold pq_set. cbn.
            rewrite <- !app_assoc. reflexivity.
          * exact Ht.
          * cbn. rewrite Hq, set_nth_app, <- app_assoc. reflexivity.
          * unfold current_inflight in *. cbn. rewrite set_nth_length. lia.
          * lia.
        + specialize (IH (S fuel) (pre ++ [s])%list r q a outs exps).
          rewrite app_length in IH. cbn [length] in IH. rewrite Nat.add_1_r in IH.
          cbn [pend_loop] in IH. rewrite IH.
          * destruct (pass n r a) as [[[r' a''] o'] e']. rewrite <- app_assoc. reflexivity.
          * exact Ht.
          * rewrite Hq, <- app_assoc. reflexivity.
          * lia.
          * lia.
    Qed.

    Lemma pend_loop_pass q a : pq_timeout q = timeout ->
      pend_loop body (S (length (pq q))) now 0 q a [] [] =
      let '(l', a', o, e) := pass (current_inflight q) (pq q) a in Some (pq_set q l', a', o, e).
    Proof.
      intros Ht. apply (pend_loop_gen (current_inflight q) (S (length (pq q))) [] (pq q) q a [] []);
        [exact Ht|reflexivity|reflexivity|].
      pose proof (current_inflight_le q). lia.
    Qed.

    Lemma pass_length n l a : length (fst (fst (fst (pass n l a)))) = length l.
    Proof.
      revert l a. induction n as [|n IH]; intros [|s r] a; cbn; auto.
      destruct (due now timeout s).
      - destruct (body s a) as [[[s' a'] o] e]. specialize (IH r a').
        destruct (pass n r a') as [[[r' a''] o'] e']. cbn in *. auto.
      - specialize (IH r a). destruct (pass n r a) as [[[r' a''] o'] e']. cbn in *. auto.
    Qed.
  End Pass.

  Lemma update_first_length n f g l : length (fst (update_first n f g l)) = length l.
  Proof.
    revert l. induction n as [|n IH]; intros [|x l]; cbn; auto.
    destruct (f x); [reflexivity|]. specialize (IH l). destruct (update_first n f g l). cbn in *. auto.
  Qed.

  (** [update_first] either finds the first hit or changes nothing. *)
  Lemma update_first_spec n f g l :
    (exists a x b, l = (a ++ x :: b)%list /\ (length a < n)%nat /\ (forall y, In y a -> f y = false) /\
       f x = true /\ update_first n f g l = ((a ++ g x :: b)%list, true)) \/
    ((forall i y, (i < n)%nat -> nth_error l i = Some y -> f y = false) /\ update_first n f g l = (l, false)).
  Proof.
    revert l. induction n as [|n IH]; intros [|x l].
    - right. split; [intros; lia|reflexivity].
    - right. split; [intros; lia|reflexivity].
    - right. split; [intros i y _ H; destruct i; discriminate|reflexivity].
    - cbn [update_first]. destruct (f x) eqn:Ef.
      + left. exists [], x, l. repeat split; auto; [cbn; lia|intros y []].
      + destruct (IH l) as [(a & y & b & -> & Hl & Ha & Hy & E)|[Hn E]]; rewrite E.
        * left. exists (x :: a), y, b. repeat split; auto; [cbn; lia|].
          intros z [<-|Hz]; auto.
        * right. split; [|reflexivity]. intros [|i] y Hi Hy; cbn in Hy; [congruence|].
          apply (Hn i); [lia|exact Hy].
  Qed.

  Lemma drop_done_spec l : exists k, l = (repeat PDone k ++ drop_done l)%list /\
    (forall s r, drop_done l = s :: r -> s <> PDone).
  Proof.
    induction l as [|s l (k & E & H)]; [exists 0%nat; split; [reflexivity|discriminate]|].
    destruct s; try (exists 0%nat; split; [reflexivity|]; cbn; intros ? ? [= <- <-]; discriminate).
    exists (S k). cbn. split; [now f_equal|exact H].
  Qed.
End Q.
