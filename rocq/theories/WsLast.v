From Coq Require Import List Bool Arith Lia.
From Verif Require Import WsModel WsSpec WsProofs.
Import ListNotations.

Section Last.
  Context {byte : Type}.
  Lemma good_new : @good byte ws_new.
  Proof. apply Nat.le_refl. Qed.
  Lemma all_bytes (ops : list (wsop byte)) ms w rest t : run ops ms ws_new = (w, rest, t) ->
    exists used, ms = used ++ rest /\ bytes_read t ++ unread w = payload used.
  Proof. intros E. destruct (run_bytes _ _ _ _ _ _ good_new E) as (u & A & _ & B). exists u. split; [exact A|]. symmetry. exact B. Qed.
  Lemma next_read (ops : list (wsop byte)) ms w rest t n avail rs w' rest' o r :
    run ops ms ws_new = (w, rest, t) -> 0 < n -> poll_read n avail rs rest w = (w', rest', o, r) ->
    r <> RBytes [] /\
    (r = REof -> exists used, ms = used ++ rest' /\ bytes_read t = payload used /\ (rest' = [] \/ exists u, used = u ++ [MClose])).
  Proof.
    intros E N P. destruct (run_bytes _ _ _ _ _ _ good_new E) as (u & A & G & B). destruct (poll_read_spec _ _ _ _ _ _ _ _ _ G P) as (u2 & C1 & C2 & C3 & C4 & C5).
    split; [now apply C5|]. intros ->. destruct (C4 eq_refl) as (D1 & D2). exists (u ++ u2). split; [rewrite A, C1; now rewrite app_assoc|]. split.
    - rewrite payload_app. cbn in C3. rewrite D1 in C3. apply app_eq_nil in C3. destruct C3 as (F1 & F2). rewrite F2, app_nil_r. cbn in B. rewrite B, F1. symmetry. apply app_nil_r.
    - destruct D2 as [D2|(v & ->)]; [now left|]. right. exists (u ++ v). now rewrite app_assoc.
  Qed.
  (** A read that finds a payload in the messages which have arrived returns some of it. *)
  Lemma read_loop_gets n : forall avail rs (ms : list (wsmsg byte)) w, unread w = [] ->
    (forall m, In m (firstn avail ms) -> exists b, m = MBin b) -> payload (firstn avail ms) <> [] ->
    exists w' ms' b, read_loop n avail rs ms w = (w', ms', [], RBytes b).
  Proof.
    induction avail as [|avail IH]; intros rs ms w U A P; [now destruct P|]. destruct ms as [|m ms]; [now destruct P|].
    destruct (A m (or_introl eq_refl)) as (b & ->). destruct b as [|b0 b]; cbn [read_loop].
    - apply IH; [exact U|intros m' H; apply A; now right|exact P].
    - destruct (copy n (with_data (b0 :: b) 0 w)) as (w2, out) eqn:E. eauto.
  Qed.
  Lemma read_gets (ops : list (wsop byte)) ms w rest t n avail rs :
    run ops ms ws_new = (w, rest, t) -> 0 < n -> w_pong w = None ->
    (forall m, In m (firstn avail rest) -> exists b, m = MBin b) -> unread w ++ payload (firstn avail rest) <> [] ->
    exists w' rest' b, poll_read n avail rs rest w = (w', rest', [], RBytes b) /\ b <> [].
  Proof.
    intros E N PN A P. destruct (run_bytes _ _ _ _ _ _ good_new E) as (u & _ & G & _).
    assert (X : exists w' rest' b, poll_read n avail rs rest w = (w', rest', [], RBytes b)).
    { unfold poll_read. replace (if w_closed w then (w, [], false) else send_pong (hd SNotReady rs) w) with (w, @nil (wsout byte), false)
        by (unfold send_pong; rewrite PN; now destruct (w_closed w)).
      destruct (Nat.ltb_spec (w_idx w) (length (w_data w))) as [L|L].
      - destruct (copy n w) as (w2, out). eauto.
      - assert (U : unread w = []) by (unfold unread; now apply skipn_all2). rewrite U in P.
        destruct (read_loop_gets n avail (tl rs) rest w U A P) as (w' & ms' & b & X). rewrite X. eauto. }
    destruct X as (w' & rest' & b & X). exists w', rest', b. split; [exact X|]. intros ->.
    destruct (next_read _ _ _ _ _ _ _ _ _ _ _ _ E N X) as (Y & _). now apply Y.
  Qed.
  Lemma writes (ops : list (wsop byte)) ms w rest t : run ops ms ws_new = (w, rest, t) -> ~ failed t -> concat (bins_sent t) = concat (accepted t) /\ bins_sent t = accepted t.
  Proof. intros E F. pose proof (run_writes _ _ _ _ _ _ E F) as X. now rewrite X. Qed.
  Lemma pongs_answer (ops : list (wsop byte)) ms w rest t : run ops ms ws_new = (w, rest, t) ->
    exists used, ms = used ++ rest /\ subseq (pongs t) (pings used).
  Proof.
    intros E. destruct (run_pongs _ _ _ _ _ _ E) as (u & A & B). exists u. split; [exact A|].
    eapply subseq_trans; [|exact B]. rewrite <- (app_nil_r (pongs t)) at 1. apply subseq_app; [apply subseq_refl|apply subseq_nil].
  Qed.
End Last.
