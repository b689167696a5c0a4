(** The event loop of v5 and v3 connections: final lemmas. *)
From Coq Require Import List Bool String Ascii NArith Lia.
From Coq Require Import ZifyBool ZifyNat ZifyN.
From Verif Require Import Base BaseLemmas TopicModel MsgModel PendingModel OutModel RouteModel RetainModel GlobModel Sess5Model Sess3Model
  ConnModel OnlineModel OnlineSpec OnlineProofs OnlineWake HookModel HookFacts.
Import ListNotations.
Local Open Scope N_scope.

Section Gen.
  Context {P Msg In Err Ctl Act Req Ans S G : Type}.
  Variable i : iface P Msg In Err Ctl Act Req Ans S G.

  Lemma wfq_new (s : S) : wfq (l_wp (@lst_new P Msg Req S s)).
  Proof. constructor. Qed.

  Lemma gen_stream es s l t r : life i es (lst_new s) = (l, t, r) ->
    (exists rest, stream i (queued t) = (written t ++ rest)%list) /\
    (r = RPending -> stream i (queued t) = (written t ++ unsent_bytes i (l_wp l))%list) /\
    (r = RReady false -> (forall e g, List.In (e, g) es -> e_ctl e = []) -> stream i (queued t) = written t).
  Proof.
    intros E. destruct (life_stream i es (lst_new s) l t r (wfq_new s) E) as (A & B & C). cbn in A, B, C.
    split; [exact A|]. split; [intros H; apply B, H|exact C].
  Qed.

  Hypothesis WB : well_behaved i.
  Definition no_takeover (es : list (env Msg In Err Ctl Ans * G)) : Prop := forall e g, List.In (e, g) es -> e_ready e <> Some COk.

  Lemma J_new s : tidy i s -> J i (lst_new s).
  Proof. intros H. split; [exact H|intros x []]. Qed.

  Lemma gen_deliver es s l t r : tidy i s -> no_takeover es -> life i es (lst_new s) = (l, t, r) ->
    r <> RBug /\ forall d, ~ List.In (Gone d) t ->
      (queue_of (i_bc i s) d ++ asked_for d t = delivered_to d t ++ waiting_for i l d)%list.
  Proof.
    intros T R E. destruct (life_deliver i WB es (lst_new s) l t r (wfq_new s) (J_new s T) R E) as (_ & A & B).
    split; [exact A|]. intros d N. rewrite <- (B d N). reflexivity.
  Qed.

  Lemma life_wfq es : forall l l' t, wfq (l_wp l) -> life i es l = (l', t, RPending) -> wfq (l_wp l').
  Proof. intros l l' t W E. destruct (life_stream i es l l' t RPending W E) as (_ & B & _). now apply B. Qed.

  Lemma finish_d alive late l d : NoDup (keys (i_bc i (l_s l))) -> alive d = true -> late d = true \/ queue_of (i_bc i (l_s l)) d <> [] \/ hold_of (l_sinks l) d = [] ->
    incl (keys (l_sinks l)) (keys (i_bc i (l_s l))) ->
    delivered_to d (finish i alive late l) = waiting_for i l d /\ ~ List.In (Gone d) (finish i alive late l).
  Proof.
    intros ND AL LT IN. unfold finish, waiting_for.
    assert (K : forall b, NoDup (keys b) ->
      delivered_to d (flat_map (finish1 alive late (l_sinks l)) b : list (ev P Msg Req)) = match aget d b with Some ms => match ms with [] => if late d then hold_of (l_sinks l) d else [] | _ => hold_of (l_sinks l) d ++ ms end | None => [] end%list /\
      ~ List.In (Gone d) (flat_map (finish1 alive late (l_sinks l)) b : list (ev P Msg Req))).
    { induction b as [|(c, ms) b IH]; intros NDb; cbn [flat_map]; [split; [reflexivity|intros []]|].
      inversion_clear NDb as [|? ? N1 N2]. destruct (IH N2) as (I1 & I2). rewrite delivered_app, I1. rewrite in_app_iff.
      cbn [aget]. change (@eqb client_id _ d c) with (N.eqb d c).
      assert (DM : forall x ys, delivered_to d (map (Delivered x) ys : list (ev P Msg Req)) = if N.eqb x d then ys else []).
      { intros x ys. induction ys as [|y ys IHy]; cbn; [now destruct (N.eqb x d)|]. unfold delivered_to in IHy. rewrite IHy. now destruct (N.eqb x d). }
      assert (GM : forall x ys, ~ List.In (Gone d) (map (Delivered x) ys : list (ev P Msg Req))).
      { intros x ys H. apply in_map_iff in H as (? & ? & _). discriminate. }
      unfold finish1. cbn [fst snd]. fold (hold_of (l_sinks l) c). destruct (N.eqb_spec d c) as [->|X].
      - rewrite (proj2 (aget_None_notin c b) N1). rewrite AL, app_nil_r. split.
        + destruct ms; [destruct (late c); [rewrite DM, N.eqb_refl; reflexivity|reflexivity]|rewrite DM, N.eqb_refl; reflexivity].
        + intros [H|H]; [|exact (I2 H)]. destruct ms; [destruct (late c)|]; try (now apply GM in H); destruct H.
      - assert (Y : (c =? d) = false) by (apply N.eqb_neq; congruence). split.
        + destruct (alive c); [|reflexivity]. destruct ms; [destruct (late c)|]; rewrite ?DM, ?Y; reflexivity.
        + intros [H|H]; [|exact (I2 H)]. destruct (alive c).
          * destruct ms; [destruct (late c)|]; try (now apply GM in H); destruct H.
          * destruct H as [H|[]]. injection H as H. now apply X. }
    destruct (K _ ND) as (K1 & K2). split; [|exact K2]. rewrite K1. unfold queue_of in *.
    destruct (aget d (i_bc i (l_s l))) as [[|m ms]|] eqn:EA; rewrite ?app_nil_r.
    - destruct (late d); [reflexivity|]. destruct LT as [LT|[LT|LT]]; [discriminate|now destruct LT|now rewrite LT].
    - reflexivity.
    - unfold hold_of. rewrite (proj2 (aget_None_notin d (l_sinks l))); [reflexivity|]. intros H. apply IN in H.
      apply (proj1 (aget_None_notin d _) EA H).
  Qed.

  Lemma gen_finish es s l t r alive late d : tidy i s -> no_takeover es -> life i es (lst_new s) = (l, t, r) ->
    ~ List.In (Gone d) t -> alive d = true -> late d = true \/ queue_of (i_bc i (l_s l)) d <> [] \/ hold_of (l_sinks l) d = [] ->
    (queue_of (i_bc i s) d ++ asked_for d t = delivered_to d (t ++ finish i alive late l))%list.
  Proof.
    intros T R E NG AL LT. destruct (life_deliver i WB es (lst_new s) l t r (wfq_new s) (J_new s T) R E) as (((J1 & J2) & J3) & A & B).
    destruct (finish_d alive late l d J1 AL LT J3) as (F1 & F2). rewrite delivered_app, F1, <- (B d NG). reflexivity.
  Qed.

  Hypothesis ST : sticky i.
  Hypothesis MX : forall s, 0 < i_max i s.
  Lemma gen_wake es s l t e g l' g' t' : tidy i s -> no_takeover ((e, g) :: es) -> life i es (lst_new s) = (l, t, RPending) ->
    poll i e l g = (l', g', t', RPending) ->
    (l_drain l' = None -> List.In (Waits WRead) t' \/ List.In (Waits WWrite) t' \/ (exists d, List.In (Waits (WChan d)) t') \/ held t') /\
    (forall d, waiting_for i l' d <> [] -> List.In (Waits (WChan d)) t' \/ held t') /\
    (l_wp l' = [] \/ List.In (Waits WWrite) t' \/ held t' \/ exists b k q, l_wp l' = Data b k :: q /\ (k < List.length b)%nat) /\
    (List.In (Waits WControl) t' \/ held t') /\
    (l_drain l' = None -> List.In (Waits WNormal) t' \/ List.In (Waits WWrite) t' \/ held t').
  Proof.
    intros T R E EP. assert (R1 : no_takeover es) by (intros a b H; apply (R a b); now right).
    assert (R2 : e_ready e <> Some COk) by (apply (R e g); now left).
    destruct (life_deliver i WB es (lst_new s) l t RPending (wfq_new s) (J_new s T) R1 E) as (HJ & _).
    pose proof (life_wfq es (lst_new s) l t (wfq_new s) E) as W. apply poll_cases in EP.
    split; [intros D; eapply poll_read_wake; eauto|]. split; [intros d N; eapply poll_deliver_wake; eauto|]. split; [eapply poll_write_wake; eauto|].
    destruct (poll_inbox_wake i WB ST _ _ _ _ _ W EP) as (A & _ & B). now split.
  Qed.

  Lemma gen_halts es s l t e g l' g' t' c : life i es (lst_new s) = (l, t, RPending) ->
    List.In (Some c) (e_ctl e) -> halts i c -> poll i e l g = (l', g', t', RPending) -> held t'.
  Proof.
    intros E IN H EP. pose proof (life_wfq es (lst_new s) l t (wfq_new s) E) as W. apply poll_cases in EP.
    destruct (poll_inbox_wake i WB ST _ _ _ _ _ W EP) as (_ & A & _). apply A. now exists c.
  Qed.
End Gen.

Lemma kick_lemma5 hk hash pick encode es s l t e g l' g' t' r : let i := online5 hk hash pick encode in
  life i es (lst_new s) = (l, t, RPending) -> List.In (Some CKick) (e_ctl e) -> poll i e l g = (l', g', t', r) ->
  r <> RPending \/ held t'.
Proof.
  intros i E IN EP. destruct r; try (left; discriminate). right.
  refine (gen_halts i (online5_well hash pick hk encode) (online5_sticky hash pick hk encode) es s l t e g l' g' t' CKick E IN _ EP).
  intros n s0 g0. exists s0, g0, true, false. split; [reflexivity|now left].
Qed.
Lemma kick_lemma3 hk hash encode es s l t e g l' g' t' r : let i := online3 hk hash encode in
  life i es (lst_new s) = (l, t, RPending) -> List.In (Some CKick) (e_ctl e) -> poll i e l g = (l', g', t', r) ->
  r <> RPending \/ held t'.
Proof.
  intros i E IN EP. destruct r; try (left; discriminate). right.
  refine (gen_halts i (online3_well hash hk encode) (online3_sticky hash hk encode) es s l t e g l' g' t' CKick E IN _ EP).
  intros n s0 g0. exists s0, g0, true, false. split; [reflexivity|now left].
Qed.
