(** Proofs for FullProps. *)
From Coq Require Import List Bool NArith String Lia.
From Verif Require Import Base BaseLemmas TopicModel MsgModel PendingModel AliasModel OutModel RouteModel RetainModel GlobModel
  Sess5Model Sess3Model ConnModel OutSpec OutInv OutFacts InSpec LinkSpec LinkProofs LinkProofs3 RecvSpec FullSpec.
Import ListNotations.
Local Open Scope N_scope.
Local Open Scope list_scope.

Lemma trimmed_drop {P} (l : list (pstatus P)) : trimmed l (drop_done l).
Proof. induction l as [|[] l IH]; cbn [drop_done]; constructor; auto. Qed.

Lemma queue_of5 hash cfg s l : srun5 hash cfg s l -> Forall clocked5 l ->
  pq_max (o5_q (s_out s)) = cf_max_pending cfg /\ 1 <= o5_next (s_out s) <= 65535.
Proof.
  intros R C. destruct (run_linked _ _ _ _ R C) as (rm & amax & ops & log & F & E & _).
  pose proof (run5_m rm (cf_max_pending cfg) (cf_inflight_timeout cfg) amax ops F) as K. rewrite E in K. cbn [fst snd] in K.
  split; [apply (mrun_len _ _ _ _ _ _ _ _ _ _ _ K)|]. destruct (mrun_numbered _ _ _ _ _ _ _ _ _ _ _ K) as [_ ->]. apply pid_at_range.
Qed.
Lemma queue_of3 hash cfg s l : srun3 hash cfg s l -> Forall clocked3 l ->
  pq_max (o3_q (z_out s)) = cf_max_pending cfg /\ 1 <= o3_next (z_out s) <= 65535.
Proof.
  intros R C. destruct (run_linked3 _ _ _ _ R C) as (ops & log & F & E & _).
  match type of E with run3 ?rm _ _ _ = _ => pose proof (run3_m rm (cf_max_pending cfg) (cf_inflight_timeout cfg) ops F) as K end. rewrite E in K. cbn [fst snd] in K.
  split; [apply (mrun_len _ _ _ _ _ _ _ _ _ _ _ K)|]. destruct (mrun_numbered _ _ _ _ _ _ _ _ _ _ _ K) as [_ ->]. apply pid_at_range.
Qed.

Lemma push_joins {P} now p (x : P) (fits : P -> Prop) q q' full : fits x -> 1 <= p <= 65535 ->
  push_back now p x (clean_complete q) = (q', full) -> joins (pq_max q) now fits (pq q) (pq q').
Proof.
  intros F B. unfold push_back. cbn [clean_complete pq pq_max pq_set].
  destruct (N.leb_spec (pq_max q) (N.of_nat (List.length (drop_done (pq q))))) as [H|H]; intros [= <- <-]; cbn [pq pq_set];
    exists (drop_done (pq q)); (split; [apply trimmed_drop|]); split; intros K; try lia; eauto 6.
Qed.

Section V5.
  Variables (hash : wpub5 -> N) (cfg : config) (s : sess5) (l : list (sev5 * list pkt5)).
  Hypothesis run : srun5 hash cfg s l.
  Hypothesis clock : Forall clocked5 l.

  Lemma recv_joins5 now m s' r : recv_publish5 now m s = (s', r) ->
    (forall q, r = Some (q, None) -> q = qos_min (rp_qos m) (rp_sqos m) /\ q <> L0 /\
       joins (cf_max_pending cfg) now (fun x => p5_topic x = rp_topic m /\ p5_payload x = rp_payload m /\ p5_qos x = q) (pq (o5_q (s_out s))) (pq (o5_q (s_out s')))) /\
    ((forall q, r <> Some (q, None)) -> pq (o5_q (s_out s')) = pq (o5_q (s_out s))).
  Proof.
    destruct (queue_of5 _ _ _ _ run clock) as (MX & NX). unfold recv_publish5.
    match goal with |- context [match ?i with Some _ => _ | None => _ end = (s', r)] => destruct i as [ids|] end;
      [|intros [= <- <-]; split; [discriminate|reflexivity]].
    destruct (negb (qos_eqb (qos_min (rp_qos m) (rp_sqos m)) L0)) eqn:Q.
    - destruct (s_maxpkt s <? rp_len m); [intros [= <- <-]; split; [discriminate|reflexivity]|].
      unfold out5_push. destruct (push_back _ _ _ _) as [q' full] eqn:E. intros [= <- <-]. split; [|intros H; exfalso; eapply H; reflexivity].
      intros q [= <-]. split; [reflexivity|]. split; [intros K; rewrite K in Q; discriminate|]. cbn [s_out with_out o5_q]. rewrite <- MX.
      eapply push_joins; [|exact NX|exact E]. cbn. auto.
    - destruct (negb (s_cdisc s) && negb (s_sdisc s)); [|intros [= <- <-]; split; [discriminate|reflexivity]].
      match goal with |- context [if ?b then (s, None) else _] => destruct b end; [intros [= <- <-]; split; [discriminate|reflexivity]|].
      unfold out5_qos0. destruct (apply_alias _ _ _ _) as [[al t'] p']. intros [= <- <-]. split; [discriminate|reflexivity].
  Qed.
  Lemma msg_joins5 now m s' r : handle_normal5 now cfg m s = (s', r) ->
    (forall q, r = Some (q, None) -> q = qos_min (nm_qos m) (nm_sqos m) /\ q <> L0 /\
       joins (cf_max_pending cfg) now (fun x => p5_topic x = nm_topic m /\ p5_payload x = nm_payload m /\ p5_qos x = q) (pq (o5_q (s_out s))) (pq (o5_q (s_out s')))) /\
    ((forall q, r <> Some (q, None)) -> pq (o5_q (s_out s')) = pq (o5_q (s_out s))).
  Proof.
    destruct m as [m|m]; cbn [handle_normal5 nm_topic nm_payload nm_qos nm_sqos].
    - destruct (aget _ _); [intros E; exact (recv_joins5 _ _ _ _ E)|intros [= <- <-]; split; [discriminate|reflexivity]].
    - destruct (filters_info _ _) as [[has rap] ids]. destruct has; [intros E; exact (recv_joins5 _ _ _ _ E)|intros [= <- <-]; split; [discriminate|reflexivity]].
  Qed.
End V5.

Section V3.
  Variables (hash : wpub3 -> N) (cfg : config) (s : sess3) (l : list (sev3 * list pkt3)).
  Hypothesis run : srun3 hash cfg s l.
  Hypothesis clock : Forall clocked3 l.

  Lemma recv_joins3 now m s' r : recv_publish3 now m s = (s', r) ->
    (forall q, r = Some (q, None) -> q = qos_min (rp3_qos m) (rp3_sqos m) /\ q <> L0 /\
       joins (cf_max_pending cfg) now (fun x => p3_topic x = rp3_topic m /\ p3_payload x = rp3_payload m /\ p3_qos x = q) (pq (o3_q (z_out s))) (pq (o3_q (z_out s')))) /\
    ((forall q, r <> Some (q, None)) -> pq (o3_q (z_out s')) = pq (o3_q (z_out s))).
  Proof.
    destruct (queue_of3 _ _ _ _ run clock) as (MX & NX). unfold recv_publish3.
    destruct (aget _ _) as [sq|]; [|intros [= <- <-]; split; [discriminate|reflexivity]].
    destruct (negb (qos_eqb (qos_min (rp3_qos m) (rp3_sqos m)) L0)) eqn:Q.
    - unfold out3_push. destruct (push_back _ _ _ _) as [q' full] eqn:E. intros [= <- <-]. split; [|intros H; exfalso; eapply H; reflexivity].
      intros q [= <-]. split; [reflexivity|]. split; [intros K; rewrite K in Q; discriminate|]. cbn [z_out zwith_out o3_q]. rewrite <- MX.
      eapply push_joins; [|exact NX|exact E]. cbn. auto.
    - destruct (negb (z_disc s)); intros [= <- <-]; (split; [discriminate|reflexivity]).
  Qed.
  Lemma msg_joins3 now m s' r : handle_normal3 now m s = (s', r) ->
    (forall q, r = Some (q, None) -> q = qos_min (nm_qos m) (nm_sqos m) /\ q <> L0 /\
       joins (cf_max_pending cfg) now (fun x => p3_topic x = nm_topic m /\ p3_payload x = nm_payload m /\ p3_qos x = q) (pq (o3_q (z_out s))) (pq (o3_q (z_out s')))) /\
    ((forall q, r <> Some (q, None)) -> pq (o3_q (z_out s')) = pq (o3_q (z_out s))).
  Proof.
    destruct m as [m|m]; cbn [handle_normal3 nm_topic nm_payload nm_qos nm_sqos].
    - intros E; exact (recv_joins3 _ _ _ _ E).
    - destruct (n5_filters m); [intros [= <- <-]; split; [discriminate|reflexivity]|intros E; exact (recv_joins3 _ _ _ _ E)].
  Qed.
End V3.
