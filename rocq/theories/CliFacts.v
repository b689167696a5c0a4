(** The lemmas of CliProps. *)
From Coq Require Import List Bool Arith NArith Lia String.
From Verif Require Import Base BaseLemmas MsgModel PendingModel OutModel GlobModel Sess5Model Sess3Model ConnModel RegModel BrokerModel
  OutSpec OutProofs OutInv OutLemmas OutFacts InSpec LinkSpec LinkProofs LinkProofs3 LinkFacts BrokerSpec LifeSpec LifeProofs RecordProofs CliSpec CliProofs.
Import ListNotations.
Local Open Scope N_scope.
Local Open Scope list_scope.

Lemma log_once {M W} (wqp : W -> qospid) wdup (carries : N -> N -> M -> W -> Prop) lifetime (mqos : M -> qos) timeout log :
  (forall t0 t m w, carries t0 t m w -> qp_qos (wqp w) = mqos m) ->
  (forall p, taken wqp wdup carries lifetime timeout p log) ->
  (forall p, exists st, OutSpec.life (fun w => qp_pid (wqp w)) wdup carries lifetime timeout p log st) ->
  delivered_once wqp mqos carries (expired_unsent log (fun w => qp_pid (wqp w))) log.
Proof.
  intros HC HT HL pre t p m post rest c1 c2 E NQ H1 H2. destruct (HL p) as (st & L).
  destruct (once wqp wdup carries lifetime mqos HC timeout p log (HT p) pre t m post rest c1 c2 st E L H1 H2 NQ) as (d & G & F & A & B & C & _).
  exists d. split; [exact G|]. split; [exact F|]. split; [exact A|]. split.
  - intros Q K J. specialize (A Q). specialize (B Q K J). destruct d as [|x [|y d]]; [contradiction|reflexivity|cbn in A; lia].
  - intros Q J. specialize (C Q J). destruct d; [contradiction|cbn; lia].
Qed.

(** Messages of MQTT 3 have no lifetime. *)
Lemma no_lifetime {M W} (wqp : W -> qospid) wdup (carries : N -> N -> M -> W -> Prop) timeout (log : list (oev M W)) :
  (forall p, exists st, OutSpec.life (fun w => qp_pid (wqp w)) wdup carries (fun _ => None) timeout p log st) ->
  expired_unsent log (fun w => qp_pid (wqp w)).
Proof.
  intros HL l1 t p l2 t' w l3 l4 t0 m E1 E2 _ _ _. destruct (HL p) as (st & L). subst l2. rewrite app_comm_cons, app_assoc in E1. rewrite E1 in L.
  destruct (life_split _ _ _ _ _ _ _ _ _ _ L) as (s0 & s1 & _ & S). inversion S; subst; try (cbn in *; congruence).
  - match goal with X : elapsed _ _ _ _ |- _ => destruct X as (v & V & _) end. discriminate.
  - match goal with X : elapsed _ _ _ _ |- _ => destruct X as (v & V & _) end. discriminate.
Qed.

Lemma sess_once5 hash cfg s l : srun5 hash cfg s l -> Forall clocked5 l ->
  exists log, logs5 cfg l log /\ (few_enough cfg log -> delivered_once w5_qp p5_qos carries5 (expired_unsent log wpid5) log).
Proof.
  intros R C. destruct (run_linked hash cfg s l R C) as (rm & amax & ops & log & F & E & L & RM). exists log. split; [exact L|]. intros FE.
  assert (El : log = snd (run5 rm (cf_max_pending cfg) (cf_inflight_timeout cfg) amax ops)) by now rewrite E.
  assert (NR : no_reuse log) by (rewrite El; apply few_no_reuse5; [exact F|now rewrite <- El]).
  apply (log_once w5_qp w5_dup carries5 lifetime5 p5_qos (cf_inflight_timeout cfg)).
  - intros t0 t m w H. apply H.
  - intros p. eapply mrun_taken; [|exact NR]. rewrite El. exact (run5_m rm (cf_max_pending cfg) (cf_inflight_timeout cfg) amax ops F).
  - intros p. rewrite El in *. exact (c11_v5 rm (cf_max_pending cfg) (cf_inflight_timeout cfg) amax ops F NR p).
Qed.
Lemma sess_once3 hash cfg s l : srun3 hash cfg s l -> Forall clocked3 l ->
  exists log, logs3 cfg l log /\ (few_enough cfg log -> delivered_once w3_qp p3_qos carries3 True log).
Proof.
  intros R C. destruct (run_linked3 hash cfg s l R C) as (ops & log & F & E & L). exists log. split; [exact L|]. intros FE.
  assert (El : log = snd (run3 (cf_inflight_client cfg) (cf_max_pending cfg) (cf_inflight_timeout cfg) ops)) by now rewrite E.
  assert (NR : no_reuse log) by (rewrite El; apply few_no_reuse3; [exact F|now rewrite <- El]).
  assert (HL : forall p, exists st, OutSpec.life wpid3 w3_dup carries3 lifetime3 (cf_inflight_timeout cfg) p log st).
  { intros p. rewrite El in *. exact (c11_v3 (cf_inflight_client cfg) (cf_max_pending cfg) (cf_inflight_timeout cfg) ops F NR p). }
  assert (D : delivered_once w3_qp p3_qos carries3 (expired_unsent log wpid3) log).
  { apply (log_once w3_qp w3_dup carries3 lifetime3 p3_qos (cf_inflight_timeout cfg)).
    - intros t0 t m w H. apply H.
    - intros p. eapply mrun_taken; [|exact NR]. rewrite El. exact (run3_m (cf_inflight_client cfg) (cf_max_pending cfg) (cf_inflight_timeout cfg) ops F).
    - exact HL. }
  intros pre t p m post rest c1 c2 E1 NQ H1 H2. destruct (D pre t p m post rest c1 c2 E1 NQ H1 H2) as (d & G & K1 & K2 & K3 & K4).
  exists d. split; [exact G|]. split; [exact K1|]. split; [exact K2|]. split; [|exact K4]. intros Q _ J. apply K3; auto.
  exact (no_lifetime w3_qp w3_dup carries3 (cf_inflight_timeout cfg) log HL).
Qed.

Section Broker.
  Variables (hash5 : wpub5 -> N) (hash3 : wpub3 -> N) (pick : draw -> broker -> string -> string -> N).
  Local Notation brun := (brun hash5 hash3 pick).
  Lemma broker_once5 c h b k s : brun c h b -> (forall p, In p h -> proper p) -> (forall p, In p h -> after_1970 p) -> sess_at b k = Some (A5 s) ->
    exists l log, LifeSpec.life5 k h l /\ logs5 c l log /\ (few_enough c log -> delivered_once w5_qp p5_qos carries5 (expired_unsent log wpid5) log).
  Proof. intros R P T A. destruct (is_run5 _ _ _ _ _ _ _ _ R P T A) as (l & L & S & C). destruct (sess_once5 _ _ _ _ S C) as (log & G & H). exists l, log. auto. Qed.
  Lemma broker_once3 c h b k s : brun c h b -> (forall p, In p h -> proper p) -> (forall p, In p h -> after_1970 p) -> sess_at b k = Some (A3 s) ->
    exists l log, LifeSpec.life3 k h l /\ logs3 c l log /\ (few_enough c log -> delivered_once w3_qp p3_qos carries3 True log).
  Proof. intros R P T A. destruct (is_run3 _ _ _ _ _ _ _ _ R P T A) as (l & L & S & C). destruct (sess_once3 _ _ _ _ S C) as (log & G & H). exists l, log. auto. Qed.
End Broker.
