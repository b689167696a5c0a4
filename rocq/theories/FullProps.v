(** C12: what a message that reaches a session does to the session's queue, in every run.

    [handle_normal5 now c m s = (s', r)]: the session [s] is handed the message [m] at [now], and
    [r = Some (q, None)] says that it is for the queue (QoS 1 or 2, subscribed to, not too long).
    [joins max now fits before after] (FullSpec): finished entries at the front of the queue go;
    if fewer than [max] are left, a message that satisfies [fits] is put at the end; otherwise it
    is dropped; the other entries stay as they are.  No assumption is made about packet
    identifiers. *)
From Coq Require Import List Bool NArith String.
From Verif Require Import Base MsgModel PendingModel OutModel RouteModel RetainModel GlobModel Sess5Model Sess3Model ConnModel InSpec LinkSpec RegModel BrokerModel BrokerSpec LifeSpec
  RecvSpec BrokerProps LifeProps FullSpec FullProofs.
Import ListNotations.
Local Open Scope N_scope.
Local Open Scope list_scope.

(** For the runs of a session. *)
Theorem C12_session_joins : forall hash cfg s l now m s' r, srun5 hash cfg s l -> Forall clocked5 l -> handle_normal5 now cfg m s = (s', r) ->
  (forall q, r = Some (q, None) -> q = qos_min (nm_qos m) (nm_sqos m) /\ q <> L0 /\
     joins (cf_max_pending cfg) now (fun x => p5_topic x = nm_topic m /\ p5_payload x = nm_payload m /\ p5_qos x = q) (pq (o5_q (s_out s))) (pq (o5_q (s_out s')))) /\
  ((forall q, r <> Some (q, None)) -> pq (o5_q (s_out s')) = pq (o5_q (s_out s))).
Proof. intros hash cfg s l now m s' r R C. exact (msg_joins5 hash cfg s l R C now m s' r). Qed.
Print Assumptions C12_session_joins.
Theorem C12_v3_session_joins : forall hash cfg s l now m s' r, srun3 hash cfg s l -> Forall clocked3 l -> handle_normal3 now m s = (s', r) ->
  (forall q, r = Some (q, None) -> q = qos_min (nm_qos m) (nm_sqos m) /\ q <> L0 /\
     joins (cf_max_pending cfg) now (fun x => p3_topic x = nm_topic m /\ p3_payload x = nm_payload m /\ p3_qos x = q) (pq (o3_q (z_out s))) (pq (o3_q (z_out s')))) /\
  ((forall q, r <> Some (q, None)) -> pq (o3_q (z_out s')) = pq (o3_q (z_out s))).
Proof. intros hash cfg s l now m s' r R C. exact (msg_joins3 hash cfg s l R C now m s' r). Qed.
Print Assumptions C12_v3_session_joins.

Section Props.
  Variables (hash5 : wpub5 -> N) (hash3 : wpub3 -> N) (pick : draw -> broker -> string -> string -> N).
  Local Notation brun := (brun hash5 hash3 pick).
  Local Notation usual h := ((forall p, In p h -> proper p) /\ (forall p, In p h -> after_1970 p)).

  (** For the sessions of a run of the broker. *)
  Theorem C12_broker_joins : forall c h b k s now m s' r, brun c h b -> usual h -> sess_at b k = Some (A5 s) -> handle_normal5 now c m s = (s', r) ->
    (forall q, r = Some (q, None) -> q = qos_min (nm_qos m) (nm_sqos m) /\ q <> L0 /\
       joins (cf_max_pending c) now (fun x => p5_topic x = nm_topic m /\ p5_payload x = nm_payload m /\ p5_qos x = q) (pq (o5_q (s_out s))) (pq (o5_q (s_out s')))) /\
    ((forall q, r <> Some (q, None)) -> pq (o5_q (s_out s')) = pq (o5_q (s_out s))).
  Proof.
    intros c h b k s now m s' r R U A. destruct (session_is_a_run5 hash5 hash3 pick c h b k s R U A) as (l & _ & S & C). exact (msg_joins5 hash5 c s l S C now m s' r).
  Qed.
  Theorem C12_v3_broker_joins : forall c h b k s now m s' r, brun c h b -> usual h -> sess_at b k = Some (A3 s) -> handle_normal3 now m s = (s', r) ->
    (forall q, r = Some (q, None) -> q = qos_min (nm_qos m) (nm_sqos m) /\ q <> L0 /\
       joins (cf_max_pending c) now (fun x => p3_topic x = nm_topic m /\ p3_payload x = nm_payload m /\ p3_qos x = q) (pq (o3_q (z_out s))) (pq (o3_q (z_out s')))) /\
    ((forall q, r <> Some (q, None)) -> pq (o3_q (z_out s')) = pq (o3_q (z_out s))).
  Proof.
    intros c h b k s now m s' r R U A. destruct (session_is_a_run3 hash5 hash3 pick c h b k s R U A) as (l & _ & S & C). exact (msg_joins3 hash3 c s l S C now m s' r).
  Qed.
End Props.
Print Assumptions C12_broker_joins.
Print Assumptions C12_v3_broker_joins.

(** Both sessions of LifeProps hold one message; a second one joins it, with identifier 2. *)
Definition f_msg : nmsg := NM5 (NMsg5 false L1 "t/y" "m" ["t/+"%string] L1 (PProps None None [] "") 10).
Definition f_msg3 : nmsg := NM5 (NMsg5 false L1 "t/y" "m" ["t/#"%string] L1 (PProps None None [] "") 10).
Example C12_joins_case : exists h b, x_run h b /\ (forall p, In p h -> proper p) /\ (forall p, In p h -> after_1970 p) /\
  (exists s s', sess_at b 2 = Some (A5 s) /\ handle_normal5 101 config_default f_msg s = (s', Some (L1, None)) /\
     OutSpec.held (o5_q (s_out s)) = [1] /\ OutSpec.held (o5_q (s_out s')) = [1; 2]) /\
  (exists s s', sess_at b 1 = Some (A3 s) /\ handle_normal3 101 f_msg3 s = (s', Some (L1, None)) /\
     OutSpec.held (o3_q (z_out s)) = [1] /\ OutSpec.held (o3_q (z_out s')) = [1; 2]).
Proof.
  run_of x_sent. split; [proper_of|]. split; [after_of|].
  split; do 2 eexists; (split; [reflexivity|]); (split; [vm_compute; reflexivity|]); split; vm_compute; reflexivity.
Qed.
(** With room for one entry only the second message is dropped; a finished entry makes room. *)
Example joins_full_case : joins 1 7 (fun _ : pub3 => True) [PDone; PRec 3 1] [PRec 3 1] /\
  joins 2 7 (fun x : pub3 => p3_topic x = "t"%string) [PDone; PRec 3 1] [PRec 3 1; PNew 7 0 2 (Pub3 "t" L1 false "m") false] /\
  ~ joins 2 7 (fun _ : pub3 => True) [PDone; PRec 3 1] [PRec 3 1].
Proof.
  split; [|split].
  - exists [PRec 3 1]. split; [repeat constructor|]. split; [intros K; discriminate K|reflexivity].
  - exists [PRec 3 1]. split; [repeat constructor|]. split; [|intros K; exfalso; apply K; reflexivity]. intros _. do 2 eexists. split; [|split]; [|split|reflexivity]; [reflexivity|discriminate|discriminate].
  - intros (kept & T & A & _). inversion T as [r r' T'| | |]; subst. inversion T'; subst. destruct (A eq_refl) as (p & x & _ & _ & E). discriminate E.
Qed.
