(** C87: messages for a client that is away.

    [aget k (b_tasks b) = Some (TOffline (A5 s))]: the client is away and its session [s] is kept by
    task [k].  [waiting b d] are the messages passed on to client [d] that its task has not yet
    taken (BrokerSpec).  [wanted5] says which of them are for the queue (AwaySpec), [joins] what a
    message does to a queue (FullSpec) and [filled] what several do, one after the other.  [ENormal k] is the step by which task [k] takes the next
    message. *)
From Coq Require Import List Bool NArith String.
From Verif Require Import Base MsgModel PendingModel OutModel RouteModel RetainModel GlobModel Sess5Model Sess3Model ConnModel InSpec LinkSpec RegModel BrokerModel BrokerSpec LifeSpec
  RecvSpec BrokerProps LifeProps FullSpec AwaySpec AwayProofs.
Import ListNotations.
Local Open Scope N_scope.
Local Open Scope list_scope.

Section Props.
  Variables (hash5 : wpub5 -> N) (hash3 : wpub3 -> N) (pick : draw -> broker -> string -> string -> N).
  Local Notation brun := (brun hash5 hash3 pick).
  Local Notation bstep := (bstep hash5 hash3 pick).
  Local Notation exec := (exec hash5 hash3 pick).
  Local Notation usual h := ((forall p, In p h -> proper p) /\ (forall p, In p h -> after_1970 p)).

  (** The oldest waiting message can always be taken.  Nothing is written.  If it is wanted it is
      put at the end of the queue, or dropped if the queue is full; if not, the queue stays as it
      is. *)
  Theorem C87_away : forall c h b k s from m rest, brun c h b -> usual h ->
    aget k (b_tasks b) = Some (TOffline (A5 s)) -> waiting b (s_id s) = (from, m) :: rest ->
    exists b' s', bstep (ENormal k) b = BOk b' [] /\ aget k (b_tasks b') = Some (TOffline (A5 s')) /\ waiting b' (s_id s) = rest /\
      (wanted5 s m -> joins (cf_max_pending c) (seconds b)
         (fun x => p5_topic x = nm_topic m /\ p5_payload x = nm_payload m /\ p5_qos x = qos_min (nm_qos m) (nm_sqos m)) (pq (o5_q (s_out s))) (pq (o5_q (s_out s')))) /\
      (~ wanted5 s m -> pq (o5_q (s_out s')) = pq (o5_q (s_out s))).
  Proof. intros c h b k s from m rest R (P & T). exact (away5 hash5 hash3 pick c h b k R P T s from m rest). Qed.
  Theorem C87_v3_away : forall c h b k s from m rest, brun c h b -> usual h ->
    aget k (b_tasks b) = Some (TOffline (A3 s)) -> waiting b (z_id s) = (from, m) :: rest ->
    exists b' s', bstep (ENormal k) b = BOk b' [] /\ aget k (b_tasks b') = Some (TOffline (A3 s')) /\ waiting b' (z_id s) = rest /\
      (wanted3 s m -> joins (cf_max_pending c) (seconds b)
         (fun x => p3_topic x = nm_topic m /\ p3_payload x = nm_payload m /\ p3_qos x = qos_min (nm_qos m) (nm_sqos m)) (pq (o3_q (z_out s))) (pq (o3_q (z_out s')))) /\
      (~ wanted3 s m -> pq (o3_q (z_out s')) = pq (o3_q (z_out s))).
  Proof. intros c h b k s from m rest R (P & T). exact (away3 hash5 hash3 pick c h b k R P T s from m rest). Qed.
  (** All that waits can be taken, one message after the other, and each that is wanted joins the
      queue in this order. *)
  Theorem C87_all : forall c h b k s, brun c h b -> usual h -> 1000 <= b_now b -> aget k (b_tasks b) = Some (TOffline (A5 s)) ->
    exists b' s', exec (repeat (ENormal k) (List.length (waiting b (s_id s)))) b = Some (b', []) /\ aget k (b_tasks b') = Some (TOffline (A5 s')) /\ waiting b' (s_id s) = [] /\
      filled (cf_max_pending c) (seconds b) (wanted5 s) (fun m x => p5_topic x = nm_topic m /\ p5_payload x = nm_payload m /\ p5_qos x = qos_min (nm_qos m) (nm_sqos m))
        (map snd (waiting b (s_id s))) (pq (o5_q (s_out s))) (pq (o5_q (s_out s'))).
  Proof. intros c h b k s R (P & T) NW A. exact (all5 hash5 hash3 pick c k (waiting b (s_id s)) h b s R P T NW A eq_refl). Qed.
  Theorem C87_v3_all : forall c h b k s, brun c h b -> usual h -> 1000 <= b_now b -> aget k (b_tasks b) = Some (TOffline (A3 s)) ->
    exists b' s', exec (repeat (ENormal k) (List.length (waiting b (z_id s)))) b = Some (b', []) /\ aget k (b_tasks b') = Some (TOffline (A3 s')) /\ waiting b' (z_id s) = [] /\
      filled (cf_max_pending c) (seconds b) (wanted3 s) (fun m x => p3_topic x = nm_topic m /\ p3_payload x = nm_payload m /\ p3_qos x = qos_min (nm_qos m) (nm_sqos m))
        (map snd (waiting b (z_id s))) (pq (o3_q (z_out s))) (pq (o3_q (z_out s'))).
  Proof. intros c h b k s R (P & T) NW A. exact (all3 hash5 hash3 pick c k (waiting b (z_id s)) h b s R P T NW A eq_refl). Qed.
End Props.
Print Assumptions C87_away.
Print Assumptions C87_v3_away.
Print Assumptions C87_all.
Print Assumptions C87_v3_all.

(** "a" (MQTT 5) and "c" (MQTT 3) subscribe and lose their connections.  "p" publishes; the
    message waits for both and both want it.  A second one of QoS 0 behind it is not wanted. *)
Definition x_gone : list bev := [ETick 100000; x_a true] ++ x_up 0 ++ [x_sub 0 "t/+"; x_c3 false "c" false 60 None] ++ x_up 1 ++ [x_s3 1 "t/#"; x_c5 "p" true 60 None None] ++ x_up 2 ++
  x_down 0 ++ x_down 1 ++ [x_pub 2 "t/x"; EFlush 2 0; EFlush 2 1].
Example C87_away_case : exists h b, x_run h b /\ (forall p, In p h -> proper p) /\ (forall p, In p h -> after_1970 p) /\
  (exists s m, aget 0 (b_tasks b) = Some (TOffline (A5 s)) /\ waiting b (s_id s) = [(2, m)] /\ wanted5 s m /\ nm_topic m = "t/x"%string /\ pq (o5_q (s_out s)) = [] /\
     ~ wanted5 s (NM5 (NMsg5 false L0 "t/y" "m" ["t/+"%string] L1 (PProps None None [] "") 10))) /\
  (exists s m, aget 1 (b_tasks b) = Some (TOffline (A3 s)) /\ waiting b (z_id s) = [(2, m)] /\ wanted3 s m /\ nm_topic m = "t/x"%string /\ pq (o3_q (z_out s)) = [] /\
     ~ wanted3 s (NM5 (NMsg5 false L1 "u" "m" ["u"%string] L1 (PProps None None [] "") 10))).
Proof.
  run_of x_gone. split; [proper_of|]. split; [after_of|].
  split; do 2 eexists; (split; [reflexivity|]); (split; [vm_compute; reflexivity|]).
  - split; [split; [exists "t/+"%string; split; [left; reflexivity|vm_compute; discriminate]|split; [vm_compute; discriminate|vm_compute; discriminate]]|].
    split; [reflexivity|]. split; [reflexivity|]. intros (_ & K & _). apply K. reflexivity.
  - split; [split; [exists "t/#"%string, []; split; [reflexivity|vm_compute; discriminate]|vm_compute; discriminate]|].
    split; [reflexivity|]. split; [reflexivity|]. intros ((f & r & E & K) & _). injection E as <- <-. apply K. reflexivity.
Qed.
(** What becomes of it: both queues hold the message, not sent. *)
Example C87_kept_case : exists h b, x_run h b /\
  (exists s a p x, aget 0 (b_tasks b) = Some (TOffline (A5 s)) /\ pq (o5_q (s_out s)) = [PNew a 0 p x false] /\ p5_topic x = "t/x"%string) /\
  (exists s a p x, aget 1 (b_tasks b) = Some (TOffline (A3 s)) /\ pq (o3_q (z_out s)) = [PNew a 0 p x false] /\ p3_topic x = "t/x"%string).
Proof. run_of (x_gone ++ [ENormal 0; ENormal 1]). split; do 4 eexists; (split; [reflexivity|]); split; vm_compute; reflexivity. Qed.

(** Three messages wait, the second of QoS 0: the first and the third end up in the queues. *)
Definition x_three : list bev := x_gone ++ [EPacket5 2 10 (IPub (WPub5 false Q0 false "t/y" "m" (PProps None None [] ""))); EFlush 2 0; EFlush 2 1; x_pub 2 "t/z"; EFlush 2 0; EFlush 2 1].
Definition x_topics5 (b : broker) : list string :=
  match sess_at b 0 with Some (A5 s) => flat_map (fun e => match e with PNew _ _ _ x _ => [p5_topic x] | _ => [] end) (pq (o5_q (s_out s))) | _ => [] end.
Definition x_topics3 (b : broker) : list string :=
  match sess_at b 1 with Some (A3 s) => flat_map (fun e => match e with PNew _ _ _ x _ => [p3_topic x] | _ => [] end) (pq (o3_q (z_out s))) | _ => [] end.
Example C87_all_case : exists h b, x_run h b /\ (forall p, In p h -> proper p) /\ (forall p, In p h -> after_1970 p) /\ 1000 <= b_now b /\
  (exists s, aget 0 (b_tasks b) = Some (TOffline (A5 s)) /\ map (fun m => nm_topic (snd m)) (waiting b (s_id s)) = ["t/x"; "t/y"; "t/z"]%string) /\
  (exists s, aget 1 (b_tasks b) = Some (TOffline (A3 s)) /\ map (fun m => nm_topic (snd m)) (waiting b (z_id s)) = ["t/x"; "t/y"; "t/z"]%string) /\
  (exists b', exec x_h5 x_h3 x_pick (repeat (ENormal 0) 3 ++ repeat (ENormal 1) 3) b = Some (b', []) /\ x_topics5 b' = ["t/x"; "t/z"]%string /\ x_topics3 b' = ["t/x"; "t/z"]%string).
Proof.
  run_of x_three. split; [proper_of|]. split; [after_of|]. split; [vm_compute; discriminate|].
  split; [eexists; split; [reflexivity|vm_compute; reflexivity]|]. split; [eexists; split; [reflexivity|vm_compute; reflexivity]|].
  eexists. split; [vm_compute; reflexivity|]. split; vm_compute; reflexivity.
Qed.
