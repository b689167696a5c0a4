(** C85: the messages of a session reach its client, each for the first time, in the order in
    which they were queued, over any number of connections and whatever is lost with them.

    [arrives log d r] (ArriveSpec) is what the client may have received after [log]; [shows]
    matches a PUBLISH with the queued message it carries, by number.  With QoS 1 every PUBLISH
    that arrives is given to the application, so the application of a client that follows the
    standard ([met], CliSpec) gets the messages in this order, too. *)
From Coq Require Import List Bool NArith String.
From Verif Require Import Base MsgModel PendingModel OutModel OutSpec OutProps OrderSpec OrderFacts GlobModel Sess5Model Sess3Model ConnModel InSpec LinkSpec CliSpec RegModel BrokerModel BrokerSpec LifeSpec
  BrokerProps LifeProps ArriveSpec ArriveProofs Arrive2Proofs.
Import ListNotations.
Local Open Scope N_scope.
Local Open Scope list_scope.

(** One session: any messages, acknowledgements, connections and transmissions, while the clock
    does not go back. *)
Theorem C85_arrival : forall rm max timeout amax ops, Forall op5_ok ops ->
  let log := snd (run5 rm max timeout amax ops) in
  steady log -> arrive_in_order wpid5 carries5 log /\ given_in_order w5_qp carries5 log.
Proof. intros rm max timeout amax ops F log ST. pose proof (arrive5_lemma rm max timeout amax ops F ST) as K. exact (conj K (given5_lemma _ K)). Qed.
Print Assumptions C85_arrival.
(** With MQTT 3 the clock does not matter. *)
Theorem C85_v3_arrival : forall rm max timeout ops, Forall op3_ok ops ->
  let log := snd (run3 rm max timeout ops) in
  arrive_in_order wpid3 carries3 log /\ given_in_order w3_qp carries3 log.
Proof. intros rm max timeout ops F log. pose proof (arrive3_lemma rm max timeout ops F) as K. exact (conj K (given3_lemma _ K)). Qed.
Print Assumptions C85_v3_arrival.

(** Sessions of a run of the whole broker. *)
Section Props.
  Variables (hash5 : wpub5 -> N) (hash3 : wpub3 -> N) (pick : draw -> broker -> string -> string -> N).
  Local Notation brun := (brun hash5 hash3 pick).
  Local Notation usual h := ((forall p, In p h -> proper p) /\ (forall p, In p h -> after_1970 p)).
  Theorem C85_broker_arrival : forall c h b k s, brun c h b -> usual h -> sess_at b k = Some (A5 s) ->
    exists l log, life5 k h l /\ logs5 c l log /\ arrive_in_order wpid5 carries5 log /\ given_in_order w5_qp carries5 log.
  Proof. intros c h b k s R (P & T) A. destruct (broker5_arrive hash5 hash3 pick c h b k R P T s A) as (l & log & L & G & K). exact (ex_intro _ l (ex_intro _ log (conj L (conj G (conj K (given5_lemma _ K)))))). Qed.
  Theorem C85_v3_broker_arrival : forall c h b k s, brun c h b -> usual h -> sess_at b k = Some (A3 s) ->
    exists l log, life3 k h l /\ logs3 c l log /\ arrive_in_order wpid3 carries3 log /\ given_in_order w3_qp carries3 log.
  Proof. intros c h b k s R (P & T) A. destruct (broker3_arrive hash5 hash3 pick c h b k R P T s A) as (l & log & L & G & K). exact (ex_intro _ l (ex_intro _ log (conj L (conj G (conj K (given3_lemma _ K)))))). Qed.
End Props.
(** A run that meets the hypotheses is [broker_window_case] in LifeProps. *)
Print Assumptions C85_broker_arrival.
Print Assumptions C85_v3_broker_arrival.

(** Three messages, at most two in flight.  The first two are transmitted and the connection is
    lost when only the first has arrived.  On the next one both are transmitted again, the first
    is acknowledged and the third follows.  The client receives 1, 1, 2, 3. *)
Definition arr_ops : list op5 :=
  [O5Msg 100 (ex_pub L1 None "x"); O5Msg 101 (ex_pub L2 None "y"); O5Msg 101 (ex_pub L1 None "z"); O5Flush 102; O5Resume 2 0; O5Flush 104; O5Ack AckPuback 105 1; O5Flush 106].
Definition arr_log := snd (run5 2 4 5 0 arr_ops).
Example C85_case : Forall op5_ok arr_ops /\ steady arr_log /\ map (fun q => snd (fst q)) (queued arr_log) = [1; 2; 3] /\
  exists r, arrives arr_log [] r /\ map wpid5 (pubs wpid5 r) = [Some 1; Some 1; Some 2; Some 3].
Proof.
  split; [repeat constructor; discriminate|]. split; [apply up_steady; vm_compute; repeat constructor; discriminate|]. split; [reflexivity|].
  pose proof (arrives_go _ _ _ (skipn 6 arr_log) 9 (arrives_go _ _ _ (firstn 6 arr_log) 1 ar_nil)) as A. cbn [app] in A. rewrite firstn_skipn in A.
  eexists. split; [exact A|]. vm_compute. reflexivity.
Qed.
(** With QoS 2 a PUBLISH that comes again is not given to the application, and the application
    gets every message at most once and in order.  This needs that no identifier is used for a
    second message while the first is unfinished, and that no message is given up for its age
    after it was transmitted ([expired_unsent]; the client of such a message keeps its identifier
    and takes the next message under it for a repetition). *)
Theorem C85_once : forall rm max timeout amax ops, Forall op5_ok ops ->
  let log := snd (run5 rm max timeout amax ops) in
  no_reuse log -> expired_unsent log wpid5 -> given_once_in_order w5_qp carries5 log.
Proof. intros rm max timeout amax ops F log. exact (once5_lemma rm max timeout amax ops F). Qed.
Print Assumptions C85_once.
Theorem C85_v3_once : forall rm max timeout ops, Forall op3_ok ops ->
  let log := snd (run3 rm max timeout ops) in
  no_reuse log -> given_once_in_order w3_qp carries3 log.
Proof. intros rm max timeout ops F log. exact (once3_lemma rm max timeout ops F). Qed.
Print Assumptions C85_v3_once.
Section Once.
  Variables (hash5 : wpub5 -> N) (hash3 : wpub3 -> N) (pick : draw -> broker -> string -> string -> N).
  Local Notation brun := (brun hash5 hash3 pick).
  Local Notation usual h := ((forall p, In p h -> proper p) /\ (forall p, In p h -> after_1970 p)).
  Theorem C85_broker_once : forall c h b k s, brun c h b -> usual h -> sess_at b k = Some (A5 s) ->
    exists l log, life5 k h l /\ logs5 c l log /\ (few_enough c log -> expired_unsent log wpid5 -> given_once_in_order w5_qp carries5 log).
  Proof. intros c h b k s R (P & T) A. exact (broker5_once hash5 hash3 pick c h b k R P T s A). Qed.
  Theorem C85_v3_broker_once : forall c h b k s, brun c h b -> usual h -> sess_at b k = Some (A3 s) ->
    exists l log, life3 k h l /\ logs3 c l log /\ (few_enough c log -> given_once_in_order w3_qp carries3 log).
  Proof. intros c h b k s R (P & T) A. exact (broker3_once hash5 hash3 pick c h b k R P T s A). Qed.
End Once.
Print Assumptions C85_broker_once.
Print Assumptions C85_v3_broker_once.

(** Two messages with QoS 2.  The first arrives, the second is lost with the connection.  Both are
    transmitted again, and the application gets "x" and "y". *)
Definition arr_ops2 : list op5 :=
  [O5Msg 100 (ex_pub L2 None "x"); O5Msg 101 (ex_pub L2 None "y"); O5Flush 102; O5Resume 2 0; O5Flush 104].
Definition arr_wire (dup : bool) (p : pid) (s : string) : wpub5 := WPub5 dup (Q2 p) false "a/b" s (PProps None None [] "").
Definition arr_log2 := snd (run5 2 4 5 0 arr_ops2).
Example C85_once_case : Forall op5_ok arr_ops2 /\ no_reuse arr_log2 /\ expired_unsent arr_log2 wpid5 /\
  exists c, met w5_qp client_new arr_log2 c /\ map w5_payload (with_qos2 w5_qp (c_app c)) = ["x"; "y"]%string.
Proof.
  split; [repeat constructor; discriminate|]. split.
  { intros l1 t p m l2 E. unfold arr_log2 in E. vm_compute in E. do 8 (destruct l1 as [|? l1]; [discriminate E || (injection E as <- <- <- <-; reflexivity)|injection E as <- E]). destruct l1; discriminate E. }
  split.
  { intros l1 t p l2 t' w l3 l4 t0 m E1 E2. exfalso. assert (J : In (EExpired t p) arr_log2) by (rewrite E1, E2; apply in_app_iff; right; right; apply in_elt).
    vm_compute in J. repeat destruct J as [J|J]; try discriminate; exact J. }
  pose proof (met_nil (M := pub5) w5_qp client_new) as H0. assert (Q : forall p, quiet w5_qp p (Client [] [] [] [])) by (split; constructor).
  pose proof (met_event _ _ _ _ _ _ H0 (hd_conn _ _ 2)) as H1.
  pose proof (met_event _ _ _ _ _ _ H1 (hd_queued w5_qp (Client [] [] [] []) 100 1 (ex_pub L2 None "x") (Q 1))) as H2.
  pose proof (met_event _ _ _ _ _ _ H2 (hd_queued w5_qp (Client [] [] [] []) 101 2 (ex_pub L2 None "y") (Q 2))) as H3.
  pose proof (met_event _ _ _ _ _ _ H3 (hd_sent _ _ 102 (SPub (arr_wire false 1 "x")))) as H4.
  pose proof (met_event _ _ _ _ _ _ H4 (hd_sent _ _ 102 (SPub (arr_wire false 2 "y")))) as H5.
  pose proof (met_receive _ _ _ _ _ _ H5 eq_refl) as H6.
  pose proof (met_event _ _ _ _ _ _ H6 (hd_conn _ _ 2)) as H7.
  pose proof (met_event _ _ _ _ _ _ H7 (hd_sent _ _ 104 (SPub (arr_wire true 1 "x")))) as H8.
  pose proof (met_event _ _ _ _ _ _ H8 (hd_sent _ _ 104 (SPub (arr_wire true 2 "y")))) as H9.
  pose proof (met_receive _ _ _ _ _ _ H9 eq_refl) as H10.
  pose proof (met_receive _ _ _ _ _ _ H10 eq_refl) as H11.
  eexists. split; [exact H11|]. reflexivity.
Qed.
(** A message that is overtaken would not be in order. *)
Example first_in_order_case : first_in_order [0; 0; 1; 0; 2]%nat /\ ~ first_in_order [1; 0]%nat.
Proof.
  split.
  - intros a i b E. repeat (destruct a as [|? a]; [injection E as <- E; cbn; first [left; tauto|right; repeat constructor]|injection E as <- E]). destruct a; discriminate E.
  - intros H. destruct (H [1%nat] 0%nat [] eq_refl) as [[X|[]]|X]; [discriminate X|]. inversion X as [|? ? Y]. inversion Y.
Qed.
