(** C72: what the server keeps for one client is limited by its configuration. *)
From Coq Require Import List Bool NArith String Lia.
From Verif Require Import Base BaseLemmas MsgModel PendingModel OutModel GlobModel Sess5Model Sess3Model ConnModel RegModel BrokerModel BrokerSpec LifeSpec InSpec BrokerProps LifeProps HoldProofs.
Import ListNotations.
Local Open Scope string_scope.
Local Open Scope N_scope.
Local Open Scope list_scope.

Local Notation usual h := ((forall p, In p h -> proper p) /\ (forall p, In p h -> after_1970 p)).

(** For the session of every connection, connected or waiting for its client to come back:
    messages waiting for acknowledgement, open QoS 2 identifiers, topic aliases, and messages
    in its inbox. *)
Theorem C72_kept5 : forall hash5 hash3 pick c h b k s, brun hash5 hash3 pick c h b -> usual h -> sess_at b k = Some (A5 s) ->
  N.of_nat (List.length (pq (o5_q (s_out s)))) <= cf_max_pending c /\ N.of_nat (List.length (s_qos2 s)) <= cf_inflight_server c /\
  N.of_nat (List.length (s_alias s)) <= cf_alias_max c /\ (List.length (waiting b (s_id s)) <= 8)%nat.
Proof. intros hash5 hash3 pick c h b k s R (P & T). exact (holds5 hash5 hash3 pick c h b k s R P T). Qed.
Theorem C72_kept3_partial : forall hash5 hash3 pick c h b k s, brun hash5 hash3 pick c h b -> usual h -> sess_at b k = Some (A3 s) ->
  N.of_nat (List.length (pq (o3_q (z_out s)))) <= cf_max_pending c /\ (List.length (waiting b (z_id s)) <= 8)%nat.
Proof. intros hash5 hash3 pick c h b k s R (P & T). exact (holds3 hash5 hash3 pick c h b k s R P T). Qed.

Definition x_w2 (p : pid) (a : option N) (t : string) : bev := EPacket5 0 20 (IPub (WPub5 false (Q2 p) false t "m" (PProps None a [] ""))).
(** Two QoS 2 messages with aliases, to itself, of which it takes one: one message waits for
    PUBREC, one is in the inbox. *)
Definition x_kept : list bev := ETick 100000 :: x_a true :: x_up 0 ++ [x_sub 0 "t"; x_w2 1 (Some 1) "t"; x_w2 2 (Some 2) "t"; EFlush 0 0; ENormal 0; EFlush 0 0].
Example C72_kept5_case : exists h b, x_run h b /\ usual h /\ exists s, sess_at b 0 = Some (A5 s) /\ 
  List.length (pq (o5_q (s_out s))) = 1%nat /\ List.length (s_qos2 s) = 2%nat /\ List.length (s_alias s) = 2%nat /\ List.length (waiting b (s_id s)) = 1%nat.
Proof. run_of x_kept. split; [split; [proper_of|after_of]|]. eexists. split; [vm_compute; reflexivity|]. repeat split. Qed.

(** MQTT 3: open QoS 2 identifiers are not limited by the configuration (here at most 10). *)
Definition x_v3q2 (n : nat) : list bev := map (fun p => EPacket3 0 20 (YPub (WPub3 false (Q2 (N.of_nat p)) false "t" "m"))) (seq 1 n).
Theorem C72_qos2_v3_refuted : exists h b, x_run h b /\ usual h /\ exists s, sess_at b 0 = Some (A3 s) /\
  cf_inflight_server config_default = 10 /\ List.length (z_qos2 s) = 20%nat.
Proof. run_of (ETick 100000 :: x_c3 false "a" true 60 None :: x_up 0 ++ x_v3q2 20). split; [split; [proper_of|after_of]|]. eexists. split; [vm_compute; reflexivity|]. split; reflexivity. Qed.

(** Subscriptions are not limited at all: one client can hold any number of them. *)
Lemma x_alone : exists h b, x_run h b /\ exists s, (forall p, In p h -> proper p) /\ PanicProofs.all_plain config_default h /\ PanicProofs.wills_named h /\
  aget 0 (b_tasks b) = Some (TOnline (A5 s)) /\ is_disconnected5 s = false /\ s_subs s = [].
Proof.
  run_of (ETick 100000 :: x_a true :: x_up 0). eexists. split; [|split; [|split; [|split; [vm_compute; reflexivity|split; reflexivity]]]].
  - intros p H. cbn in H. repeat (destruct H as [<-|H]; [exact Logic.I|]). destruct H.
  - intros p H. cbn in H. repeat (destruct H as [<-|H]; [constructor|]). destruct H.
  - intros k w H. exfalso. unfold asked_will, connect_will in H. cbn in H. repeat (destruct (_ =? _) in H; cbn in H); try contradiction;
    destruct k as [|[]]; cbn in H; contradiction.
Qed.
Theorem C72_subscriptions_refuted : forall n, exists h b s, x_run h b /\ sess_at b 0 = Some (A5 s) /\ List.length (s_subs s) = n.
Proof.
  intros n. destruct x_alone as (h & b & R & s & P & PL & WN & A & D & E).
  destruct (many x_h5 x_h3 x_pick h b s R P PL WN A D E n) as (h' & b' & s' & R' & _ & _ & _ & A' & _ & L & _).
  exists h', b', s'. split; [exact R'|]. split; [unfold sess_at; rewrite A'; reflexivity|exact L].
Qed.

Print Assumptions C72_kept5.
Print Assumptions C72_kept3_partial.
Print Assumptions C72_qos2_v3_refuted.
Print Assumptions C72_subscriptions_refuted.
