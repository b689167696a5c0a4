(** C54: messages between clients are accounted for.

    [brun hash5 hash3 pick c h b]: [b] is a state the server can be in after the steps [h]
    (BrokerProps).  A message goes from the queue the sender's session keeps for the receiver
    ([queued_in k d h b]: what connection [k] has queued for client [d]) to the messages
    waiting for the receiver ([passed_in d h]: what was passed on to [d], with the connection
    and the client it came from) to the receiver's session ([taken_in d h]).  All are read off
    the history (AccSpec). *)
From Coq Require Import List Bool NArith String.
From Verif Require Import Base MsgModel OutModel GlobModel Sess5Model Sess3Model ConnModel BrokerModel DelivSpec InSpec BrokerSpec LifeSpec RunProofs BrokerFacts AccSpec AccProofs AccRecv BrokerProps LifeProps.
Import ListNotations.
Local Open Scope N_scope.
Local Open Scope list_scope.

Section Props.
  Variables (hash5 : wpub5 -> N) (hash3 : wpub3 -> N) (pick : draw -> broker -> string -> string -> N).
  Local Notation bstep := (bstep hash5 hash3 pick).
  Local Notation brun := (brun hash5 hash3 pick).

  (** What was passed on to a client is what was taken from its messages and what still waits,
      in this order: nothing is lost, made up, doubled or overtaken, and the sender's id is kept. *)
  Theorem C54_channel : forall c h b d, brun c h b -> map snd (passed_in d h) = taken_in d h ++ waiting b d.
  Proof. exact (channel_lemma hash5 hash3 pick). Qed.
  (** What a connection has queued for a client, it has passed on, in this order, or still has
      queued; unless it found nobody receiving for the client. *)
  Theorem C54_sender : forall c h b k a d, brun c h b -> sess_at b k = Some a -> (forall p, In p h -> ~ cut_off k d p) ->
    queued_in k d h b = passed_by k (passed_in d h) ++ queue_of (a_bcast a) d.
  Proof. exact (sender_lemma hash5 hash3 pick). Qed.
  (** When the connection ends (and its session ends or stays behind) all was passed on. *)
  Theorem C54_done : forall c h b k b' out d, brun c h b -> bstep (EDone k) b = BOk b' out -> (forall p, In p h -> ~ cut_off k d p) ->
    queued_in k d h b = passed_by k (passed_in d h).
  Proof. exact (done_lemma hash5 hash3 pick). Qed.
  (** What was passed on to a client is what its session has received, on whichever
      connections, and what waits for it. *)
  Theorem C54_receiver5 : forall c h b k s, brun c h b -> (forall p, In p h -> proper p) -> sess_at b k = Some (A5 s) ->
    exists l, life5 k h l /\ srun5 hash5 c s l /\ map (fun x => snd (snd x)) (passed_in (s_id s) h) = heard5 l ++ map snd (waiting b (s_id s)).
  Proof. exact (arrived5 hash5 hash3 pick). Qed.
  Theorem C54_receiver3 : forall c h b k s, brun c h b -> (forall p, In p h -> proper p) -> sess_at b k = Some (A3 s) ->
    exists l, life3 k h l /\ srun3 hash3 c s l /\ map (fun x => snd (snd x)) (passed_in (z_id s) h) = heard3 l ++ map snd (waiting b (z_id s)).
  Proof. exact (arrived3 hash5 hash3 pick). Qed.
  (** The count a session keeps of the messages it has queued is right, so that it never goes
      below zero. *)
  Theorem C54_count : forall c h b k a, brun c h b -> sess_at b k = Some a -> a_bcnt a = N.of_nat (List.length (List.concat (map snd (a_bcast a)))).
  Proof. exact (count_lemma hash5 hash3 pick). Qed.
End Props.

(** ** Cases that meet the hypotheses *)
(** "p" publishes twice; "a" has taken one message, one waits; "c" has taken one and one is
    still queued for it.  Nobody was cut off. *)
Definition x_acc : list bev := x_some ++ [x_pub 3 "t/x"; EFlush 3 0; EFlush 3 1; ENormal 2; x_pub 3 "t/y"; EFlush 3 0; ENormal 1].
Ltac uncut := apply Forall_forall; repeat (apply Forall_cons; [intros (E & C); cbn [w_e] in E; first [discriminate E|vm_compute in C; discriminate C]|]); apply Forall_nil.
Example accounting_case : exists h b, x_run h b /\ (forall p, In p h -> proper p) /\ exists a m1 m2 n1 n2, sess_at b 3 = Some a /\
  (forall p, In p h -> ~ cut_off 3 0 p) /\ (forall p, In p h -> ~ cut_off 3 1 p) /\
  queued_in 3 0 h b = [m1; m2] /\ passed_in 0 h = [(3, (2, m1)); (3, (2, m2))] /\ taken_in 0 h = [(2, m1)] /\ waiting b 0 = [(2, m2)] /\
  queued_in 3 1 h b = [n1; n2] /\ passed_in 1 h = [(3, (2, n1))] /\ taken_in 1 h = [(2, n1)] /\ queue_of (a_bcast a) 1 = [n2] /\ a_bcnt a = 1 /\
  (exists s, sess_at b 2 = Some (A5 s) /\ s_id s = 0) /\ (exists s, sess_at b 1 = Some (A3 s) /\ z_id s = 1).
Proof.
  run_of x_acc. split; [proper_of|]. do 5 eexists. split; [reflexivity|]. split; [uncut|]. split; [uncut|].
  repeat (split; [vm_compute; reflexivity|]). split; eexists; split; reflexivity.
Qed.
Example done_case : exists h b, x_run h b /\ (forall p, In p h -> ~ cut_off 3 0 p) /\ (exists b' out, x_step (EDone 3) b = BOk b' out) /\ List.length (queued_in 3 0 h b) = 1%nat.
Proof. run_of (x_some ++ [x_pub 3 "t/x"; EFlush 3 0; EFlush 3 1; EFlush 3 0; EFlush 3 1; EClose 3; EEnd 3 true]). split; [uncut|]. split; [do 2 eexists; vm_compute; reflexivity|reflexivity]. Qed.

(** ** Finding: a takeover loses messages *)
(** A client publishes with QoS 1 and gets PUBACK; its message is queued for a client that
    receives; then the client connects again and the new connection takes the session over.
    The message is never passed on, whatever happens next: build_state keeps the queue
    (v5/message.rs:356-371), session_connect does not take it over (v5/packet/connect.rs:230-241). *)
Definition x_taken : list bev := x_some ++ [x_pub 3 "t/x"; x_c5 "p" false 60 None None] ++ x_over 3 4 ++ x_up 4.
Theorem C54_takeover_refuted : exists h b, x_run h b /\ (forall p, In p h -> ~ cut_off 3 0 p /\ ~ In (OClosed 3) (w_out p)) /\
  (exists p, In p h /\ w_out p = [OPkt5 3 (KPuback 7 0)]) /\ (exists m, queued_in 3 0 h b = [m]) /\ received_for b 0 = true /\
  forall h2 b2, bgo x_h5 x_h3 x_pick b h2 b2 -> passed_by 3 (passed_in 0 (h2 ++ h)) = [].
Proof.
  run_of x_taken. split.
  { apply Forall_forall. repeat (apply Forall_cons; [split; [intros (E & C); cbn [w_e] in E; first [discriminate E|vm_compute in C; discriminate C]|cbn; intuition discriminate]|]). apply Forall_nil. }
  split; [eexists; split; [do 6 right; left; reflexivity|reflexivity]|]. split; [eexists; vm_compute; reflexivity|]. split; [reflexivity|].
  match goal with |- forall h2 b2, bgo _ _ _ ?b h2 b2 -> passed_by 3 (passed_in 0 (h2 ++ ?h)) = [] => exact (lost_lemma x_h5 x_h3 x_pick config_default h b 3 0 (trace_new x_h5 x_h3 x_pick config_default x_taken h b ltac:(vm_compute; reflexivity)) eq_refl eq_refl ltac:(vm_compute; reflexivity)) end.
Qed.

Print Assumptions C54_channel.
Print Assumptions C54_sender.
Print Assumptions C54_done.
Print Assumptions C54_receiver5.
Print Assumptions C54_receiver3.
Print Assumptions C54_count.
Print Assumptions C54_takeover_refuted.
