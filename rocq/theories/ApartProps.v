(** C69: clients do not disturb each other.

    [brun hash5 hash3 pick c h b]: [b] is a state the server can be in after the steps [h]
    (BrokerProps).  [aget j (b_tasks b)]: what connection [j] is at, with its session;
    [waiting b d]: the inbox of client [d], where others leave messages for it.  The words
    are in ApartSpec. *)
From Coq Require Import List Bool NArith String Lia.
From Verif Require Import Base BaseLemmas TopicModel TopicSpec MsgModel PendingModel OutModel RouteModel RouteSpec RetainModel GlobModel Sess5Model Sess3Model ConnModel RegModel BrokerModel
  OutSpec DelivSpec BrokerSpec LifeSpec AccSpec RunProofs BrokerProps LifeProps ApartSpec ApartProofs.
Import ListNotations.
Local Open Scope N_scope.
Local Open Scope list_scope.

Section Props.
  Variables (hash5 : wpub5 -> N) (hash3 : wpub3 -> N) (pick : draw -> broker -> string -> string -> N).
  Local Notation bstep := (bstep hash5 hash3 pick).
  Local Notation brun := (brun hash5 hash3 pick).

  (** Whatever another connection does, and whatever its client sends: connection [j] and its
      session stay exactly as they are, nothing is written to its client, none of its wills is
      published and it is not closed. *)
  Theorem C69_untouched : forall c h b e b' out j t a, brun c h b -> bstep e b = BOk b' out -> aget j (b_tasks b) = Some t -> t_sess t = Some a -> who e <> Some j ->
    aget j (b_tasks b') = Some t /\ (forall o, In o out -> about o <> j).
  Proof. intros c h b e b' out j t a R. exact (step_only hash5 hash3 pick e b b' out j t a (run_good _ _ _ _ _ _ R)). Qed.

  (** All that others can do to it is to leave a message in its inbox, one at a time and at
      the end. *)
  Theorem C69_inbox : forall c h b e b' out j t a, brun c h b -> bstep e b = BOk b' out -> aget j (b_tasks b) = Some t -> t_sess t = Some a -> who e <> Some j ->
    exists more, waiting b' (a_id a) = waiting b (a_id a) ++ more /\ (more = [] \/ exists k m, e = EFlush k (a_id a) /\ more = [m]).
  Proof. intros c h b e b' out j t a R. exact (inbox_step hash5 hash3 pick e b b' out j t a (run_good _ _ _ _ _ _ R)). Qed.

  (** A client that is served is no longer served only for a cause of its own: its socket, its
      packet, its DISCONNECT, its silence, or another connection with its identifier. *)
  Theorem C69_cause : forall c h b e b' out j a, brun c h b -> bstep e b = BOk b' out -> aget j (b_tasks b) = Some (TOnline a) -> (forall a', aget j (b_tasks b') <> Some (TOnline a')) ->
    cause h e j a.
  Proof. exact (why_ended hash5 hash3 pick). Qed.

  (** DISCONNECT is written only in answer to the client's own packet. *)
  Theorem C69_disconnect_cause : forall e b b' out j code r, bstep e b = BOk b' out -> In (OPkt5 j (KDisconnect code r)) out ->
    (exists len x, e = EPacket5 j len x) \/ (exists reason, e = EMalformed j reason).
  Proof. exact (why_disconnect hash5 hash3 pick). Qed.
End Props.

(** ** Cases *)

(** Client "b" floods: it is disconnected for a malformed packet while "a" is served, and
    messages from "b" wait for "a". *)
Definition x_two_on : list bev := ETick 100000 :: x_a true :: x_up 0 ++ [x_sub 0 "t"] ++ [x_c5 "b" true 60 None None] ++ x_up 1 ++ [x_pub 1 "t"].
Example C69_untouched_case : exists h b, x_run h b /\ exists a, aget 0 (b_tasks b) = Some (TOnline a) /\
  (exists b' code r, x_step (EMalformed 1 "bad") b = BOk b' [OPkt5 1 (KDisconnect code r)] /\ aget 1 (b_tasks b') <> aget 1 (b_tasks b)) /\
  (exists b', x_step (EFlush 1 (a_id a)) b = BOk b' [] /\ waiting b (a_id a) = [] /\ List.length (waiting b' (a_id a)) = 1%nat).
Proof.
  run_of x_two_on. eexists. split; [reflexivity|]. split.
  - do 3 eexists. split; [vm_compute; reflexivity|]. intros H. vm_compute in H. discriminate H.
  - eexists. split; [vm_compute; reflexivity|]. split; reflexivity.
Qed.
(** Connections end by being taken over, and by their silence. *)
Example C69_taken_over_case : exists h b, x_run h b /\ exists a, aget 0 (b_tasks b) = Some (TOnline a) /\ exists b', x_step (EControl 0) b = BOk b' [] /\ aget 0 (b_tasks b') = None.
Proof. run_of (ETick 100000 :: x_a true :: x_up 0 ++ [x_a false; EPut 1]). eexists. split; [reflexivity|]. eexists. split; [vm_compute; reflexivity|reflexivity]. Qed.
Example C69_silent_case : exists h b, x_run h b /\ exists a, aget 0 (b_tasks b) = Some (TOnline a) /\ exists b' a', x_step (EControl 0) b = BOk b' [] /\ aget 0 (b_tasks b') = Some (TEnd a').
Proof. run_of (ETick 100000 :: x_a true :: x_up 0 ++ [ETick 90001; EFire 0; EFire 0]). eexists. split; [reflexivity|]. do 2 eexists. split; [vm_compute; reflexivity|reflexivity]. Qed.

Print Assumptions C69_untouched.
Print Assumptions C69_inbox.
Print Assumptions C69_cause.
Print Assumptions C69_disconnect_cause.
