(** C13 for runs of the whole broker: an acknowledgement acts on the message it names and on
    nothing else, neither of the same client nor of another.

    [ack5 c len x] (LinkSpec) is the kind of acknowledgement packet [x] is and the identifier it
    names; [unfinished] (OrderSpec) lists what the server keeps for a client; [acknowledged],
    [awaits] and [part_of] are in AckSpec; [unacked5 c k h] (RecvSpec) are the identifiers in
    flight on connection [k], read off its packets; [dead] says that a lifetime is over. *)
From Coq Require Import List Bool NArith String.
From Verif Require Import Base MsgModel OutModel OutSpec OrderSpec GlobModel Sess5Model Sess3Model BrokerModel InSpec BrokerSpec LifeSpec LinkSpec RecvSpec RunProofs AckSpec AckProofs BrokerProps LifeProps.
Import ListNotations.
Local Open Scope N_scope.
Local Open Scope list_scope.

Section Props.
  Variables (hash5 : wpub5 -> N) (hash3 : wpub3 -> N) (pick : draw -> broker -> string -> string -> N).
  Local Notation brun := (BrokerSpec.brun hash5 hash3 pick).
  Local Notation bstep := (BrokerModel.bstep hash5 hash3 pick).
  Local Notation usual h := ((forall p, In p h -> proper p) /\ (forall p, In p h -> after_1970 p)).

  (** MQTT 5.  [u]: what is kept after the acknowledgement, before the server writes what is due
      and finds some of it expired.  What is in flight and waits for this acknowledgement is
      acknowledged; this, and that only expired messages are given up, needs that identifiers do
      not come round while in use (C10).  Missing: C13_not_in_flight_refuted. *)
  Theorem C13_broker_ack_partial : forall c h b k s len x a p b' out, brun c h b -> usual h -> sess_at b k = Some (A5 s) ->
    ack5 c len x = Some (a, p) -> bstep (EPacket5 k len x) b = BOk b' out ->
    (forall j, j <> k -> sess_at b' j = sess_at b j) /\
    exists s' u, sess_at b' k = Some (A5 s') /\
      let old := unfinished (o5_q (s_out s)) in let new := unfinished (o5_q (s_out s')) in
      (acknowledged a p old u \/ u = old) /\ part_of new u /\ ((forall y, In y u -> dead lifetime5 (seconds b) y = false) -> new = u) /\
      exists l log, life5 k h l /\ logs5 c l log /\ (few_enough c log ->
        (In p (unacked5 c k h) -> awaits a p old -> acknowledged a p old u) /\
        (forall y, In y u -> In y new \/ dead lifetime5 (seconds b) y = true)).
  Proof. intros c h b k s len x a p b' out R (P & T). exact (ack5_lemma hash5 hash3 pick c h b k s len x a p b' out R P T). Qed.

  (** MQTT 3: nothing expires. *)
  Theorem C13_v3_broker_ack_partial : forall c h b k s len x a p b' out, brun c h b -> usual h -> sess_at b k = Some (A3 s) ->
    ack3 c len x = Some (a, p) -> bstep (EPacket3 k len x) b = BOk b' out ->
    (forall j, j <> k -> sess_at b' j = sess_at b j) /\
    exists s', sess_at b' k = Some (A3 s') /\
      let old := unfinished (o3_q (z_out s)) in let new := unfinished (o3_q (z_out s')) in
      (acknowledged a p old new \/ new = old) /\
      exists l log, life3 k h l /\ logs3 c l log /\ (few_enough c log -> In p (unacked3 c k h) -> awaits a p old -> acknowledged a p old new).
  Proof. intros c h b k s len x a p b' out R (P & T). exact (ack3_lemma hash5 hash3 pick c h b k s len x a p b' out R P T). Qed.
End Props.
Print Assumptions C13_broker_ack_partial.
Print Assumptions C13_v3_broker_ack_partial.

(** Two messages are in flight to a client of each version.  Each acknowledges the second. *)
Definition x_acks : list bev := x_some ++ [x_pub 3 "t/x"; EFlush 3 0; EFlush 3 1; ENormal 2; ENormal 1; x_pub 3 "t/y"; EFlush 3 0; EFlush 3 1; ENormal 2; ENormal 1].
Example ack_case : exists h b, x_run h b /\ (forall p, In p h -> proper p) /\ (forall p, In p h -> after_1970 p) /\ exists s b' s' m1 m2,
  sess_at b 2 = Some (A5 s) /\ ack5 config_default 4 (IPuback 2) = Some (AckPuback, 2) /\ In 2 (unacked5 config_default 2 h) /\
  x_step (EPacket5 2 4 (IPuback 2)) b = BOk b' [] /\ sess_at b' 2 = Some (A5 s') /\
  unfinished (o5_q (s_out s)) = [(1, Some m1); (2, Some m2)] /\ unfinished (o5_q (s_out s')) = [(1, Some m1)].
Proof.
  run_of x_acks. split; [proper_of|]. split; [after_of|]. do 5 eexists. split; [reflexivity|]. split; [reflexivity|]. split; [vm_compute; auto|]. split; [vm_compute; reflexivity|]. split; [reflexivity|].
  split; reflexivity.
Qed.
Example ack_case3 : exists h b, x_run h b /\ (forall p, In p h -> proper p) /\ (forall p, In p h -> after_1970 p) /\ exists s b' s' o m1 m2,
  sess_at b 1 = Some (A3 s) /\ ack3 config_default 4 (YPubrec 2) = Some (AckPubrec, 2) /\ In 2 (unacked3 config_default 1 h) /\
  x_step (EPacket3 1 4 (YPubrec 2)) b = BOk b' o /\ sess_at b' 1 = Some (A3 s') /\
  unfinished (o3_q (z_out s)) = [(1, Some m1); (2, Some m2)] /\ unfinished (o3_q (z_out s')) = [(1, Some m1); (2, None)].
Proof.
  run_of x_acks. split; [proper_of|]. split; [after_of|]. do 6 eexists. split; [reflexivity|]. split; [reflexivity|]. split; [vm_compute; auto|]. split; [vm_compute; reflexivity|]. split; [reflexivity|].
  split; reflexivity.
Qed.
