(** C74: a message that was sent stays until the client acknowledges it.  Vocabulary: StaySpec
    (a message to be sent again, an exchange left open, a lifetime that is over), LifeSpec
    ([life5], [life3]: what one client sees of a broker run), LinkSpec ([logs5], [few_enough]:
    packet identifiers are used for one message at a time). *)
From Coq Require Import List Bool NArith String Lia.
From Verif Require Import Base BaseLemmas MsgModel PendingModel OutModel OutSpec OutProps GlobModel Sess5Model Sess3Model ConnModel InSpec InProps LinkSpec LinkProps RegModel BrokerModel
  BrokerSpec LifeSpec BrokerFacts BrokerProps LifeProps OrderSpec OrderProps StaySpec StayProofs.
Import ListNotations.
Local Open Scope N_scope.
Local Open Scope list_scope.

Section Props.
  Variables (hash5 : wpub5 -> N) (hash3 : wpub3 -> N) (pick : draw -> broker -> string -> string -> N).
  Local Notation brun := (brun hash5 hash3 pick).
  Local Notation usual h := ((forall p, In p h -> proper p) /\ (forall p, In p h -> after_1970 p)).

  (** A PUBLISH with identifier [p] is written to the client.  As long as the client neither
      acknowledges [p] nor starts afresh, the server keeps the message to send it again; the
      one exception is a message whose lifetime ends after the client connected anew (see
      [C74_kept_refuted]). *)
  Theorem C74_kept_partial : forall c h b k s, brun c h b -> usual h -> sess_at b k = Some (A5 s) ->
    exists l log, life5 k h l /\ logs5 c l log /\
      (few_enough c log -> forall l1 e out l2 w p t,
        l = l1 ++ (e, out) :: l2 -> In (KPub w) out -> wpid5 w = Some p -> when5 e = Some t -> open5 c p l2 ->
        exists t0 m, carries5 t0 t m w /\ (to_resend5 s p t0 m \/ outlived5 l2 t0 m)).
  Proof. intros c h b k s R (P & T) A. exact (broker_kept5 hash5 hash3 pick c h b k R P T s A). Qed.

  (** MQTT 3 messages have no lifetime: they are kept. *)
  Theorem C74_v3_kept : forall c h b k s, brun c h b -> usual h -> sess_at b k = Some (A3 s) ->
    exists l log, life3 k h l /\ logs3 c l log /\
      (few_enough c log -> forall l1 e out l2 w p t,
        l = l1 ++ (e, out) :: l2 -> In (JPub w) out -> wpid3 w = Some p -> when3 e = Some t -> open3 c p l2 ->
        exists t0 m, carries3 t0 t m w /\ to_resend3 s p t0 m).
  Proof. intros c h b k s R (P & T) A. exact (broker_kept3 hash5 hash3 pick c h b k R P T s A). Qed.

  (** On one connection time takes nothing away: without a new connection a sent message of
      MQTT 5 is kept too, and so is one without lifetime over any number of connections. *)
  Theorem C74_connection : forall c h b k s, brun c h b -> usual h -> sess_at b k = Some (A5 s) ->
    exists l log, life5 k h l /\ logs5 c l log /\
      (few_enough c log -> forall l1 e out l2 w p t,
        l = l1 ++ (e, out) :: l2 -> In (KPub w) out -> wpid5 w = Some p -> when5 e = Some t -> open5 c p l2 ->
        (forall now uuid pc data o, ~ In (VTake now uuid pc data, o) l2) \/ pp_expiry (w5_props w) = None ->
        exists t0 m, carries5 t0 t m w /\ to_resend5 s p t0 m).
  Proof. intros c h b k s R (P & T) A. exact (broker_connection5 hash5 hash3 pick c h b k R P T s A). Qed.
End Props.

(** ** The full claim is false: a lifetime that ends while the client is away.

    Client "a" is sent a message with an expiry interval of two seconds under identifier 1 and
    loses its connection before it can acknowledge.  Three seconds later it is back and is told
    that its session is there.  It never acknowledged, and neither did anyone else, but the
    message is gone. *)
Definition x_stay : list bev := [ETick 100000; x_a true] ++ x_up 0 ++ [x_sub 0 "t"; x_c5 "b" true 60 None None] ++ x_up 1 ++
  [x_pube 1 (Some 2) "one"; EFlush 1 0; ENormal 0].
Definition x_away : list bev := x_down 0 ++ [ETick 3000; x_a false] ++ x_over 0 2 ++ x_up 2.
Definition acked5 (e : bev) : Prop := match e with EPacket5 _ _ (IPuback _ | IPubrec _ | IPubcomp _) => True | _ => False end.

Theorem C74_kept_refuted : exists h b s w, x_run h b /\ (forall p, In p h -> proper p) /\ (forall p, In p h -> after_1970 p) /\
  (exists p, In p h /\ In (OPkt5 0 (KPub w)) (w_out p)) /\ wpid5 w = Some 1 /\ w5_payload w = "one"%string /\
  (forall p, In p h -> ~ acked5 (w_e p)) /\
  (exists p x, In p h /\ In (OConnack5 2 x) (w_out p) /\ ka_present x = true) /\
  sess_at b 2 = Some (A5 s) /\ s_ident s = "a"%string /\ pq (o5_q (s_out s)) = [].
Proof.
  assert (K : exists h b, x_run h b /\ (forall p, In p h -> proper p) /\ (forall p, In p h -> after_1970 p) /\ exists s w,
    (exists p, In p h /\ In (OPkt5 0 (KPub w)) (w_out p)) /\ wpid5 w = Some 1 /\ w5_payload w = "one"%string /\
    (forall p, In p h -> ~ acked5 (w_e p)) /\
    (exists p x, In p h /\ In (OConnack5 2 x) (w_out p) /\ ka_present x = true) /\
    sess_at b 2 = Some (A5 s) /\ s_ident s = "a"%string /\ pq (o5_q (s_out s)) = []).
  { run_of (x_stay ++ x_away). split; [proper_of|]. split; [after_of|]. do 2 eexists.
    split. { eexists. split; [do 10 right; left; reflexivity|left; reflexivity]. }
    split; [reflexivity|]. split; [reflexivity|].
    split. { intros p. revert p. apply Forall_forall. repeat (apply Forall_cons; [cbn; auto|]). apply Forall_nil. }
    split. { do 2 eexists. split; [do 1 right; left; reflexivity|]. split; [left; reflexivity|reflexivity]. }
    split; [reflexivity|]. split; reflexivity. }
  destruct K as (h & b & R & P & T & s & w & K). exists h, b, s, w. auto.
Qed.

(** A run in which the hypotheses hold and the message is still there: "a" has been sent the
    message and has not acknowledged it; then it is away for one second and back. *)
Definition x_soon : list bev := x_down 0 ++ [ETick 1000; x_a false] ++ x_over 0 2 ++ x_up 2.
Example stay_case : exists h b, x_run h b /\ (forall p, In p h -> proper p) /\ (forall p, In p h -> after_1970 p) /\ exists s w m,
  (exists p, In p h /\ In (OPkt5 0 (KPub w)) (w_out p)) /\ wpid5 w = Some 1 /\
  sess_at b 2 = Some (A5 s) /\ to_resend5 s 1 100 m /\ p5_payload m = "one"%string.
Proof.
  run_of (x_stay ++ x_soon). split; [proper_of|]. split; [after_of|]. do 3 eexists.
  split. { eexists. split; [do 10 right; left; reflexivity|left; reflexivity]. }
  split; [reflexivity|]. split; [reflexivity|]. split; [eexists; left; reflexivity|reflexivity].
Qed.
Print Assumptions C74_kept_partial.
Print Assumptions C74_v3_kept.
Print Assumptions C74_connection.
Print Assumptions C74_kept_refuted.
