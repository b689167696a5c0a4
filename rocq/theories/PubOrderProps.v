(** C86: messages from one publisher reach a subscriber, and its application, in the order in which
    they were published.

    [queued_in j d h b] is what connection [j] accepted for client [d], in the order of its PUBLISH
    packets, and [passed_in d h] what was passed on to [d], with the connection it came from (both
    AccSpec).  [arrives] is what the client of a session may have received, and [met] the client that
    follows the standard (ArriveSpec, CliSpec). *)
From Coq Require Import List Bool NArith String Lia.
From Verif Require Import Base MsgModel PendingModel OutModel OutSpec GlobModel Sess5Model Sess3Model ConnModel InSpec LinkSpec RegModel BrokerModel BrokerSpec LifeSpec AccSpec CliSpec
  ArriveSpec BrokerProps LifeProps PubOrderSpec PubOrderProofs.
Import ListNotations.
Local Open Scope N_scope.
Local Open Scope list_scope.

Section Props.
  Variables (hash5 : wpub5 -> N) (hash3 : wpub3 -> N) (pick : draw -> broker -> string -> string -> N).
  Local Notation brun := (brun hash5 hash3 pick).
  Local Notation usual h := ((forall p, In p h -> proper p) /\ (forall p, In p h -> after_1970 p)).

  (** From the publisher's PUBLISH packets to the messages passed on: these are the first of what
      connection [j] accepted for the client, in the same order, whether it is still there or not. *)
  Theorem C86_from_publisher : forall c h b k a j, brun c h b -> sess_at b k = Some a ->
    exists rest, queued_in j (a_id a) h b = passed_by j (passed_in (a_id a) h) ++ rest.
  Proof. exact (from_publisher hash5 hash3 pick). Qed.

  (** From the messages passed on to the client and its application. *)
  Theorem C86_to_client : forall c h b k s, brun c h b -> usual h -> sess_at b k = Some (A5 s) ->
    exists l log src, life5 k h l /\ fed5 c l log src /\
      (forall d r, arrives log d r -> as_published wpid5 carries5 (published5 (s_id s) h) log src (pubs wpid5 r)) /\
      (forall cl, met w5_qp client_new log cl -> as_published wpid5 carries5 (published5 (s_id s) h) log src (with_qos1 w5_qp (c_app cl)) /\
         (few_enough c log -> expired_unsent log wpid5 -> as_published wpid5 carries5 (published5 (s_id s) h) log src (with_qos2 w5_qp (c_app cl)))).
  Proof. intros c h b k s R (P & T) A. exact (order5 hash5 hash3 pick c h b k R P T s A). Qed.
  Theorem C86_v3_to_client : forall c h b k s, brun c h b -> usual h -> sess_at b k = Some (A3 s) ->
    exists l log src, life3 k h l /\ fed3 c l log src /\
      (forall d r, arrives log d r -> as_published wpid3 carries3 (published3 (z_id s) h) log src (pubs wpid3 r)) /\
      (forall cl, met w3_qp client_new log cl -> as_published wpid3 carries3 (published3 (z_id s) h) log src (with_qos1 w3_qp (c_app cl)) /\
         (few_enough c log -> as_published wpid3 carries3 (published3 (z_id s) h) log src (with_qos2 w3_qp (c_app cl)))).
  Proof. intros c h b k s R (P & T) A. exact (order3 hash5 hash3 pick c h b k R P T s A). Qed.
End Props.
(** A message without a source among those handed over ([None]) was queued while the session
    answered a SUBSCRIBE: it is a retained message. *)
Theorem C86_other : forall c l log src, fed5 c l log src -> forall i t p m, nth_error (OutSpec.queued log) i = Some (t, p, m) -> nth_error src i = Some None ->
  exists len x g out, In (VPkt t len x g, out) l /\ by_subscribe5 x.
Proof. intros c l log src F i t p m. exact (others5 c l log src F i (t, p, m)). Qed.
Theorem C86_v3_other : forall c l log src, fed3 c l log src -> forall i t p m, nth_error (OutSpec.queued log) i = Some (t, p, m) -> nth_error src i = Some None ->
  exists len x g out, In (UPkt t len x g, out) l /\ by_subscribe3 x.
Proof. intros c l log src F i t p m. exact (others3 c l log src F i (t, p, m)). Qed.
Print Assumptions C86_from_publisher.
Print Assumptions C86_to_client.
Print Assumptions C86_v3_to_client.
Print Assumptions C86_other.
Print Assumptions C86_v3_other.

(** "p" publishes "t/x" and "t/y"; "a" (MQTT 5) and "c" (MQTT 3) are subscribed, and both messages
    are on their way to each of them. *)
Definition x_pair : list bev := x_some ++ [x_pub 3 "t/x"; EFlush 3 0; EFlush 3 1; ENormal 2; x_pub 3 "t/y"; EFlush 3 0; EFlush 3 1; ENormal 1; ENormal 2; ENormal 1].
Example C86_case : exists h b, x_run h b /\ (forall p, In p h -> proper p) /\ (forall p, In p h -> after_1970 p) /\ (exists a, sess_at b 3 = Some a) /\
  map nm_topic (queued_in 3 0 h b) = ["t/x"; "t/y"]%string /\
  map (fun x => nm_topic (snd (snd x))) (passed_in 0 h) = ["t/x"; "t/y"]%string /\ map (fun x => nm_topic (snd (snd x))) (passed_in 1 h) = ["t/x"; "t/y"]%string /\
  (exists s, sess_at b 2 = Some (A5 s) /\ s_id s = 0 /\ unacked5 config_default 2 h = [2; 1]) /\
  (exists s, sess_at b 1 = Some (A3 s) /\ z_id s = 1 /\ unacked3 config_default 1 h = [2; 1]).
Proof.
  run_of x_pair. split; [proper_of|]. split; [after_of|]. split; [eexists; reflexivity|]. split; [vm_compute; reflexivity|]. split; [vm_compute; reflexivity|]. split; [vm_compute; reflexivity|].
  split; eexists; (split; [reflexivity|]; split; vm_compute; reflexivity).
Qed.

(** The events of a session that gets two messages, with their log; and a log in which the second
    message handed over was queued first, which would not be in the order of publication. *)
Definition o_msg (t : string) : nmsg := NM5 (NMsg5 false L1 t "m" ["t/+"%string] L1 (PProps None None [] "") 10).
Definition o_pub (t : string) : pub5 := Pub5 t L1 false "m" (PProps None None [] "").
Definition o_wire (p : pid) (t : string) : wpub5 := WPub5 false (Q1 p) false t "m" (PProps None None [] "").
Definition o_life : list (sev5 * list pkt5) := [(VMsg 100 (o_msg "t/x"), [KPub (o_wire 1 "t/x")]); (VMsg 101 (o_msg "t/y"), [KPub (o_wire 2 "t/y")])].
Definition o_log : list (oev pub5 wpub5) :=
  [EConn 10; EQueued 100 1 (o_pub "t/x"); ESent 100 (SPub (o_wire 1 "t/x")); EQueued 101 2 (o_pub "t/y"); ESent 101 (SPub (o_wire 2 "t/y"))].
Example fed_case : fed5 config_default o_life o_log [Some 0; Some 1]%nat.
Proof.
  assert (E : forall t p s, logged5 config_default (VMsg t (o_msg s)) [KPub (o_wire p s)] [EQueued t p (o_pub s); ESent t (SPub (o_wire p s))]).
  { intros t p s. exists [], [EQueued t p (o_pub s); ESent t (SPub (o_wire p s))]. repeat (split; try reflexivity). repeat constructor. }
  exact (fd_step _ _ _ _ _ _ _ (fd_step _ _ _ _ _ _ _ (fd_new config_default 10) (E 100 1 "t/x"%string)) (E 101 2 "t/y"%string)).
Qed.
Example order_matters : forall P : wpub5 -> nat -> Prop, (forall w n, P w n) ->
  as_published wpid5 carries5 P o_log [Some 0; Some 1]%nat [o_wire 1 "t/x"; o_wire 2 "t/y"] /\
  ~ as_published wpid5 carries5 P o_log [Some 1; Some 0]%nat [o_wire 1 "t/x"; o_wire 2 "t/y"].
Proof.
  intros P HP.
  assert (S : forall w i, shows wpid5 carries5 o_log w i -> wpid5 w = Some (N.of_nat (S i))).
  { intros w i (t & p & m & t' & E & W & _). rewrite W. destruct i as [|[|i]]; cbn in E; [injection E as <- <- <-; reflexivity|injection E as <- <- <-; reflexivity|destruct i; discriminate]. }
  split.
  - exists [0; 1]%nat. split; [|split].
    + constructor; [|constructor; [|constructor]].
      * exists 100, 1, (o_pub "t/x"), 100. repeat (split; try reflexivity). now left.
      * exists 101, 2, (o_pub "t/y"), 101. repeat (split; try reflexivity). now left.
    + repeat constructor; eexists; (split; [reflexivity|]); auto.
    + intros [|[|u]] [|[|v]] i i' n n' L U V _ X Y; cbn in *; try (now destruct v); try (now destruct u); try (exfalso; inversion L; fail); try discriminate.
      * injection U as <-. injection V as <-. cbn in *. injection X as <-. injection Y as <-. auto.
      * exfalso. apply PeanoNat.Nat.succ_lt_mono in L. inversion L.
  - intros (x & X & _ & O). inversion X as [|? i ? x1 S1 F1]; subst. inversion F1 as [|? j ? x2 S2 F2]; subst. inversion F2; subst. apply S in S1, S2. injection S1 as S1. injection S2 as S2.
    assert (i = 0%nat) by lia. assert (j = 1%nat) by lia. subst.
    specialize (O 0%nat 1%nat 0%nat 1%nat 1%nat 0%nat (le_n _) eq_refl eq_refl). cbn in O. assert (K : (1 <= 0)%nat) by (apply O; auto; intros [Z|[]]; discriminate Z). inversion K.
Qed.
(** A retained message that is queued on a SUBSCRIBE. *)
Example other_case : forall g, fed5 config_default [(VPkt 100 10 (ISub 1 None [("t/x"%string, SubOpts L1 false false RH_send)]) g, [KPub (o_wire 1 "t/x")])]
  [EConn 10; EQueued 100 1 (o_pub "t/x"); ESent 100 (SPub (o_wire 1 "t/x"))] [None].
Proof.
  intros g. refine (fd_step _ _ _ _ (VPkt 100 10 _ g) _ [EQueued 100 1 (o_pub "t/x"); ESent 100 (SPub (o_wire 1 "t/x"))] (fd_new config_default 10) _).
  exists [], [EQueued 100 1 (o_pub "t/x"); ESent 100 (SPub (o_wire 1 "t/x"))]. split; [reflexivity|]. split; [reflexivity|]. split; [reflexivity|].
  repeat constructor. do 3 eexists. reflexivity.
Qed.
