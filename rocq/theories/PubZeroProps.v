(** C86, QoS 0: such messages are written at the moment they are handed over, so that they are
    written in the order in which they were passed on.

    [zeros5] are the QoS 0 PUBLISH packets a session wrote, each with the number of the message it
    was just handed (PubZeroSpec).  [life5 k h l] are the events [l] of the session that connection
    [k] holds (LifeSpec), and [published5] says which of the messages passed on a PUBLISH is
    (PubOrderSpec). *)
From Coq Require Import List Bool NArith String Sorting.Sorted.
From Verif Require Import Base MsgModel OutModel GlobModel Sess5Model Sess3Model ConnModel InSpec LinkSpec RegModel BrokerModel BrokerSpec LifeSpec AccSpec BrokerProps LifeProps
  PubOrderSpec PubOrderProps PubZeroSpec PubZeroProofs.
Import ListNotations.
Local Open Scope N_scope.
Local Open Scope list_scope.

Section Props.
  Variables (hash5 : wpub5 -> N) (hash3 : wpub3 -> N) (pick : draw -> broker -> string -> string -> N).
  Local Notation brun := (brun hash5 hash3 pick).
  Local Notation usual h := ((forall p, In p h -> proper p) /\ (forall p, In p h -> after_1970 p)).

  (** A QoS 0 PUBLISH is written when a message is handed over, and then it is this message, or
      while a SUBSCRIBE is answered.  The messages are written in the order in which they were
      passed on, each at most once. *)
  Theorem C86_qos0 : forall c h b k s, brun c h b -> usual h -> sess_at b k = Some (A5 s) ->
    exists l, life5 k h l /\
      (forall w n, In (w, Some n) (zeros5 [] l) -> published5 (s_id s) h w n) /\
      StronglySorted lt (numbers (zeros5 [] l)) /\
      (forall e out, In (e, out) l -> zero5 out <> [] -> (exists t m, e = VMsg t m) \/ exists t len x g, e = VPkt t len x g /\ by_subscribe5 x).
  Proof. intros c h b k s R (P & T) A. exact (zero_order5 hash5 hash3 pick c h b k R P T s A). Qed.
  Theorem C86_v3_qos0 : forall c h b k s, brun c h b -> usual h -> sess_at b k = Some (A3 s) ->
    exists l, life3 k h l /\
      (forall w n, In (w, Some n) (zeros3 [] l) -> published3 (z_id s) h w n) /\
      StronglySorted lt (numbers (zeros3 [] l)) /\
      (forall e out, In (e, out) l -> zero3 out <> [] -> (exists t m, e = UMsg t m) \/ exists t len x g, e = UPkt t len x g /\ by_subscribe3 x).
  Proof. intros c h b k s R (P & T) A. exact (zero_order3 hash5 hash3 pick c h b k R P T s A). Qed.
End Props.
Print Assumptions C86_qos0.
Print Assumptions C86_v3_qos0.

(** "p" publishes "t/x" and "t/z" with QoS 0 and "t/y" with QoS 1 between them; all three are
    passed on to "a" and "c", and both are written the QoS 0 messages. *)
Definition x_zero (k : N) (t : string) : bev := EPacket5 k 10 (IPub (WPub5 false Q0 false t "m" (PProps None None [] ""))).
Definition x_mix : list bev := x_some ++ [x_zero 3 "t/x"; EFlush 3 0; EFlush 3 1; ENormal 2; ENormal 1; x_pub 3 "t/y"; EFlush 3 0; EFlush 3 1; ENormal 2; ENormal 1;
  x_zero 3 "t/z"; EFlush 3 0; EFlush 3 1; ENormal 1; ENormal 2].
Example C86_qos0_case : exists h b, x_run h b /\ (forall p, In p h -> proper p) /\ (forall p, In p h -> after_1970 p) /\
  map (fun x => nm_topic (snd (snd x))) (passed_in 0 h) = ["t/x"; "t/y"; "t/z"]%string /\ map (fun x => nm_topic (snd (snd x))) (passed_in 1 h) = ["t/x"; "t/y"; "t/z"]%string /\
  (exists s, sess_at b 2 = Some (A5 s) /\ s_id s = 0 /\ map w5_topic (flat_map (fun p => zero5 (pkts5 2 (w_out p))) (rev h)) = ["t/x"; "t/z"]%string) /\
  (exists s, sess_at b 1 = Some (A3 s) /\ z_id s = 1 /\ map w3_topic (flat_map (fun p => zero3 (pkts3 1 (w_out p))) (rev h)) = ["t/x"; "t/z"]%string).
Proof.
  run_of x_mix. split; [proper_of|]. split; [after_of|]. split; [vm_compute; reflexivity|]. split; [vm_compute; reflexivity|].
  split; eexists; (split; [reflexivity|]; split; vm_compute; reflexivity).
Qed.
(** The events of a session that gets these messages: the numbers are 0 and 2.  Had the session held
    back the first message until after the third, they would not be in order. *)
Definition z_msg (t : string) : nmsg := NM5 (NMsg5 false L0 t "m" ["t/+"%string] L1 (PProps None None [] "") 10).
Definition z_wire (t : string) : wpub5 := WPub5 false Q0 false t "m" (PProps None None [] "").
Definition z_life : list (sev5 * list pkt5) :=
  [(VMsg 100 (z_msg "t/x"), [KPub (z_wire "t/x")]); (VMsg 101 (o_msg "t/y"), [KPub (o_wire 1 "t/y")]); (VMsg 102 (z_msg "t/z"), [KPub (z_wire "t/z")])].
Example zeros_case : zeros5 [] z_life = [(z_wire "t/x", Some 0%nat); (z_wire "t/z", Some 2%nat)] /\ StronglySorted lt (numbers (zeros5 [] z_life)) /\
  ~ StronglySorted lt (numbers [(z_wire "t/z", Some 2%nat); (z_wire "t/x", Some 0%nat)]).
Proof.
  split; [reflexivity|]. split; [cbn; repeat constructor|]. cbn. intros H. apply StronglySorted_inv in H. destruct H as (_ & H). inversion H as [|? ? L]; subst. inversion L.
Qed.
