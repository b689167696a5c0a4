(** C71: what one wake-up of a client's task takes in is handled exactly as if it came one at a
    time. *)
From Coq Require Import List Bool NArith String Lia.
From Verif Require Import Base BaseLemmas TopicModel MsgModel PendingModel OutModel GlobModel Sess5Model Sess3Model ConnModel RegModel OnlineModel HookModel OnlineSpec
  BrokerModel BrokerSpec LifeSpec InSpec AccSpec ApartSpec RunProofs BrokerProps BridgeSpec BridgeProofs.
Import ListNotations.
Local Open Scope N_scope.
Local Open Scope list_scope.

Section Props.
  Variables (hash5 : wpub5 -> N) (hash3 : wpub3 -> N) (pick : string -> string -> N) (enc5 : pkt5 -> option (list N)) (enc3 : pkt3 -> option (list N)).
  Local Notation bstep := (bstep hash5 hash3 (fun _ _ => pick)).
  Local Notation bgo := (bgo hash5 hash3 (fun _ _ => pick)).
  Local Notation reached := (reached hash5 hash3 pick).
  Local Notation agrees5 := (agrees5 hash5 hash3 pick enc5).
  Local Notation agrees3 := (agrees3 hash5 hash3 pick enc3).

  (** When a connection's event loop starts, it agrees with the broker's task. *)
  Theorem C71_start5 : forall k b s, reached b -> aget k (b_tasks b) = Some (TOnline (A5 s)) -> agrees5 k b (lst_new s).
  Proof. exact (start5 hash5 hash3 pick enc5). Qed.
  Theorem C71_start3 : forall k b s, reached b -> aget k (b_tasks b) = Some (TOnline (A3 s)) -> agrees3 k b (lst_new s).
  Proof. exact (start3 hash5 hash3 pick enc3). Qed.

  (** It goes on agreeing whatever other connections do. *)
  Theorem C71_others5 : forall k b l e b' out, agrees5 k b l -> bstep e b = BOk b' out -> who e <> Some k -> agrees5 k b' l.
  Proof. exact (others5 hash5 hash3 pick enc5). Qed.
  Theorem C71_others3 : forall k b l e b' out, agrees3 k b l -> bstep e b = BOk b' out -> who e <> Some k -> agrees3 k b' l.
  Proof. exact (others3 hash5 hash3 pick enc3). Qed.

  (** One wake-up of the loop (one poll), whatever it reads and however far it gets: there are
      steps of the broker, all of this connection, that handle the packets read (up to some
      point) one at a time and in this order, show the client the same packets in the same
      order, pass on the same messages to every other client in the same order, leave the same
      subscriptions and retained messages, and end where the loop ends: waiting (the two still
      agree, or the session is being handed to another connection), finished, or panicking.
      Missing: other tasks act between two polls, not during one; there are no hooks. *)
  Theorem C71_poll5_partial : forall k e b l l' g' t r, agrees5 k b l -> answers b (s_id (l_s l)) e -> poll (loop5 hash5 pick enc5) e l (glob_of b) = (l', g', t, r) ->
    exists h b' n, bgo b h b' /\ own k h /\ pkts5 k (shown h) = OnlineSpec.queued t /\ (forall d, passed_by k (passed_in d h) = delivered_to d t) /\
      arrivals h = flat_map (arrival5 k) (firstn n (e_read e)) /\ glob_of b' = g' /\ b_now b' = b_now b /\
      match r with
      | RPending => agrees5 k b' l' \/ (l_take l' = Some false /\ handed b' k (seen5 l'))
      | RReady _ => aget k (b_tasks b') = Some (TEnd (seen5 l'))
      | RPanic => exists e, who e = Some k /\ bstep e b' = BPanic
      | _ => False
      end.
  Proof. exact (poll5 hash5 hash3 pick enc5). Qed.
  Theorem C71_poll3_partial : forall k e b l l' g' t r, agrees3 k b l -> answers b (z_id (l_s l)) e -> poll (loop3 hash3 enc3) e l (glob_of b) = (l', g', t, r) ->
    exists h b' n, bgo b h b' /\ own k h /\ pkts3 k (shown h) = OnlineSpec.queued t /\ (forall d, passed_by k (passed_in d h) = delivered_to d t) /\
      arrivals h = flat_map (arrival3 k) (firstn n (e_read e)) /\ glob_of b' = g' /\ b_now b' = b_now b /\
      match r with
      | RPending => agrees3 k b' l' \/ (l_take l' = Some false /\ handed b' k (seen3 l'))
      | RReady _ => aget k (b_tasks b') = Some (TEnd (seen3 l'))
      | RPanic => exists e, who e = Some k /\ bstep e b' = BPanic
      | _ => False
      end.
  Proof. exact (poll3 hash5 hash3 pick enc3). Qed.
End Props.

(** ** Cases *)
(** [x_pick] of the example runs, which is the same all the time. *)
Definition x_pick1 : string -> string -> N := fun _ _ => 0.
Definition x_enc5 (p : pkt5) : option (list N) := Some [1; 2].
Definition x_enc3 (p : pkt3) : option (list N) := Some [1; 2].
(** During a poll everything at hand is taken, and every channel has room for two messages. *)
Definition x_env {In Ans} (b : broker) (c : client_id) (rs : list (rd In derr Ans)) : env nmsg In derr HookModel.control Ans :=
  Env (seconds b) HWait None false None rs (map (fun m => Some (plain m)) (requests b c)) (map Some (waiting b c)) [WOk 1000] (Some true)
      (fun _ => [COk; COk]) (fun _ => []) [WOk 1000] (Some true) (Some true) false None.
Ltac x_answers :=
  split; [reflexivity|]; split; [exists 9%nat; reflexivity|]; split; [exists 9%nat; reflexivity|];
  intros d ch A; vm_compute in A; repeat match type of A with (if ?x then _ else _) = _ => destruct x end; try discriminate A; injection A as <-; vm_compute;
  (split; [intros x [<-|[<-|[]]]; reflexivity|split; [repeat constructor|intros []]]).

(** "a" is subscribed to "t" and "b" to "u"; "b" has sent "a" a message.  Now "a" sends two
    packets.  In one poll it gets PUBACK twice and the message, and "b" gets one message. *)
Definition x_cross : list bev := ETick 100000 :: x_a true :: x_up 0 ++ [x_sub 0 "t"] ++ [x_c5 "b" true 60 None None] ++ x_up 1 ++ [x_sub 1 "u"; x_pub 1 "t"; EFlush 1 0].
Definition x_w (t : string) : wpub5 := WPub5 false (Q1 7) false t "m" (PProps None None [] "").
Example C71_poll5_case : exists h b, x_run h b /\ exists s, aget 0 (b_tasks b) = Some (TOnline (A5 s)) /\
  let e := x_env b (s_id s) [RdPacket (10, IPub (x_w "u")) HWait; RdPacket (10, IPub (x_w "nobody")) HWait] in
  answers b (s_id s) e /\ exists l' g' t, poll (loop5 x_h5 x_pick1 x_enc5) e (lst_new s) (glob_of b) = (l', g', t, RPending) /\ l_take l' = None /\
    List.length (OnlineSpec.queued t) = 3%nat /\ List.length (delivered_to 1 t) = 1%nat.
Proof.
  run_of x_cross. eexists. split; [reflexivity|]. split; [x_answers|]. do 3 eexists. split; [vm_compute; reflexivity|]. repeat split.
Qed.

(** "b" (MQTT 3) sends a message and says goodbye in one go; what it sends after that is not
    read.  "a" still gets the message. *)
Definition x_mixed : list bev := ETick 100000 :: x_a true :: x_up 0 ++ [x_sub 0 "u"] ++ [x_c3 false "b" true 60 None] ++ x_up 1.
Definition x_w3 (t : string) : wpub3 := WPub3 false (Q1 7) false t "m".
Example C71_poll3_case : exists h b, x_run h b /\ exists z, aget 1 (b_tasks b) = Some (TOnline (A3 z)) /\
  let e := x_env b (z_id z) [RdPacket (10, YPub (x_w3 "u")) HWait; RdPacket (2, YDisconnect) HWait; RdPacket (2, YPing) HWait] in
  answers b (z_id z) e /\ exists l' g' t r, poll (loop3 x_h3 x_enc3) e (lst_new z) (glob_of b) = (l', g', t, r) /\
    r = RReady false /\ OnlineSpec.queued t = [JPuback 7] /\ List.length (delivered_to 0 t) = 1%nat.
Proof.
  run_of x_mixed. eexists. split; [reflexivity|]. split; [x_answers|]. do 4 eexists. split; [vm_compute; reflexivity|]. repeat split.
Qed.
(** A second connection of "a" is waiting for the session. *)
Definition x_again : list bev := ETick 100000 :: x_a true :: x_up 0 ++ [x_sub 0 "t"; x_a false; EPut 1].
Example C71_take_case : exists h b, x_run h b /\ exists s, aget 0 (b_tasks b) = Some (TOnline (A5 s)) /\
  let e := x_env b (s_id s) [RdPacket (10, IPub (x_w "t")) HWait] in
  answers b (s_id s) e /\ exists l' g' t r, poll (loop5 x_h5 x_pick1 x_enc5) e (lst_new s) (glob_of b) = (l', g', t, r) /\
    r = RPending /\ l_take l' = Some false /\ List.length (OnlineSpec.queued t) = 1%nat.
Proof.
  run_of x_again. eexists. split; [reflexivity|]. split; [x_answers|]. do 4 eexists. split; [vm_compute; reflexivity|]. repeat split.
Qed.
(** A client sends what is not MQTT: it is told, and the loop waits for it to hang up. *)
Example C71_error_case : exists h b, x_run h b /\ exists s, aget 0 (b_tasks b) = Some (TOnline (A5 s)) /\
  let e := x_env b (s_id s) [RdPacket (10, IPub (x_w "t")) HWait; RdErr (DMalformed "bad")] in
  answers b (s_id s) e /\ exists l' g' t r, poll (loop5 x_h5 x_pick1 x_enc5) e (lst_new s) (glob_of b) = (l', g', t, r) /\
    r = RPending /\ exists c m, OnlineSpec.queued t = [KPuback 7 c; KDisconnect m (Some "bad"%string)].
Proof.
  run_of x_cross. eexists. split; [reflexivity|]. split; [x_answers|]. do 4 eexists. split; [vm_compute; reflexivity|]. split; [reflexivity|]. do 2 eexists. cbn. reflexivity.
Qed.

Print Assumptions C71_start5.
Print Assumptions C71_start3.
Print Assumptions C71_others5.
Print Assumptions C71_others3.
Print Assumptions C71_poll5_partial.
Print Assumptions C71_poll3_partial.
