(** C60: the hook that the akasa program installs changes nothing.

    [life (online5 hk ...) es l]: the event loop of a connection, polled in the environments
    [es], with the hooks [hk] enabled.  [prompt_answers] says that the application is the
    default hook ([std_answer5], StdHookModel), which answers at once. *)
From Coq Require Import List Bool String NArith.
From Verif Require Import Base TopicModel MsgModel PendingModel OutModel RouteModel RetainModel GlobModel Sess5Model Sess3Model
  ConnModel InSpec OnlineModel HookModel HookLast InProps HookProps StdHookModel StdHookSpec StdHookProofs.
Import ListNotations.
Local Open Scope N_scope.

(** Whatever hooks are enabled, the connection does what it does without: same session, same
    packets and bytes to the client, same messages to other clients, same end. *)
Theorem C60_transparent : forall hk hash pick encode es l, l_hook l = None ->
  Forall (fun x => prompt_answers (fun q x => asks5 q (snd x)) std_answer5 (fst x)) es ->
  let '(l1, t1, r1) := life (online5 hk hash pick encode) es l in
  let '(l2, t2, r2) := life (online5 (Hooks false false false) hash pick encode) es l in
  l1 = l2 /\ visible t1 = visible t2 /\ r1 = r2.
Proof. exact std5. Qed.
Print Assumptions C60_transparent.
Theorem C60_transparent_v3 : forall hk hash encode es l, l_hook l = None ->
  Forall (fun x => prompt_answers (fun q x => asks3 q (snd x)) std_answer3 (fst x)) es ->
  let '(l1, t1, r1) := life (online3 hk hash encode) es l in
  let '(l2, t2, r2) := life (online3 (Hooks false false false) hash encode) es l in
  l1 = l2 /\ visible t1 = visible t2 /\ r1 = r2.
Proof. exact std3. Qed.
Print Assumptions C60_transparent_v3.
(** The same for CONNECT. *)
Theorem C60_connect : forall M pw first final utf8 hk c a uuid now ask p l,
  @connect_hooked5 M pw first final utf8 hk std_before5 c a uuid now ask p l = connect_phase5 M pw first final utf8 c a uuid now ask p l.
Proof. exact std_connect5. Qed.
Print Assumptions C60_connect.
Theorem C60_after_connect : forall hk pick now s g, after_connect5 hk pick now std_after s g = HpOk s g [] tt.
Proof. exact std_after5. Qed.
Print Assumptions C60_after_connect.
Theorem C60_connect_v3 : forall hk, before_connect3 hk std_before3 = true.
Proof. exact std_connect3. Qed.
Print Assumptions C60_connect_v3.

(** A QoS 2 PUBLISH is read: the hook is asked, PUBREC is queued and the message for client 9
    is handed over, with hooks and without. *)
Definition c60_env : env nmsg (N * in5) derr control ans5 :=
  Env 1001 HWait None true None [RdPacket (20, IPub (ex_w false)) (HDone (std_answer5 (QPub (ex_w false))))] [] [] [WOk 100] (Some true)
    (fun _ => [COk]) (fun _ => []) [] None None false None.
Example C60_case : prompt_answers (fun q x => asks5 q (snd x)) std_answer5 c60_env /\
  exists l t, life exk_i [(c60_env, ex_g)] (lst_new ex_s0) = (l, t, RPending) /\ In (Requested (QPub (ex_w false))) t /\
    In (Queued (KPubrec 5 0)) (visible t) /\ exists m, In (Delivered 9 (NM5 m)) (visible t).
Proof.
  split.
  - intros x h [H|[]] q A. injection H as <- <-. cbn in A. destruct q; cbn in A; [injection A as <-; reflexivity|discriminate|discriminate].
  - do 2 eexists. split; [vm_compute; reflexivity|]. split; [vm_compute; auto 10|]. split; [vm_compute; auto 10|]. eexists. vm_compute. auto 20.
Qed.
