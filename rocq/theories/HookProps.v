(** C47: the verdicts of hooks.

    A hook is the application's code: [packet5] is the server's reaction to a packet
    when hooks are enabled, [hook_done] what happens once the hook answered ([ans5]: the
    packet, perhaps changed, the verdict's code, and the actions it asks for).  Code 0
    is Success. *)
From Coq Require Import List Bool String Ascii NArith Lia.
From Verif Require Import Base BaseLemmas TopicModel MsgModel PendingModel OutModel RouteModel RetainModel GlobModel Sess5Model Sess3Model
  ConnModel InSpec OnlineModel OnlineSpec HookModel HookFacts HookLast InProps.
Import ListNotations.
Local Open Scope N_scope.

(** A packet whose hook is enabled has no effect until the hook answers. *)
Theorem C47_nothing_before_verdict : forall hk hash pick now len x s g, len <= cf_packet_server (g_cfg g) ->
  hooked5 hk x = true -> exists q, packet5 hk hash pick now (len, x) s g = HpOk s g [] (Some q) /\ asks5 q x.
Proof. exact c47_before. Qed.
Print Assumptions C47_nothing_before_verdict.

(** While it has not answered, nothing is read, written or delivered. *)
Theorem C47_waits_for_verdict : forall {P Msg In Err Ctl Act Req Ans S G} (i : iface P Msg In Err Ctl Act Req Ans S G) e l g q,
  l_hook l = Some q -> e_hook e = HWait -> poll i e l g = (l, g, [Waits WHook], RPending).
Proof. intros P Msg In Err Ctl Act Req Ans S G i e l g q. exact (c47_waits i e l g q). Qed.
Print Assumptions C47_waits_for_verdict.

(** Refused: routing table, retained messages and the session are as before, nobody
    gets a message, no action is applied, and the client is answered with the code. *)
Theorem C47_refused : forall hk hash pick encode now q a l g l' g' t r,
  let i := online5 hk hash pick encode in
  NoDup (keys (s_bcast (l_s l))) -> refused5 q a -> hook_done i now q a l g = (l', g', t, r) ->
  r = None /\ g' = g /\ l_s l' = fst (after_packet5 now (l_s l)) /\ (forall d, asked_for d t = []) /\
  queued t = (refusal5 a ++ snd (after_packet5 now (l_s l)))%list.
Proof. exact c47_refused. Qed.
Print Assumptions C47_refused.

(** Accepted: the packet, as the hook returned it, is handled as if there were no
    hooks, and then the actions are applied in order. *)
Theorem C47_accepted : forall hash pick now len q a x acts s g s' g' out,
  accepted5 q a x acts -> len <= cf_packet_server (g_cfg g) ->
  handle_packet5 hash pick now len x s g = Go s' g' out -> is_error5 out = false ->
  hook5 hash pick now q a s g = HpOk s' g' out acts.
Proof. exact c47_accepted. Qed.
Print Assumptions C47_accepted.

Theorem C47_actions_applied : forall hk hash pick encode now acts l g s' g' u,
  let i := online5 hk hash pick encode in
  apply_actions5 pick now acts (l_s l) g = HpOk s' g' [] u ->
  exists l' t, actions i now l g acts = (l', g', t, None) /\ l_s l' = s' /\ queued t = [].
Proof. intros hk hash pick encode now acts l g s' g' u. exact (c47_actions hk hash pick encode now acts l g s' g' u). Qed.
Print Assumptions C47_actions_applied.

(** A failing hook ends the connection without effect. *)
Theorem C47_failed : forall {P Msg In Err Ctl Act Req Ans S G} (i : iface P Msg In Err Ctl Act Req Ans S G) e l g q,
  l_hook l = Some q -> e_hook e = HFail -> exists l', poll i e l g = (l', g, [], RReady true) /\ l_s l' = l_s l.
Proof. intros P Msg In Err Ctl Act Req Ans S G i e l g q. exact (c47_failed i e l g q). Qed.
Print Assumptions C47_failed.

(** Let in, but the hook called afterwards fails: the packet has its full effect (as without a
    hook), the connection ends in the same poll and the answer, though queued, is not written. *)
Theorem C47_afterwards_failed : forall hk hash pick encode e l g q a x len s' g' out, let i := online5 hk hash pick encode in
  l_hook l = Some q -> e_hook e = HDone a -> after_fails5 q a x -> len <= cf_packet_server (g_cfg g) ->
  handle_packet5 hash pick (e_now e) len x (l_s l) g = Go s' g' out -> is_error5 out = false ->
  exists l' t, poll i e l g = (l', g', t, RReady true) /\ l_s l' = s' /\ queued t = out /\ (forall b, ~ List.In (Wrote b) t).
Proof. exact c47_afterwards. Qed.
Print Assumptions C47_afterwards_failed.
Theorem C47_v3_afterwards_failed : forall hk hash encode e l g q a x len s' g' out, let i := online3 hk hash encode in
  l_hook l = Some q -> e_hook e = HDone a -> after_fails3 q a x -> len <= cf_packet_server (g_cfg g) ->
  handle_packet3 hash (e_now e) len x (l_s l) g = Go3 s' g' out ->
  exists l' t, poll i e l g = (l', g', t, RReady true) /\ l_s l' = s' /\ queued t = out /\ (forall b, ~ List.In (Wrote b) t).
Proof. exact c47_afterwards3. Qed.
Print Assumptions C47_v3_afterwards_failed.

(** MQTT 3 has no codes: a refusal closes the connection, without effect. *)
Theorem C47_v3_refused : forall hk hash encode now q a l g l' g' t r,
  let i := online3 hk hash encode in
  NoDup (keys (z_bcast (l_s l))) -> refused3 q a -> hook_done i now q a l g = (l', g', t, r) ->
  r = Some (RReady true) /\ g' = g /\ l_s l' = l_s l /\ (forall d, asked_for d t = []) /\ queued t = [].
Proof. exact c47_refused3. Qed.
Print Assumptions C47_v3_refused.

Theorem C47_v3_nothing_before_verdict : forall hk hash now len x s g, len <= cf_packet_server (g_cfg g) ->
  hooked3 hk x = true -> exists q, packet3 hk hash now (len, x) s g = HpOk s g [] (Some q) /\ asks3 q x.
Proof. exact c47_before3. Qed.
Print Assumptions C47_v3_nothing_before_verdict.

Theorem C47_v3_accepted : forall hash now len q a x acts s g s' g' out,
  accepted3 q a x acts -> len <= cf_packet_server (g_cfg g) ->
  handle_packet3 hash now len x s g = Go3 s' g' out -> hook3 hash now q a s g = HpOk s' g' out acts.
Proof. exact c47_accepted3. Qed.
Print Assumptions C47_v3_accepted.

(** A CONNECT refused by the hook: only CONNACK with the code is sent; the identifier
    is not looked up ([ask]) and no session is made. *)
Theorem C47_connect_refused : forall M pw first final utf8 hk code c a uuid now ask p l,
  ck_before hk = true -> code <> 0 ->
  exists k, @connect_hooked5 M pw first final utf8 hk (Some code) c a uuid now ask p l = ([AConnack k], [], CFail) /\
    ka_code k = code /\ ka_present k = false.
Proof. exact c47_connect_refused. Qed.
Print Assumptions C47_connect_refused.

(** The hook lets a CONNECT in (or there is none): CONNECT is handled as without it.
    The hook fails: nothing is sent and the connection is closed. *)
Theorem C47_connect_accepted : forall M pw first final utf8 hk verdict c a uuid now ask p l,
  ck_before hk = false \/ verdict = Some 0 ->
  @connect_hooked5 M pw first final utf8 hk verdict c a uuid now ask p l = connect_phase5 M pw first final utf8 c a uuid now ask p l.
Proof. intros M pw first final utf8 hk verdict c a uuid now ask p l. exact (c47_connect_accepted M pw first final utf8 hk verdict c a uuid now ask p l). Qed.
Print Assumptions C47_connect_accepted.
Theorem C47_connect_failed : forall M pw first final utf8 hk c a uuid now ask p l, ck_before hk = true ->
  @connect_hooked5 M pw first final utf8 hk None c a uuid now ask p l = ([], [], CFail).
Proof. intros M pw first final utf8 hk c a uuid now ask p l. exact (c47_connect_failed M pw first final utf8 hk c a uuid now ask p l). Qed.
Print Assumptions C47_connect_failed.
Theorem C47_v3_connect : forall hk verdict, before_connect3 hk verdict = true <-> (ck_before hk = false \/ verdict = Some true).
Proof. exact c47_connect3. Qed.
Print Assumptions C47_v3_connect.

(** A hook that fails after CONNECT ends the session with nothing done; otherwise its
    actions are applied one after the other, and the first that fails ends the session. *)
Theorem C47_after_connect_failed : forall hk pick now s g, ck_before hk = true -> after_connect5 hk pick now None s g = HpErr s g [].
Proof. exact c47_after_failed. Qed.
Print Assumptions C47_after_connect_failed.
Theorem C47_after_connect_actions : forall hk pick now acts s g s' g' u, ck_before hk = true ->
  (after_connect5 hk pick now (Some acts) s g = HpOk s' g' [] u <-> in_order pick now acts s g s' g').
Proof. exact c47_after_actions. Qed.
Print Assumptions C47_after_connect_actions.

(** *** Concrete cases *)
Example C47_connect_case : let hk := CHooks true false in
  before_connect5 hk config_default 5 (Some 0) = None /\ before_connect5 hk config_default 5 None = Some [] /\
  before_connect3 hk (Some false) = false /\ before_connect3 hk None = false /\
  exists s g s' g', in_order ex_pick 1001 [ActSub [("x"%string, L1)]; ActSub [("y"%string, L1)]; ActUnsub ["x"%string]] s g s' g' /\
    s_subs s = [] /\ keys (s_subs s') = ["y"%string].
Proof.
  repeat (split; [reflexivity|]). exists ex_s0, ex_g. do 2 eexists. split; [do 3 (econstructor; [vm_compute; reflexivity|]); constructor|]. split; vm_compute; reflexivity.
Qed.
Definition exk_hooks : hooks := Hooks true true true.
Definition exk_q : req5 := QPub (ex_w false).
Definition exk_no : ans5 := APub (ex_w false) 135 (Some [ActSub [("x"%string, L1)]]).
Definition exk_yes : ans5 := APub (WPub5 false (Q2 5) false "t" "changed" (PProps None None [] "")) 0 (Some [ActSub [("x"%string, L1)]]).
Definition exk_i := online5 exk_hooks (fun _ => 3) ex_pick (fun _ => Some []).
Example C47_example :
  hooked5 exk_hooks (IPub (ex_w false)) = true /\ refused5 exk_q exk_no /\
  (exists l t, hook_done exk_i 1001 exk_q exk_no (lst_new ex_s0) ex_g = (l, ex_g, t, None) /\ queued t = [KPubrec 5 135]) /\
  (exists l g t m, hook_done exk_i 1001 exk_q exk_yes (lst_new ex_s0) ex_g = (l, g, t, None) /\ queued t = [KPubrec 5 0] /\
     asked_for 9 t = [NM5 m] /\ n5_payload m = "changed"%string /\ keys (s_subs (l_s l)) = ["x"%string]).
Proof.
  split; [reflexivity|]. split; [repeat split; discriminate|]. split.
  - do 2 eexists. split; vm_compute; reflexivity.
  - do 4 eexists. split; [vm_compute; reflexivity|]. repeat split; vm_compute; reflexivity.
Qed.

Definition exk_half : ans5 := APub (WPub5 false (Q2 5) false "t" "changed" (PProps None None [] "")) 0 None.
Example C47_after_case : after_fails5 exk_q exk_half (IPub (WPub5 false (Q2 5) false "t" "changed" (PProps None None [] ""))) /\
  (exists l g t m, hook_done exk_i 1001 exk_q exk_half (lst_new ex_s0) ex_g = (l, g, t, Some (RReady true)) /\ queued t = [KPubrec 5 0] /\
     asked_for 9 t = [NM5 m] /\ n5_payload m = "changed"%string).
Proof. split; [repeat split|]. do 4 eexists. split; [vm_compute; reflexivity|]. repeat split; vm_compute; reflexivity. Qed.

(** C47 as stated is false.  The flag [enable_after_connect] is not
    looked at: with it alone, the after-connect hook's actions are not applied. *)
Theorem C47_after_connect_refuted : exists hk pick acts s g,
  ck_after hk = true /\ (exists s' g', apply_actions5 pick 1001 acts s g = HpOk s' g' [] tt /\ keys (s_subs s') = ["x"%string]) /\
  after_connect5 hk pick 1001 (Some acts) s g = HpOk s g [] tt /\ s_subs s = [].
Proof.
  exists (CHooks false true), ex_pick, [ActSub [("x"%string, L1)]], ex_s0, ex_g. split; [reflexivity|]. split.
  - do 2 eexists. split; vm_compute; reflexivity.
  - split; vm_compute; reflexivity.
Qed.
Print Assumptions C47_after_connect_refuted.
