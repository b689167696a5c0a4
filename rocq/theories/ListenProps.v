(** C61 and C62: the listeners stay up; the [start] command. *)
From Coq Require Import List Bool Arith NArith Lia String.
From Verif Require Import Base AcceptModel GlobModel TextModel PassModel ConfModel ListenModel ListenSpec ListenProofs.
Import ListNotations.
Local Open Scope N_scope.
Local Open Scope list_scope.

(** C61: in every history an accept loop is listening, unless the operating system refused
    it something less than (or exactly) a second ago, or it is the instant of the start. *)
Theorem C61_up : forall T loops http h s k,
  lrun (server_new T loops http) h s -> (k < List.length loops)%nat ->
  listening k s \/ (exists t, failed_at k t h /\ t <= sv_now s <= t + 1000) \/
  (sv_now s = T /\ forall t ok o, ~ In (t, LvOpen k ok, o) h).
Proof. exact up_lemma. Qed.
(** C61: while [accept] does not fail, the clients that connected to a loop are those it
    serves and those that still wait, in order. *)
Theorem C61_nobody_lost : forall T loops http h s k,
  lrun (server_new T loops http) h s -> (forall t o, ~ In (t, LvAccept k false, o) h) ->
  connected_to k h = served_by k h ++ waiting_at k s.
Proof. exact served_lemma. Qed.
(** C61: what happens to one loop, or to HTTP, leaves the other loops as they were. *)
Theorem C61_apart : forall e s s' o k,
  lstep e s = Some (s', o) -> about e <> Some k ->
  nth_error (sv_tasks s') k = nth_error (sv_tasks s) k /\ (forall c, ~ In (Served k c) o).
Proof. exact step_other. Qed.
(** C61: a server with an MQTT listener never ends by itself. *)
Theorem C61_never_ends : forall T loops http h s,
  lrun (server_new T loops http) h s -> loops <> [] -> ended s = false.
Proof. intros T loops http h s R H. apply (forever_lemma _ _ _ R). cbn. destruct loops; [contradiction|discriminate]. Qed.

(** C61: the HTTP endpoint is not reopened: once opening its address failed it refuses
    everyone for ever. *)
Theorem C61_http_down : forall T loops http h s c,
  lrun (server_new T loops http) h s -> (exists t o, In (t, HvOpen false, o) h) -> lstep (HvArrive c) s = Some (s, [Refused c]).
Proof. intros T loops http h s c R F. exact (http_refused h s _ c R F). Qed.

Fixpoint x_listen (es : list lev) (h : list lpast) (s : server) : option (list lpast * server) :=
  match es with
  | [] => Some (h, s)
  | e :: r => match lstep e s with Some (s', o) => x_listen r (h ++ [(sv_now s, e, o)]) s' | None => None end
  end.
Local Lemma x_listen_run s0 es : forall h s h' s', x_listen es h s = Some (h', s') -> lrun s0 h s -> lrun s0 h' s'.
Proof.
  induction es as [|e es IH]; intros h s h' s' E R; cbn in E; [injection E as <- <-; exact R|].
  destruct (lstep e s) as [[s1 o]|] eqn:L; [|discriminate]. apply (IH _ _ _ _ E). exact (lr_step _ _ _ _ _ _ R L).
Qed.
Definition x_loop : conn_args := ConnArgs false false false false None.
Definition x_loop0 : conn_args := plain_args false (Listener true None).
Ltac listen_of es := match goal with |- lrun ?s0 _ _ => eapply (x_listen_run s0 es [] s0); [vm_compute; reflexivity|constructor] end.

(** C61 fails in full: one failed [accept] (a client that gave up while it waited is enough
    on some systems, too many open files on all) closes the socket.  The clients that wait
    behind it are cut off, and newcomers are refused for a second. *)
Theorem C61_accept_error_refuted : exists h s,
  lrun (server_new 0 [x_loop] false) h s /\
  connected_to 0 h = [1; 2; 3] /\ served_by 0 h = [1] /\ waiting_at 0 s = [] /\
  (exists t, In (t, LvAccept 0 false, [CutOff 2; CutOff 3]) h) /\ (exists t, In (t, LvArrive 0 4, [Refused 4]) h).
Proof.
  eexists _, _. split; [listen_of [LvOpen 0 true; LvTick 10; LvArrive 0 1; LvArrive 0 2; LvArrive 0 3; LvAccept 0 true; LvAccept 0 false; LvTick 999; LvArrive 0 4]|].
  repeat (split; [vm_compute; reflexivity|]). split; eexists; vm_compute; auto 12.
Qed.
(** C61 fails for HTTP: a port that is taken for a moment at the start leaves the MQTT
    listener up a second later and the HTTP endpoint down for ever. *)
Theorem C61_http_refuted : exists h s,
  lrun (server_new 0 [x_loop] true) h s /\ (exists t, In (t, HvOpen false, []) h) /\ listening 0 s /\
  ended s = false /\ (forall h' s', lrun (server_new 0 [x_loop] true) (h ++ h') s' -> forall c, lstep (HvArrive c) s' = Some (s', [Refused c])).
Proof.
  eexists _, _. split; [listen_of [LvOpen 0 false; HvOpen false; LvTick 1000; LvWake 0; LvOpen 0 true]|].
  split; [eexists; vm_compute; auto 8|]. split; [eexists; vm_compute; reflexivity|]. split; [reflexivity|].
  intros h' s' R c. eapply C61_http_down; [exact R|]. exists 0, []. apply in_or_app. left. vm_compute. auto 8.
Qed.
(** C61 fails for a server with HTTP alone: it ends, without an error, when its address is taken. *)
Theorem C61_http_only_refuted : exists h s, lrun (server_new 0 [] true) h s /\ ended s = true.
Proof. eexists _, _. split; [listen_of [HvOpen false]|reflexivity]. Qed.

(** Two loops: the first fails to open, comes back after a second and serves in order; the second never notices. *)
Example C61_case : exists h s,
  lrun (server_new 5 [x_loop; x_loop] true) h s /\
  failed_at 0 5 h /\ listening 0 s /\ listening 1 s /\ (forall t o, ~ In (t, LvAccept 0 false, o) h) /\
  connected_to 0 h = [7; 8] /\ served_by 0 h = [7] /\ waiting_at 0 s = [8] /\ served_by 1 h = [9] /\ served_http h = [11].
Proof.
  eexists _, _. split; [listen_of [HvOpen true; LvOpen 0 false; LvOpen 1 true; LvTick 400; LvArrive 0 6; LvArrive 1 9; LvAccept 1 true; LvTick 600; LvWake 0; LvOpen 0 true; LvArrive 0 7; LvArrive 0 8; LvAccept 0 true; HvArrive 11; HvAccept true]|].
  split; [exists []; left; vm_compute; auto 12|]. split; [eexists; vm_compute; reflexivity|]. split; [eexists; vm_compute; reflexivity|].
  split; [intros t o F; vm_compute in F; repeat (destruct F as [F|F]; [discriminate|]); destruct F|]. vm_compute. auto.
Qed.

(** C62: the [start] command never panics, and it serves exactly when the configuration is
    valid, the TLS material of every TLS listener loads and, where passwords are required,
    the password file parses; it then checks passwords against that file. *)
Theorem C62_no_panic : forall reuse conf file, start_command reuse conf file <> SPanic.
Proof. exact start_no_panic. Qed.
Theorem C62_runs : forall reuse conf file loops http t,
  start_command reuse conf file = SRun loops http t <->
  exists c ls, conf = Some (c, ls, http) /\ is_valid c = true /\ start reuse ls = Some loops /\
    (if fc_auth c then exists f, file = Some f /\ load_passwords f = Some t else t = []).
Proof. exact start_runs. Qed.
(** C62: a server that starts has something to serve. *)
Theorem C62_serves : forall reuse c ls http file loops http' t,
  says c ls http -> start_command reuse (Some (c, ls, http)) file = SRun loops http' t -> loops <> [] \/ http' = true.
Proof. exact start_something. Qed.

(** C62: what [default-config] prints starts: at once when anonymous, with a password file
    that parses otherwise. *)
Theorem C62_default : forall reuse file,
  start_command reuse (Some (default_config true, default_listeners, false)) file =
    SRun (repeat (plain_args false (Listener true None)) (if reuse then 4 else 1)) false [] /\
  forall loops http t, start_command reuse (Some (default_config false, default_listeners, false)) file = SRun loops http t <->
    loops = repeat (plain_args false (Listener true None)) (if reuse then 4 else 1) /\ http = false /\ exists f, file = Some f /\ load_passwords f = Some t.
Proof. exact default_lemma. Qed.

Example C62_case :
  says (default_config false) default_listeners false /\ is_valid (default_config false) = true /\
  (exists f t, load_passwords f = Some t /\ t <> [] /\ start_command true (Some (default_config false, default_listeners, false)) (Some f) = SRun (repeat x_loop0 4) false t) /\
  start_command true (Some (default_config false, default_listeners, false)) (Some (lit "ann")) = SFail /\
  start_command true (Some (default_config false, default_listeners, false)) None = SFail /\
  start_command true None None = SFail.
Proof.
  split; [reflexivity|]. split; [reflexivity|]. split; [|repeat split; vm_compute; reflexivity].
  exists (lit "ann:sha512,YWJjZGVmZ2hpamts,aDE"). eexists. split; [vm_compute; reflexivity|]. split; [discriminate|vm_compute; reflexivity].
Qed.

Print Assumptions C62_default.
Print Assumptions C61_up.
Print Assumptions C61_nobody_lost.
Print Assumptions C61_apart.
Print Assumptions C61_never_ends.
Print Assumptions C61_http_down.
Print Assumptions C61_accept_error_refuted.
Print Assumptions C61_http_refuted.
Print Assumptions C61_http_only_refuted.
Print Assumptions C62_no_panic.
Print Assumptions C62_runs.
Print Assumptions C62_serves.
