(** C57: which connections are served, and how long a connection may take to get
    that far. *)
From Coq Require Import List Bool Arith NArith Lia.
From Verif Require Import Base ProxyModel ProxySpec AcceptModel AcceptSpec AcceptProofs.
Import ListNotations.
Local Open Scope list_scope.
Local Open Scope N_scope.

Section C57.
  Variable crc : bytes -> N.
  Variable utf8 : bytes -> bool.
  Variable tls : client_auth -> bytes -> option (option bytes * reader).
  Variable ws : bytes -> option (option bytes * reader).

  (** Only a client whose bytes, taken out of the PROXY header, TLS and WebSocket the
      listener asks for, begin like a CONNECT packet reaches a handler: that of the
      protocol it names, under the address the PROXY header names. *)
  Theorem C57_served_only : forall ready a peer r o, all_bytes r -> handle_accept crc utf8 tls ws ready a peer r = o -> served o ->
    exists peer' b' p n t r2, inside crc utf8 tls ws a peer (concat r) peer' b' /\ connect_begins p n b' (concat r2) /\
      o = match p with V500 => Serve5 t peer' n r2 | _ => Serve3 t p peer' r2 end.
  Proof. exact (served_only crc utf8 tls ws). Qed.

  (** Every such client reaches it if it sends what each step needs within five
      seconds. *)
  Theorem C57_served : forall ready a peer r peer' b' p n rest, proper_handshakes tls ws -> flowing r -> all_bytes r -> prompt a ready ->
    inside crc utf8 tls ws a peer (concat r) peer' b' -> connect_begins p n b' rest ->
    exists t r2, t <= 5000 /\ concat r2 = rest /\
      handle_accept crc utf8 tls ws ready a peer r = match p with V500 => Serve5 t peer' n r2 | _ => Serve3 t p peer' r2 end.
  Proof. exact (served_all crc utf8 tls ws). Qed.

  (** Without WebSocket, a connection has reached a handler or is gone after five
      seconds, whatever it sends and whenever; and it is served only if it was
      prompt. *)
  Theorem C57_deadline_partial : forall ready a peer r, a_ws a = false ->
    (exists t, ended (handle_accept crc utf8 tls ws ready a peer r) = Some t /\ t <= 5000) /\
    (served (handle_accept crc utf8 tls ws ready a peer r) -> prompt a ready).
  Proof.
    exact (fun ready a peer r W => conj (deadline crc utf8 tls ws ready a peer r W) (not_prompt crc utf8 tls ws ready a peer r W)).
  Qed.

  (** The handler gets no further five seconds: the rest of CONNECT, and for protocol 5
      the AUTH packets, have arrived by then or the connection is gone.  Missing: an
      answer that the client does not take off the socket is waited for without
      limit. *)
  Theorem C57_connect_deadline_partial : forall ready now n, now <= 5000 -> (forall m, (m < n)%nat -> ready (GWrite m) = Some 0) ->
    (match connect3_wait ready now with Reached t | TimedOut t => t <= 5000 | Never => False end) /\
    match auth5_wait ready n now with Reached t | TimedOut t => t <= 5000 | Never => False end.
  Proof. exact (fun ready now n L W => conj (timed_done (ready GConnect) now L) (auth_ends ready n now L W)). Qed.

  (** The deadline does not hold on a WebSocket listener: a client that never ends the
      handshake keeps its connection for ever. *)
  Theorem C57_websocket_refuted : forall a peer r, a_proxy a = false -> a_tls a = None -> a_ws a = true ->
    handle_accept crc utf8 tls ws (fun _ => None) a peer r = Hang GWs.
  Proof. exact (fun a peer r P T W => websocket_hangs crc utf8 tls ws a peer r P T W). Qed.

  (** And it can be served any time later. *)
  Theorem C57_late_refuted : forall t peer r b2 r', 5000 <= t -> ws (concat r) = Some (None, r') -> flowing r' -> connect_begins V500 b2 (concat r') [] ->
    exists r2, handle_accept crc utf8 tls ws (fun g => match g with GWs => Some t | _ => Some 0 end) (ConnArgs false false false true None) peer r = Serve5 t peer b2 r2.
  Proof. exact (late_served crc utf8 tls ws). Qed.

  (** The remaining length of a protocol 3 CONNECT is not looked at: it can be any. *)
  Theorem C57_length_refuted : forall ready peer p v1 v2 rest, p <> V500 -> var_bytes v1 -> var_bytes v2 ->
    prompt (ConnArgs false false false false None) ready ->
    handle_accept crc utf8 tls ws ready (ConnArgs false false false false None) peer [16 :: v1 ++ name_and_level p ++ rest] =
    handle_accept crc utf8 tls ws ready (ConnArgs false false false false None) peer [16 :: v2 ++ name_and_level p ++ rest].
  Proof. exact (length_ignored crc utf8 tls ws). Qed.
End C57.

(** ** Listeners *)

(** The server starts unless a TLS listener's certificate, key or, with
    [verify_peer], CA file cannot be used. *)
Theorem C57_starts : forall reuse ls, (exists l, start reuse ls = Some l) <->
  (forall l, ls_mqtts ls = Some l -> usable l) /\ (forall l, ls_wss ls = Some l -> usable l).
Proof. exact start_iff. Qed.
Print Assumptions C57_starts.

(** Every connection is accepted by a configured listener with exactly the PROXY
    header, TLS, client certificates and WebSocket configured for it, and every
    configured listener accepts. *)
Theorem C57_listeners : forall reuse ls l, start reuse ls = Some l ->
  (forall a, In a l -> listener_of ls a) /\
  (forall q, ls_mqtt ls = Some q -> exists a, In a l /\ a_ws a = false /\ serves_plain a q) /\
  (forall q, ls_mqtts ls = Some q -> exists a, In a l /\ a_ws a = false /\ serves_tls a q) /\
  (forall q, ls_ws ls = Some q -> exists a, In a l /\ a_ws a = true /\ serves_plain a q) /\
  (forall q, ls_wss ls = Some q -> exists a, In a l /\ a_ws a = true /\ serves_tls a q).
Proof. exact (fun reuse ls l E => conj (fun a => start_args reuse ls l a E) (start_all reuse ls l E)). Qed.
Print Assumptions C57_listeners.

(** [fail_if_no_peer_cert] alone demands no certificate. *)
Theorem C57_certificate_refuted : exists l, usable l /\ t_fail l = true /\ t_ca l = Some true /\
  start true (Listeners None (Some l) None None) = Some (repeat (ConnArgs true false false false (Some NoCert)) 4).
Proof. exact (ex_intro _ (TlsListener true false (Some true) true false true) (conj (conj eq_refl (fun E => match Bool.diff_false_true E with end)) (conj eq_refl (conj eq_refl eq_refl)))). Qed.
Print Assumptions C57_certificate_refuted.

(** ** Examples *)

Definition x_no_crc (b : bytes) : N := 0.
Definition x_ascii (b : bytes) : bool := forallb (fun c => c <? 128) b.
(** Toy handshakes: TLS drops one byte, WebSocket drops one and names "mqtt". *)
Definition x_tls (ca : client_auth) (b : bytes) : option (option bytes * reader) :=
  match ca, b with RequiredCert, 1 :: r => Some (None, [r]) | NoCert, _ :: r => Some (None, [r]) | _, _ => None end.
Definition x_ws (b : bytes) : option (option bytes * reader) :=
  match b with 71 :: r => Some (Some [109; 113; 116; 116], [r]) | 72 :: r => Some (Some [97], [r]) | _ => None end.
Definition x_connect : bytes := [16; 140; 1] ++ name_and_level V500 ++ [2; 0; 60].
Definition x_proxy : bytes := prefix ++ [0x21; 0x11; 0; 12; 10; 0; 0; 7; 127; 0; 0; 1; 234; 229; 7; 91].
Definition x_peer : bytes * N := ([192; 168; 0; 1], 1234).
Definition x_accept := handle_accept x_no_crc x_ascii x_tls x_ws.
Definition x_ready (t : N) (g : stage) : option N := match g with GProto => Some t | _ => Some 20 end.

(** A CONNECT in three parts behind a proxy, TLS and WebSocket: served at the time
    its protocol level arrived, under the address of the header; refused with
    another subprotocol; closed if late; refused if it begins like a PINGREQ. *)
Example C57_served_example :
  let a := ConnArgs true true false true (Some RequiredCert) in
  x_accept (x_ready 4900) a x_peer [firstn 9 x_proxy; skipn 9 x_proxy ++ [1]; 71 :: x_connect] = Serve5 4900 ([10; 0; 0; 7], 60133) 140 [[2; 0; 60]] /\
  x_accept (x_ready 4900) a x_peer [x_proxy ++ [1; 72] ++ x_connect] = Close 20 /\
  x_accept (x_ready 4900) a x_peer [x_proxy ++ [0; 71] ++ x_connect] = Close 20 /\
  x_accept (x_ready 5001) a x_peer [x_proxy ++ [1; 71] ++ x_connect] = Close 5000 /\
  x_accept (x_ready 4900) a x_peer [x_proxy ++ [1; 71; 192; 0]] = Close 20 /\
  x_accept (x_ready 4900) a x_peer [prefix ++ [0x20; 0; 0; 0]] = Close 20 /\
  prompt a (x_ready 4900) /\ connect_begins V500 140 x_connect [2; 0; 60] /\
  inside x_no_crc x_ascii x_tls x_ws a x_peer (x_proxy ++ [1; 71] ++ x_connect) ([10; 0; 0; 7], 60133) x_connect.
Proof.
  cbv zeta. do 6 (split; [vm_compute; reflexivity|]). split; [|split].
  - intros g G. destruct g; try contradiction; eexists; (split; [reflexivity|lia]).
  - exists [140; 1]. split; [exists [140], 1; split; [reflexivity|]; split; [cbn; lia|]; split; [apply Forall_cons; [lia|apply Forall_nil]|lia]|]. split; reflexivity.
  - exists ([1; 71] ++ x_connect), (71 :: x_connect). split; [|split].
    + exists Stream, (A4 [10; 0; 0; 7] 60133 [127; 0; 0; 1] 1883), []. split; [|split; reflexivity].
      refine (conj _ (conj _ (conj _ (conj _ (conj _ _))))).
      * repeat split; try (repeat constructor; reflexivity); reflexivity.
      * constructor.
      * constructor.
      * intros l1 v l2 E. destruct l1; discriminate.
      * split; intros (v & []).
      * cbn; lia.
    + exists None, [71 :: x_connect]. split; reflexivity.
    + exists (Some [109; 113; 116; 116]), [x_connect]. split; [reflexivity|]. split; [cbn [concat]; rewrite app_nil_r; reflexivity|auto].
Qed.

(** A client that sends nothing on a plain listener is gone after five seconds; one
    that stays silent after the fixed header too. *)
Example C57_deadline_example :
  x_accept (fun _ => None) (ConnArgs false false false false None) x_peer [] = Close 5000 /\
  x_accept (fun g => match g with GHeader => Some 1 | _ => None end) (ConnArgs false false false false None) x_peer [x_connect] = Close 5000 /\
  auth5_wait (fun g => match g with GAuth 1 => None | GWrite _ => Some 0 | _ => Some 800 end) 2 300 = TimedOut 5000 /\
  auth5_wait (fun g => match g with GAuth 1 => Some 4000 | GWrite _ => Some 0 | _ => Some 800 end) 2 300 = Reached 4000.
Proof. vm_compute. repeat split. Qed.

Example C57_length_example :
  var_bytes [0] /\ var_bytes [255; 127] /\
  x_accept (x_ready 30) (ConnArgs false false false false None) x_peer [[16; 0] ++ name_and_level V311 ++ [2]] = Serve3 30 V311 x_peer [[2]] /\
  x_accept (x_ready 30) (ConnArgs false false false false None) x_peer [[16; 255; 127] ++ name_and_level V311 ++ [2]] = Serve3 30 V311 x_peer [[2]].
Proof.
  split; [exists [], 0; split; [reflexivity|]; split; [cbn; lia|]; split; [apply Forall_nil|lia]|].
  split; [exists [255], 127; split; [reflexivity|]; split; [cbn; lia|]; split; [apply Forall_cons; [lia|apply Forall_nil]|lia]|].
  split; vm_compute; reflexivity.
Qed.

Example C57_late_example : exists r2,
  x_accept (fun g => match g with GWs => Some 86400000 | _ => Some 0 end) (ConnArgs false false false true None) x_peer
    [71 :: [16; 7] ++ name_and_level V500] = Serve5 86400000 x_peer 7 r2.
Proof. eexists. vm_compute. reflexivity. Qed.

Example C57_listeners_example :
  start true (Listeners (Some (Listener false (Some TlsTermination))) (Some (TlsListener false true (Some true) true true true)) None None) =
    Some [ConnArgs false true true false None; ConnArgs false true false false (Some RequiredCert)] /\
  start true (Listeners None (Some (TlsListener false true None true true true)) None None) = None.
Proof. split; reflexivity. Qed.

Print Assumptions C57_served_only.
Print Assumptions C57_served.
Print Assumptions C57_deadline_partial.
Print Assumptions C57_connect_deadline_partial.
Print Assumptions C57_websocket_refuted.
Print Assumptions C57_late_refuted.
Print Assumptions C57_length_refuted.
