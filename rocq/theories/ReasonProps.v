(** C55: reason strings are sent only to clients that want them and only if they fit. *)
From Coq Require Import List Bool NArith String Lia.
From Verif Require Import Base BaseLemmas TopicModel MsgModel PendingModel OutModel RouteModel RetainModel GlobModel Sess5Model Sess3Model ConnModel RegModel BrokerModel
  TextModel ScramModel PassModel ConfModel OutSpec InSpec BrokerSpec BrokerFacts ReasonSpec ReasonProofs PassLast BrokerProps ConnProps.
Import ListNotations.
Local Open Scope N_scope.
Local Open Scope list_scope.

(** A DISCONNECT with a reason string is written only to a client whose CONNECT did not set
    Request Problem Information to 0, and the packet is no larger than that client accepts. *)
Theorem C55_disconnect_reason : forall hash5 hash3 pick c h b e b' out k code r, brun hash5 hash3 pick c h b -> bstep hash5 hash3 pick e b = BOk b' out ->
  slen r < 65536 -> In (OPkt5 k (KDisconnect code (Some r))) out ->
  exists q t0 uuid p data, made_by h q k /\ w_e q = EConnect5 t0 uuid p data /\ wants_reasons p /\ size (disconnect_bytes code r) <= client_limit c p.
Proof. exact disconnect_reason. Qed.

(** A packet that cannot be decoded is answered with the reason exactly in that case. *)
Theorem C55_malformed_reason : forall hash5 hash3 pick c h b k r b' out, brun hash5 hash3 pick c h b -> bstep hash5 hash3 pick (EMalformed k r) b = BOk b' out ->
  slen r < 65536 ->
  exists q t0 uuid p data, made_by h q k /\ w_e q = EConnect5 t0 uuid p data /\
    ((wants_reasons p /\ size (disconnect_bytes RC_malformed r) <= client_limit c p) /\ out = [OPkt5 k (KDisconnect RC_malformed (Some r))] \/
     ~ (wants_reasons p /\ size (disconnect_bytes RC_malformed r) <= client_limit c p) /\ out = [OPkt5 k (KDisconnect RC_malformed None)]).
Proof. exact malformed_reason. Qed.

(** Before the session exists: every CONNACK and DISCONNECT with a reason string, except the
    answer to a wrong password. *)
Theorem C55_connect_reason_partial : forall sha256 sha512 pbkdf2 hmac c t samples uuid now ask p l acts pkts e,
  phase5 sha256 sha512 pbkdf2 hmac c t samples uuid now ask p l = (acts, pkts, e) ->
  (forall k r, In (AConnack k) acts -> ka_reason k = Some r -> ka_code k <> 0x86 ->
     wants_reasons p /\ size (connack_bytes k) <= client_limit (fc_cfg c) p) /\
  (forall code r, In (KDisconnect code (Some r)) pkts -> wants_reasons p /\ size (disconnect_bytes code r) <= client_limit (fc_cfg c) p).
Proof.
  intros sha256 sha512 pbkdf2 hmac c t samples uuid now ask p l acts pkts e.
  exact (phase_reasons ScramModel.waiting (password_check sha256 sha512 pbkdf2 t) (scram_first_of (fc_users c) samples) (scram_final_of sha256 hmac) (fun d => utf8 (lit d)) (fc_cfg c) (auth_of c) uuid now ask p l acts pkts e).
Qed.

(** A client that says nothing gets the reason; one that accepts only small packets, and one
    that asked for no problem information, do not. *)
Definition x_picky (i : string) (maxpkt : option N) (problem : option bool) : bev :=
  EConnect5 0 "u" (Connect5 true 60 i None None None None None maxpkt None problem None None) None.
Definition x_dollar (k : N) : bev := EPacket5 k 20 (IPub (WPub5 false Q0 false "$a" "x" (PProps None None [] ""))).
Definition x_text : string := "publish to topic name start with '$' is not allowed".
Example C55_disconnect_case : exists h b, x_run h b /\ (exists b', x_step (x_dollar 0) b = BOk b' [OPkt5 0 (KDisconnect RC_topic_name_invalid (Some x_text))]) /\
  (exists b', x_step (x_dollar 1) b = BOk b' [OPkt5 1 (KDisconnect RC_topic_name_invalid (Some x_text))]) /\
  (exists b', x_step (x_dollar 2) b = BOk b' [OPkt5 2 (KDisconnect RC_topic_name_invalid None)]) /\
  (exists b', x_step (x_dollar 3) b = BOk b' [OPkt5 3 (KDisconnect RC_topic_name_invalid None)]) /\ size (disconnect_bytes RC_topic_name_invalid x_text) = 58.
Proof.
  run_of ([ETick 100000; x_picky "a" None None] ++ x_up 0 ++ [x_picky "b" (Some 58) (Some true)] ++ x_up 1 ++ [x_picky "c" (Some 57) None] ++ x_up 2 ++ [x_picky "d" None (Some false)] ++ x_up 3).
  repeat split; try (eexists; vm_compute; reflexivity).
Qed.

Definition x_open : full_config := FullConfig config_default false false [] [] false [true].
Definition x_locked : full_config := FullConfig config_default true true [] [] false [true].
Definition x_phase (c : full_config) (p : connect5) := fst (fst (phase5 toy toy toy_pbkdf2 ex_hmac c [] [] "id-1" 5 (fun _ => Some (RcNew 3)) p [])).
Definition x_zero (maxpkt : option N) (problem : option bool) : connect5 := Connect5 true 60 "a" None None None None (Some 0) maxpkt None problem None None.
Definition x_zero_text : string := "ReceiveMaximum value=0 is not allowed".
Example C55_connect_case :
  x_phase x_open (x_zero None None) = [AConnack (connack_plain RC_protocol_error (Some x_zero_text))] /\
  x_phase x_open (x_zero (Some 45) None) = [AConnack (connack_plain RC_protocol_error (Some x_zero_text))] /\
  x_phase x_open (x_zero (Some 44) None) = [AConnack (connack_plain RC_protocol_error None)] /\
  x_phase x_open (x_zero None (Some false)) = [AConnack (connack_plain RC_protocol_error None)] /\
  size (connack_bytes (connack_plain RC_protocol_error (Some x_zero_text))) = 45.
Proof. vm_compute. repeat split. Qed.

(** The exception is real: the answer to a wrong password carries a reason string (an empty
    one) although the client asked for none and accepts no packet of that size. *)
Theorem C55_password_reason_refuted : exists p k, x_phase x_locked p = [AConnack k] /\ ka_code k = 0x86 /\ ka_reason k = Some ""%string /\
  ~ wants_reasons p /\ client_limit config_default p < size (connack_bytes k).
Proof.
  exists (Connect5 true 60 "a" (Some "u"%string) (Some "p"%string) None None None (Some 7) None (Some false) None None).
  eexists. split; [vm_compute; reflexivity|]. repeat split; intros H; apply H; reflexivity.
Qed.

(** The limit binds reason strings only: a CONNACK that accepts the client can be larger than
    the largest packet the client said it accepts. *)
Theorem C55_connack_limit_refuted : exists p k, x_phase x_open p = [AConnack k] /\ ka_code k = 0 /\ client_limit config_default p < size (connack_bytes k).
Proof.
  exists (Connect5 true 60 "" None None None None None (Some 10) None None None None).
  eexists. split; [vm_compute; reflexivity|]. repeat split.
Qed.

Print Assumptions C55_disconnect_reason.
Print Assumptions C55_malformed_reason.
Print Assumptions C55_connect_reason_partial.
Print Assumptions C55_password_reason_refuted.
Print Assumptions C55_connack_limit_refuted.
