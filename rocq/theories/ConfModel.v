(** The configuration checks, and the connection phase with the password table and the
    SCRAM users in place.  Models config.rs:250-319 and the calls in
    v5/packet/connect.rs and v3/packet/connect.rs. *)
From Coq Require Import List Bool Arith NArith Ascii String.
From Verif Require Import Base GlobModel Sess5Model ConnModel TextModel PassModel ScramModel.
Import ListNotations.
Local Open Scope N_scope.

(** config.rs:126-140 [SaslMechanism]; names by [FromStr], config.rs:309-319. *)
Inductive mechanism := MScram256 | MScram256Plus.
Definition mechanism_name (m : mechanism) : string :=
  match m with MScram256 => "SCRAM-SHA-256" | MScram256Plus => "SCRAM-SHA-256-PLUS" end.

(** config.rs:11-52 [Config]: the part GlobModel has, and the fields [is_valid] reads.
    A listener is present or not. *)
Record full_config := FullConfig {
  fc_cfg : config;
  fc_auth : bool; fc_password_file : bool;
  fc_users : list (text * scram_user); fc_mechs : list mechanism; fc_v310_len : bool;
  fc_listeners : list bool                                     (* mqtt, mqtts, ws, wss, http *)
}.

(** config.rs:250-297 [is_valid] *)
Definition is_valid (c : full_config) : bool :=
  negb (fc_auth c && negb (fc_password_file c)) &&
  negb (2 <? cf_max_qos (fc_cfg c)) &&
  negb (cf_packet_client (fc_cfg c) =? 0) &&
  negb (cf_packet_server (fc_cfg c) =? 0) &&
  forallb (fun m => match m with MScram256 => true | _ => false end) (fc_mechs c) &&
  forallb (fun u => negb (su_iterations (snd u) <? 4096)) (fc_users c) &&
  existsb (fun b => b) (fc_listeners c).

Definition auth_of (c : full_config) : authcfg := AuthCfg (fc_auth c) (map mechanism_name (fc_mechs c)) (fc_v310_len c).

Section Phase.
  Variable sha256 sha512 : text -> text.
  Variable pbkdf2 : bool -> N -> text -> text -> nat -> text.
  Variable hmac : text -> text -> text.

  (** connect.rs:54-58 of both versions *)
  Definition password_check (t : table) (u p : string) : bool := check_password sha256 sha512 pbkdf2 t (lit u) (lit p).
  Definition scram_first_of (users : list (text * scram_user)) (samples : list N) (d : string) : option (waiting * string) :=
    match serve_first users samples (lit d) with Some (w, f) => Some (w, string_of_list_ascii f) | None => None end.
  Definition scram_final_of (w : waiting) (d : string) : option (bool * string) :=
    match serve_final hmac sha256 w (lit d) with Some (b, m) => Some (b, string_of_list_ascii m) | None => None end.

  Definition phase5 (c : full_config) (t : table) (samples : list N) (uuid : string) (now : N) (ask : string -> option receipt5)
      (p : connect5) (l : list (option auth5)) : list cact5 * list pkt5 * cend5 :=
    connect_phase5 waiting (password_check t) (scram_first_of (fc_users c) samples) scram_final_of (fun d => utf8 (lit d))
      (fc_cfg c) (auth_of c) uuid now ask p l.
  Definition phase3 (c : full_config) (t : table) (uuid : string) (now : N) (p : connect3) : pre3 :=
    handle_connect3 (password_check t) (fc_cfg c) (auth_of c) uuid now p.
End Phase.
