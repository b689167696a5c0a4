(** What it means to be authenticated, and what CONNACK tells the client. *)
From Coq Require Import List Bool Arith NArith Ascii String.
From Verif Require Import Base MsgModel GlobModel Sess5Model ConnModel TextModel PassModel PassSpec ScramModel ScramSpec ConfModel.
Import ListNotations.
Local Open Scope N_scope.

Section Auth.
  Variable sha256 sha512 : text -> text.
  Variable pbkdf2 : bool -> N -> text -> text -> nat -> text.
  Variable hmac : text -> text -> text.

  (** The user name and password sent are those of an entry of the table. *)
  Definition password_right (t : table) (user pass : option string) : Prop :=
    exists u p e, user = Some u /\ pass = Some p /\ aget (lit u) t = Some e /\ right_password sha256 sha512 pbkdf2 e (lit p).

  (** The SCRAM exchange: first message [d1], final message [d2], for a configured user,
      with the RFC proof for the stored hash over exactly these messages. *)
  Definition scram_right (users : list (text * scram_user)) (samples : list N) (d1 d2 : text) : Prop :=
    exists flag az name nonce u ext, (flag = lit "n" \/ flag = lit "y") /\ first_message d1 flag az name nonce /\
      aget name users = Some u /\ (az = None \/ az = Some name) /\ extension ext /\
      let full := (nonce ++ nonce_of samples)%list in
      let sf := (lit "r=" ++ full ++ lit ",s=" ++ b64_encode true (su_salt u) ++ lit ",i=" ++ show (su_iterations u))%list in
      d2 = (lit "c=" ++ b64_encode true (gs2_header az) ++ lit ",r=" ++ full ++ lit ",p=" ++
            b64_encode true (rfc_proof hmac sha256 (su_hash u) (auth_message (lit "n=" ++ name ++ lit ",r=" ++ nonce) sf (gs2_header az) full)) ++ ext)%list.

  (** A v5 connection has proved who it is: by password if authentication is on, and by
      the SCRAM exchange if it named a mechanism. *)
  Definition authenticated (c : full_config) (t : table) (samples : list N) (p : connect5) (l : list (option auth5)) : Prop :=
    (fc_auth c = true -> password_right t (co_user p) (co_pass p)) /\
    match co_method p with
    | None => True
    | Some m =>
        (exists k, In k (fc_mechs c) /\ m = mechanism_name k) /\
        exists d1 d2 rest, co_data p = Some d1 /\ l = Some (Auth5 0x18 (Some m) (Some d2)) :: rest /\
          scram_right (fc_users c) samples (lit d1) (lit d2)
    end.
End Auth.

(** What the client reads in CONNACK: a property that is absent has its default
    (MQTT 5, section 3.2.2.3). *)
Definition told_expiry (p : connect5) (k : connack5) : N := match ka_expiry k with Some e => e | None => match co_expiry p with Some e => e | None => 0 end end.
Definition told_keep (p : connect5) (k : connack5) : N := match ka_keep k with Some e => e | None => co_keep p end.
Definition told_receive_max (k : connack5) : N := match ka_rmax k with Some r => r | None => 65535 end.
Definition told_max_packet (k : connack5) : N := match ka_maxpkt k with Some r => r | None => 4294967295 end.
Definition told_alias_max (k : connack5) : N := match ka_alias k with Some r => r | None => 0 end.
Definition told_max_qos (k : connack5) : qos := match ka_maxqos k with Some q => q | None => L2 end.
Definition told (b : option bool) : bool := match b with Some b => b | None => true end.
