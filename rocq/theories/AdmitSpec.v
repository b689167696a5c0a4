(** Which answer a CONNECT gets: the rules, from the fields of CONNECT, the
    configuration and the password table alone. *)
From Coq Require Import List Bool Arith NArith Ascii String.
From Verif Require Import Base MsgModel GlobModel Sess5Model Sess3Model ConnModel TextModel TextSpec PassModel PassSpec ScramModel ScramSpec
  ConfModel ConnSpec.
Import ListNotations.
Local Open Scope N_scope.

Inductive answer :=
| Silence                    (* the connection is closed without a CONNACK *)
| Refusal (code : N)         (* one CONNACK with this code, then the connection is closed *)
| Pending                    (* the server has sent AUTH and waits *)
| Served.                    (* CONNACK with success, and the session is online *)

(** A topic nobody may publish to. *)
Definition bad_topic (s : string) : Prop := s = ""%string \/ exists r, s = String "$" r.

Section Rules.
  Variable sha256 sha512 : text -> text.
  Variable pbkdf2 : bool -> N -> text -> text -> nat -> text.
  Variable hmac : text -> text -> text.
  Variable c : full_config.
  Variable t : table.

  Definition entitled (user pass : option string) : Prop :=
    fc_auth c = true -> password_right sha256 sha512 pbkdf2 t user pass.

  (** ** MQTT 3.1 and 3.1.1 *)
  (** 3.1: an identifier is needed, and has at most 23 bytes if the server insists.
      3.1.1: none is needed for a clean session. *)
  Definition bad_identifier (p : connect3) : Prop :=
    if c3_v310 p
    then c3_ident p = ""%string \/ (fc_v310_len c = true /\ (23 < String.length (c3_ident p))%nat)
    else c3_ident p = ""%string /\ c3_clean p = false.
  Definition bad_will3 (p : connect3) : Prop := exists w, c3_will p = Some w /\ bad_topic (wl3_topic w).

  Inductive answer3 (p : connect3) : answer -> Prop :=
  | A3_identifier : bad_identifier p -> answer3 p (Refusal 2)
  | A3_password : ~ bad_identifier p -> ~ entitled (c3_user p) (c3_pass p) -> answer3 p (Refusal 4)
  | A3_will : ~ bad_identifier p -> entitled (c3_user p) (c3_pass p) -> bad_will3 p -> answer3 p Silence
  | A3_good : ~ bad_identifier p -> entitled (c3_user p) (c3_pass p) -> ~ bad_will3 p -> answer3 p Served.

  (** What the server does, as an answer.  The session it goes on with is the
      one CONNECT describes. *)
  Definition shows3 (uuid : string) (p : connect3) (r : pre3) (a : answer) : Prop :=
    match a with
    | Silence => r = PErr3
    | Refusal code => r = PRefuse3 (Connack3 false code)
    | Pending => False
    | Served => exists s, r = PGo3 s /\ z_ident s = (if String.eqb (c3_ident p) "" then uuid else c3_ident p) /\
                  z_v310 s = c3_v310 p /\ z_clean s = c3_clean p /\ z_keep s = c3_keep p /\ z_will s = c3_will p
    end.

  (** ** MQTT 5 *)
  Variable samples : list N.
  Definition malformed (p : connect5) : Prop :=
    co_rmax p = Some 0 \/ co_maxpkt p = Some 0 \/ (co_data p <> None /\ co_method p = None).
  Definition bad_will (p : connect5) : Prop := exists w, co_will p = Some w /\ bad_topic (wl_topic w).
  Definition offered (m : string) : Prop := exists k, In k (fc_mechs c) /\ m = mechanism_name k.
  (** CONNECT carries the first SCRAM message of a configured user. *)
  Definition opening (p : connect5) : Prop :=
    exists d flag az name nonce, co_data p = Some d /\ unicode (lit d) /\ (flag = lit "n" \/ flag = lit "y") /\
      first_message (lit d) flag az name nonce /\ aget name (fc_users c) <> None.
  (** [d] completes the exchange CONNECT began. *)
  Definition proof_right (p : connect5) (d : option string) : Prop :=
    exists d1 d2, co_data p = Some d1 /\ d = Some d2 /\ unicode (lit d2) /\
      scram_right sha256 hmac (fc_users c) samples (lit d1) (lit d2).

  Definition will_kept_unavailable (p : connect5) : Prop :=
    exists w, co_will p = Some w /\ wl_retain w = true /\ cf_retain (fc_cfg c) = false.
  Definition will_qos_unavailable (p : connect5) : Prop :=
    exists w, co_will p = Some w /\ cf_max_qos (fc_cfg c) < qos_num (wl_qos w).

  (** The client is who it says.  [known]: the registry accepts the identifier. *)
  Inductive final_answer (p : connect5) (known : Prop) : answer -> Prop :=
  | F_registry : ~ known -> final_answer p known Silence
  | F_retain : known -> will_kept_unavailable p -> final_answer p known (Refusal 0x9A)
  | F_qos : known -> ~ will_kept_unavailable p -> will_qos_unavailable p -> final_answer p known (Refusal 0x9B)
  | F_good : known -> ~ will_kept_unavailable p -> ~ will_qos_unavailable p -> final_answer p known Served.

  (** The server has sent AUTH; [l] is what the client sends next. *)
  Inductive exchange_answer (p : connect5) (known : Prop) : list (option auth5) -> answer -> Prop :=
  | E_wait : exchange_answer p known [] Pending
  | E_other x l : (forall d, x <> Some (Auth5 0x18 (co_method p) d)) -> exchange_answer p known (x :: l) (Refusal 0x82)
  | E_wrong d l : ~ proof_right p d -> exchange_answer p known (Some (Auth5 0x18 (co_method p) d) :: l) (Refusal 0x87)
  | E_right d l a : proof_right p d -> final_answer p known a -> exchange_answer p known (Some (Auth5 0x18 (co_method p) d) :: l) a.

  (** CONNECT passes the checks that do not depend on an exchange. *)
  Definition sound_connect (p : connect5) : Prop :=
    entitled (co_user p) (co_pass p) /\ ~ malformed p /\ ~ bad_will p.
  (** The server answers with AUTH. *)
  Definition challenged (p : connect5) : Prop :=
    sound_connect p /\ (exists m, co_method p = Some m /\ offered m) /\ opening p.

  Inductive answer5 (p : connect5) (known : Prop) (l : list (option auth5)) : answer -> Prop :=
  | A5_password : ~ entitled (co_user p) (co_pass p) -> answer5 p known l (Refusal 0x86)
  | A5_malformed : entitled (co_user p) (co_pass p) -> malformed p -> answer5 p known l (Refusal 0x82)
  | A5_will : entitled (co_user p) (co_pass p) -> ~ malformed p -> bad_will p -> answer5 p known l Silence
  | A5_plain a : sound_connect p -> co_method p = None -> final_answer p known a -> answer5 p known l a
  | A5_method m : sound_connect p -> co_method p = Some m -> ~ offered m -> answer5 p known l (Refusal 0x8C)
  | A5_first m : sound_connect p -> co_method p = Some m -> offered m -> ~ opening p -> answer5 p known l (Refusal 0x87)
  | A5_exchange a : challenged p -> exchange_answer p known l a -> answer5 p known l a.

  (** What the server does, as an answer: [acts] are the CONNACK and AUTH packets it
      sends, [pkts] other packets, [e] the end of the phase. *)
  Definition is_auth (x : cact5) : Prop := match x with AAuth _ => True | _ => False end.
  Definition shows5 (r : list cact5 * list pkt5 * cend5) (a : answer) : Prop :=
    let '(acts, pkts, e) := r in
    pkts = [] /\ exists auths rest, acts = (auths ++ rest)%list /\ Forall is_auth auths /\
    match a with
    | Silence => rest = [] /\ e = CFail
    | Refusal code => code <> 0 /\ (exists k, rest = [AConnack k] /\ ka_code k = code) /\ e = CFail
    | Pending => rest = [] /\ e = CWait
    | Served => (exists k, rest = [AConnack k] /\ ka_code k = 0) /\ exists s present, e = COnline s present
    end.
End Rules.
