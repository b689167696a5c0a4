(** CONNECT and AUTH handling.
    Models v5/packet/connect.rs, v5/packet/common.rs:33-71, the connection phase of
    v5/message.rs:119-277, v5/session.rs:92-139, v3/packet/connect.rs:17-167 and
    v3/session.rs:57-85.

    [pw] is the password check (PassModel), [first]/[final] the SCRAM machine
    (ScramModel), both parameters here.  The registry's answer to add_client
    (RegModel) and the generated identifier are inputs. *)
From Coq Require Import List Bool String Ascii NArith.
From Verif Require Import Base TopicModel MsgModel PendingModel AliasModel OutModel RouteModel RetainModel GlobModel
  Sess5Model Sess3Model.
Import ListNotations.
Local Open Scope N_scope.

(** config.rs: the authentication settings read here: [auth.enable] and
    [sasl_mechanisms]; mechanism names as accepted by [SaslMechanism::from_str]
    (config.rs:309-319). *)
Record authcfg := AuthCfg { ac_enable : bool; ac_mechs : list string; ac_v310_len : bool }.
Definition known_mechanism (m : string) : bool := String.eqb m "SCRAM-SHA-256" || String.eqb m "SCRAM-SHA-256-PLUS".

(** mqtt-proto v5 [Connect] with its properties. *)
Record connect5 := Connect5 {
  co_clean : bool; co_keep : N; co_ident : string; co_user : option string; co_pass : option string;
  co_will : option will5;
  co_expiry : option N; co_rmax : option N; co_maxpkt : option N; co_alias : option N;
  co_problem : option bool; co_method : option string; co_data : option string
}.

(** mqtt-proto v5 [Connack] *)
Record connack5 := Connack5 {
  ka_present : bool; ka_code : N; ka_expiry : option N; ka_rmax : option N; ka_maxqos : option qos;
  ka_retain : option bool; ka_maxpkt : option N; ka_assigned : option string; ka_alias : option N;
  ka_wild : option bool; ka_subid : option bool; ka_shared : option bool; ka_keep : option N;
  ka_method : option string; ka_data : option string; ka_reason : option string
}.
Definition connack_plain (code : N) (reason : option string) : connack5 :=
  Connack5 false code None None None None None None None None None None None None None reason.

Definition max_client_id : N := 18446744073709551615.

(** v5/session.rs:92-139 [Session::new] *)
Definition sess5_new (c : config) (now : N) : sess5 :=
  Sess5 max_client_id "" false false false None now
    (Out5 pid_first (PendQ (cf_inflight_client c) (cf_max_pending c) (cf_inflight_timeout c) []) 0 aliases_empty)
    [] [] [] [] 0 None 0 true 0 (cf_inflight_client c) (cf_packet_client c) true.

(** A connection before it is established.  [cn_mach] is the SCRAM exchange in
    progress; [cn_auth] is [authorizing]. *)
Record conn5 (M : Type) := Conn5 {
  cn_s : sess5; cn_assigned : bool; cn_srv_keep : bool; cn_method : option string;
  cn_auth : bool; cn_mach : option M
}.
Arguments Conn5 {M}. Arguments cn_s {M}. Arguments cn_assigned {M}. Arguments cn_srv_keep {M}.
Arguments cn_method {M}. Arguments cn_auth {M}. Arguments cn_mach {M}.

(** The registry's answer: state.rs AddClientReceipt (PresentV3 cannot be
    returned to a v5 client). *)
Inductive receipt5 := RcNew (id : client_id) | RcPresent (st : state5).

Section Conn.
  Variable M : Type.
  Variable pw : string -> string -> bool.                      (* check_password *)
  Variable first : string -> option (M * string).              (* client-first: machine, server-first *)
  Variable final : M -> string -> option (bool * string).      (* client-final: authenticated, server-final *)
  Variable utf8 : string -> bool.                              (* String::from_utf8 succeeds *)

  (** What the server does on the wire before the session is established (v5/message.rs:179-263). *)
  Inductive cact5 :=
  | AConnack (k : connack5)
  | AAuth (data : string).                                     (* AUTH, continue authentication *)

  (** connack size: only used to drop the reason string, v5/packet/common.rs:34-72 *)
  Definition connack_len (reason : string) : N :=
    let pl := 3 + slen reason in let r := 2 + var_len pl + pl in 1 + var_len r + r.

  (** common.rs:33-71 [build_error_connack] *)
  Definition error_connack (code : N) (reason : string) (s : sess5) : sess5 * connack5 :=
    let keep := s_problem s && (connack_len reason <=? s_maxpkt s) in
    (with_disc true true s, connack_plain code (if keep then Some reason else None)).

  Definition opt_or {A} (o : option A) (d : A) : A := match o with Some x => x | None => d end.

  (** connect.rs:52-66 *)
  Definition password_ok (a : authcfg) (user pass : option string) : bool :=
    if ac_enable a then
      match user, pass with Some u, Some p => pw u p | _, _ => false end
    else true.

  (** connect.rs:83-90 *)
  Definition clamp_keep (c : config) (k : N) : N :=
    if cf_max_keep_alive c <? k then cf_max_keep_alive c
    else if k <? cf_min_keep_alive c then cf_min_keep_alive c else k.

  (** connect.rs:75-139: the session after the accepted part of CONNECT. *)
  Definition connect_session (c : config) (uuid : string) (p : connect5) (s : sess5) : sess5 :=
    Sess5 (s_id s) (if String.eqb (co_ident p) "" then uuid else co_ident p) (s_connected s) (s_cdisc s) (s_sdisc s)
      (s_ctime s) (s_last s)
      (Out5 (o5_next (s_out s)) (o5_q (s_out s)) (opt_or (co_alias p) 0) (o5_al (s_out s)))
      (s_qos2 s) (s_subs s) (s_alias s) (s_bcast s) (s_bcnt s) (co_will p) (clamp_keep c (co_keep p)) (co_clean p)
      (opt_or (co_expiry p) 0) (opt_or (co_rmax p) (cf_inflight_client c))
      (opt_or (co_maxpkt p) (cf_packet_client c)) (opt_or (co_problem p) true).

  (** connect.rs:24-213 [handle_connect] up to add_client. *)
  Inductive pre5 :=
  | PErr                                                      (* Err: connection closed, no packet *)
  | PRefuse (k : connack5)                                    (* error CONNACK, not connected *)
  | PChallenge (cn : conn5 M) (data : string)                 (* AUTH sent, exchange begins *)
  | PGo (cn : conn5 M).                                       (* session_connect is called *)

  (** connect.rs:547-646 [scram_client_first], not connected *)
  Definition scram_first (data : option string) (s : sess5) : M * string + connack5 :=
    let refuse r := inr (snd (error_connack RC_not_authorized r s)) in
    match data with
    | None => refuse "client first data is missing"%string
    | Some d =>
        if negb (utf8 d) then refuse "client first data must be utf8 string"%string
        else match first d with
             | Some x => inl x
             | None => refuse "invalid client first data"%string
             end
    end.

  Definition handle_connect5 (c : config) (a : authcfg) (uuid : string) (now : N) (p : connect5) : pre5 :=
    let s0 := sess5_new c now in
    if negb (password_ok a (co_user p) (co_pass p))
    then PRefuse (snd (error_connack RC_bad_user_or_password "" s0))
    else
      let s := connect_session c uuid p s0 in
      let refuse code reason := PRefuse (snd (error_connack code reason s)) in
      match co_rmax p with
      | Some 0 => refuse RC_protocol_error "ReceiveMaximum value=0 is not allowed"%string
      | _ =>
          if s_maxpkt s =? 0 then refuse RC_protocol_error "MaximumPacketSize value=0 is not allowed"%string
          else if match co_data p, co_method p with Some _, None => true | _, _ => false end
          then refuse RC_protocol_error "AuthenticationMethod is missing"%string
          else
            let bad_will := match co_will p with
                            | Some w => String.eqb (wl_topic w) "" || starts_with_dollar (wl_topic w)
                            | None => false
                            end in
            if bad_will then PErr
            else
              let cn := Conn5 s (String.eqb (co_ident p) "") (negb (s_keep s =? co_keep p)) (co_method p) false None in
              match co_method p with
              | None => PGo cn
              | Some m =>
                  if negb (known_mechanism m) || negb (existsb (String.eqb m) (ac_mechs a))
                  then refuse RC_bad_auth_method "auth method not supported"%string
                  else
                    match scram_first (co_data p) s with
                    | inr k => PRefuse k
                    | inl (mach, data) =>
                        PChallenge (Conn5 s (cn_assigned cn) (cn_srv_keep cn) (co_method p) true (Some mach)) data
                    end
              end
      end.

  (** connect.rs:215-345 [session_connect]; the code of CONNACK decides whether
      the session is connected.  [None]: the QoS lookup panics. *)
  Definition resume5 (st : state5) (s : sess5) : sess5 :=
    Sess5 (st_id st) (s_ident s) (s_connected s) (s_cdisc s) (s_sdisc s) (s_ctime s) (s_last s)
      (Out5 (o5_next (st_out st)) (reset_last_sent (o5_q (st_out st))) (o5_amax (s_out s)) (o5_al (s_out s)))
      (st_qos2 st) (st_subs st) (s_alias s) (s_bcast s) (s_bcnt s) (s_will s) (s_keep s) (s_clean s)
      (s_expiry s) (s_rmax s) (s_maxpkt s) (s_problem s).
  Definition with_id (id : client_id) (s : sess5) : sess5 :=
    Sess5 id (s_ident s) (s_connected s) (s_cdisc s) (s_sdisc s) (s_ctime s) (s_last s) (s_out s)
      (s_qos2 s) (s_subs s) (s_alias s) (s_bcast s) (s_bcnt s) (s_will s) (s_keep s) (s_clean s)
      (s_expiry s) (s_rmax s) (s_maxpkt s) (s_problem s).
  Definition with_ctime (t : N) (s : sess5) : sess5 :=
    Sess5 (s_id s) (s_ident s) true (s_cdisc s) (s_sdisc s) (Some t) (s_last s) (s_out s)
      (s_qos2 s) (s_subs s) (s_alias s) (s_bcast s) (s_bcnt s) (s_will s) (s_keep s) (s_clean s)
      (s_expiry s) (s_rmax s) (s_maxpkt s) (s_problem s).

  Definition will_code (c : config) (mq : qos) (w : option will5) : N :=
    match w with
    | Some w => if wl_retain w && negb (cf_retain c) then RC_retain_not_supported
                else if negb (qos_leb (wl_qos w) mq) then RC_qos_not_supported
                else RC_success
    | None => RC_success
    end.

  Definition session_connect5 (c : config) (now : N) (rc : receipt5) (data : option string) (cn : conn5 M)
      : option (sess5 * connack5) :=
    let s := cn_s cn in
    let '(s1, present) := match rc with
                          | RcNew id => (with_id id s, false)
                          | RcPresent st => if negb (s_clean s) then (resume5 st s, true)
                                            else (with_id (st_id st) s, false)
                          end in
    let o := s_out s1 in
    let s2 := with_out (Out5 (o5_next o) (set_max_inflight (s_rmax s1) (o5_q o)) (o5_amax o) (o5_al o)) s1 in
    let over := cf_max_expiry c <? s_expiry s2 in
    let s3 := if over then with_expiry (cf_max_expiry c) s2 else s2 in
    match max_allowed_qos c with
    | None => None
    | Some mq =>
        let code := will_code c mq (s_will s3) in
        let k := Connack5 present code
                   (if over then Some (s_expiry s3) else None)
                   (if cf_inflight_server c =? 65535 then None else Some (cf_inflight_server c))
                   (if qos_eqb mq L2 then None else Some mq)
                   (if cf_retain c then None else Some false)
                   (if cf_packet_server c <? 4294967295 then Some (cf_packet_server c) else None)
                   (if cn_assigned cn then Some (s_ident s3) else None)
                   (if 0 <? cf_alias_max c then Some (cf_alias_max c) else None)
                   (if cf_wildcard c then None else Some false)
                   (if cf_subid c then None else Some false)
                   (if cf_shared c then None else Some false)
                   (if cn_srv_keep cn then Some (s_keep s3) else None)
                   (match data with Some _ => cn_method cn | None => None end) data None in
        Some (if code =? RC_success then with_ctime now s3 else s3, k)
    end.

  (** connect.rs:376-545 [handle_auth] while not connected: the exchange goes on.
      mqtt-proto [Auth]: reason code (0 success, 0x18 continue, 0x19 re-auth),
      method and data. *)
  Record auth5 := Auth5 { au_code : N; au_method : option string; au_data : option string }.
  Inductive ares5 :=
  | AStop (k : pkt5 + connack5)                               (* refused: DISCONNECT or CONNACK *)
  | AMore (cn : conn5 M) (data : string)                      (* another server-first *)
  | ADone (cn : conn5 M) (data : string)                      (* session_connect is called *)
  | APanic.                                                   (* decode_client_final without a machine *)

  (** [==] on [Option<Arc<String>>], connect.rs:376-545. *)
  Definition opt_eqb (a b : option string) : bool :=
    match a, b with Some x, Some y => String.eqb x y | None, None => true | _, _ => false end.

  (** connect.rs:376-545 [handle_auth] *)
  Definition handle_auth5 (p : auth5) (cn : conn5 M) : ares5 :=
    let s := cn_s cn in
    let refuse code reason := AStop (inr (snd (error_connack code reason s))) in
    let refused code reason := AStop (inl (snd (error_disconnect code reason s))) in
    match cn_method cn with
    | None => refused RC_protocol_error "auth method not presented in CONNECT"%string
    | Some m =>
        if negb (opt_eqb (Some m) (au_method p))
        then refuse RC_protocol_error "auth method not same with CONNECT"%string
        else if au_code p =? 0 then refuse RC_protocol_error "invalid auth reason code"%string
        else if au_code p =? 0x18 then
          if negb (cn_auth cn) then refused RC_protocol_error "invalid auth reason code"%string
          else match au_data p with
               | None => refuse RC_not_authorized "cilent final auth data is missing"%string
               | Some d =>
                   if negb (utf8 d) then refuse RC_not_authorized "client final auth data must be utf8 string"%string
                   else match cn_mach cn with
                        | None => APanic
                        | Some mach =>
                            match final mach d with
                            | Some (true, data) =>
                                ADone (Conn5 s (cn_assigned cn) (cn_srv_keep cn) (cn_method cn) false (Some mach)) data
                            | _ => refuse RC_not_authorized "invalid client final data"%string
                            end
                        end
               end
        else
          if cn_auth cn then refuse RC_protocol_error "invalid auth reason code"%string
          else match scram_first (au_data p) s with
               | inr k => AStop (inr k)
               | inl (mach, data) =>
                   AMore (Conn5 s (cn_assigned cn) (cn_srv_keep cn) (cn_method cn) true (Some mach)) data
               end
    end.

  (** message.rs:179-269: the connection phase, as the list of packets received
      after CONNECT ([None]: not an AUTH packet; the list ends where the client
      stops sending).  [ask] is the registry's answer to add_client, or an error.
      Result: packets written in order, and how the phase ended. *)
  Inductive cend5 :=
  | CFail                                                     (* connection closed *)
  | CWait                                                     (* waiting for the client *)
  | CCrash
  | COnline (s : sess5) (present : bool).

  Definition finish5 (c : config) (now : N) (ask : string -> option receipt5) (data : option string) (cn : conn5 M)
      : list cact5 * cend5 :=
    match ask (s_ident (cn_s cn)) with
    | None => ([], CFail)
    | Some rc =>
        match session_connect5 c now rc data cn with
        | None => ([], CCrash)
        | Some (s, k) => ([AConnack k], if s_connected s then COnline s (ka_present k) else CFail)
        end
    end.

  (** v5/message.rs:182-263.  The loop runs at most twice; after the quota an unfinished exchange is "not connected". *)
  Fixpoint auth_loop5 (quota : nat) (c : config) (now : N) (ask : string -> option receipt5)
      (l : list (option auth5)) (cn : conn5 M) : list cact5 * list pkt5 * cend5 :=
    match quota with
    | O => ([], [], CFail)
    | S quota' =>
        match l with
        | [] => ([], [], CWait)
        | None :: _ => ([AConnack (snd (error_connack RC_protocol_error "" (cn_s cn)))], [], CFail)
        | Some p :: r =>
            match handle_auth5 p cn with
            | AStop (inl k) => ([], [k], CFail)
            | AStop (inr k) => ([AConnack k], [], CFail)
            | APanic => ([], [], CCrash)
            | ADone cn' data => let '(a, e) := finish5 c now ask (Some data) cn' in (a, [], e)
            | AMore cn' data =>
                let '(a, k, e) := auth_loop5 quota' c now ask r cn' in (AAuth data :: a, k, e)
            end
        end
    end.

  (** v5/message.rs:179-269.  Hooks are in HookModel. *)
  Definition connect_phase5 (c : config) (a : authcfg) (uuid : string) (now : N) (ask : string -> option receipt5)
      (p : connect5) (l : list (option auth5)) : list cact5 * list pkt5 * cend5 :=
    match handle_connect5 c a uuid now p with
    | PErr => ([], [], CFail)
    | PRefuse k => ([AConnack k], [], CFail)
    | PGo cn => let '(x, e) := finish5 c now ask None cn in (x, [], e)
    | PChallenge cn data =>
        let '(x, k, e) := auth_loop5 2 c now ask l cn in (AAuth data :: x, k, e)
    end.

  (** ** MQTT 3: v3/packet/connect.rs:17-167 *)
  Record connect3 := Connect3 {
    c3_v310 : bool; c3_clean : bool; c3_keep : N; c3_ident : string; c3_user : option string; c3_pass : option string;
    c3_will : option will3
  }.
  Inductive connack3 := Connack3 (present : bool) (code : N).  (* 0 accepted, 2 identifier rejected, 4 bad user/password *)
  Inductive receipt3 := RcNew3 (id : client_id) | RcPresent3 (st : state3).

  (** v3/session.rs:57-85 [Session::new] *)
  Definition sess3_new (c : config) (now : N) : sess3 :=
    Sess3 max_client_id "" false false false None now
      (Out3 pid_first (PendQ (cf_inflight_client c) (cf_max_pending c) (cf_inflight_timeout c) []))
      [] [] [] 0 None 0 true.

  Inductive pre3 := PErr3 | PRefuse3 (k : connack3) | PGo3 (s : sess3).

  (** connect.rs:44-113 *)
  Definition handle_connect3 (c : config) (a : authcfg) (uuid : string) (now : N) (p : connect3) : pre3 :=
    if c3_v310 p && (String.eqb (c3_ident p) "" || (ac_v310_len a && (23 <? slen (c3_ident p))))
    then PRefuse3 (Connack3 false 2)
    else if negb (c3_v310 p) && String.eqb (c3_ident p) "" && negb (c3_clean p)
    then PRefuse3 (Connack3 false 2)
    else if negb (password_ok a (c3_user p) (c3_pass p)) then PRefuse3 (Connack3 false 4)
    else
      let bad_will := match c3_will p with
                      | Some w => String.eqb (wl3_topic w) "" || starts_with_dollar (wl3_topic w)
                      | None => false
                      end in
      if bad_will then PErr3
      else
        let s := sess3_new c now in
        PGo3 (Sess3 (z_id s) (if String.eqb (c3_ident p) "" then uuid else c3_ident p) (c3_v310 p) false false None
                (z_last s) (z_out s) [] [] [] 0 (c3_will p) (c3_keep p) (c3_clean p)).

  (** connect.rs:115-166 *)
  Definition session_connect3 (now : N) (rc : receipt3) (s : sess3) : sess3 * connack3 :=
    let '(s1, present) :=
      match rc with
      | RcNew3 id =>
          (Sess3 id (z_ident s) (z_v310 s) (z_connected s) (z_disc s) (z_ctime s) (z_last s) (z_out s) (z_qos2 s)
             (z_subs s) (z_bcast s) (z_bcnt s) (z_will s) (z_keep s) (z_clean s), false)
      | RcPresent3 st =>
          if negb (z_clean s) && Bool.eqb (z_v310 s) (st3_v310 st)
          then (Sess3 (st3_id st) (z_ident s) (z_v310 s) (z_connected s) (z_disc s) (z_ctime s) (z_last s)
                  (out3_resume (st3_out st)) (st3_qos2 st) (st3_subs st) (z_bcast s) (z_bcnt s) (z_will s) (z_keep s)
                  (z_clean s), true)
          else (Sess3 (st3_id st) (z_ident s) (z_v310 s) (z_connected s) (z_disc s) (z_ctime s) (z_last s) (z_out s)
                  (z_qos2 s) (z_subs s) (z_bcast s) (z_bcnt s) (z_will s) (z_keep s) (z_clean s), false)
      end in
    (Sess3 (z_id s1) (z_ident s1) (z_v310 s1) true (z_disc s1) (Some now) (z_last s1) (z_out s1) (z_qos2 s1)
       (z_subs s1) (z_bcast s1) (z_bcnt s1) (z_will s1) (z_keep s1) (z_clean s1), Connack3 present 0).
End Conn.
