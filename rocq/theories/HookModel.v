(** The sessions as the event loop sees them, with hooks.
    Models hook.rs:240-371 and 481-799 ([handle_request] for the packet hooks),
    [handle_packet] with hooks enabled (v5/message.rs:427-528,
    v3/message.rs:281-359), [apply_action] (v5/message.rs:538-634,
    v3/message.rs:361-433) and the [OnlineSession] implementations
    (v5/message.rs:320-656, v3/message.rs:205-460).  The Hook trait's methods are
    the application's code: their answers are inputs. *)
From Coq Require Import List Bool String Ascii NArith.
From Verif Require Import Base TopicModel MsgModel PendingModel OutModel RouteModel RetainModel GlobModel Sess5Model Sess3Model ConnModel OnlineModel.
Import ListNotations.
Local Open Scope N_scope.

(** config.rs [HookConfig]: the flags for packets. *)
Record hooks := Hooks { hk_publish : bool; hk_subscribe : bool; hk_unsubscribe : bool }.

(** hook.rs:283-311 [HookAction]; of the publish properties only the expiry is
    kept apart. *)
Inductive action :=
| ActPub (retain : bool) (q : qos) (topic payload : string) (props : pprops)
| ActSub (fs : list (string * qos))
| ActUnsub (fs : list string).

(** Errors of the packet decoder: reading failed, or the bytes are malformed. *)
Inductive derr := DIo | DMalformed (text : string).

(** state.rs:262-290 [ControlMessage] *)
Inductive control := COnline3 | COnline5 | CKick | CExpired (connected : N) | CWillDelay (connected : N).

Section Hooked.
  Variable hk : hooks.

  (** ** v5 *)
  Section V5.
  Variable hash : wpub5 -> N.
  Variable pick : string -> string -> N.
  Variable encode : pkt5 -> option (list N).

  (** The pending hook request: the packet. *)
  Inductive req5 :=
  | QPub (w : wpub5)
  | QSub (p : pid) (id : option N) (fs : list (string * subopts))
  | QUnsub (p : pid) (fs : list string).

  (** What the application answered: the packet, perhaps changed; a code (0 is
      Success, otherwise the MQTT reason code it maps to, hook.rs:313-371); and
      the result of the after-hook, an error or actions. *)
  Inductive ans5 :=
  | APub (w : wpub5) (code : N) (after : option (list action))
  | ASub (p : pid) (id : option N) (fs : list (string * subopts)) (code : N) (after : option (list action))
  | AUnsub (p : pid) (fs : list string) (code : N) (after : option (list action)).

  Definition res5 := hp pkt5 sess5 glob.

  (** The after-hook: [Err] ends the connection. *)
  Definition finish_hook {A S P G} (after : option A) (s : S) (g : G) (out : list P) : hp P S G A :=
    match after with Some a => HpOk s g out a | None => HpErr s g out end.

  Definition is_error5 (out : list pkt5) : bool :=
    match out with [KDisconnect _ _] => true | _ => false end.

  (** hook.rs:509-631 *)
  Definition hook5 (now : N) (q : req5) (a : ans5) (s : sess5) (g : glob) : res5 (list action) :=
    match q, a with
    | QPub _, APub w code after =>
        if code =? 0 then
          match handle_publish5 hash pick w s g with
          | Panic => HpPanic
          | Done (s', g', out) => if is_error5 out then HpOk s' g' out [] else finish_hook after s' g' out
          end
        else HpOk s g match w5_qp w with Q0 => [] | Q1 p => [KPuback p code] | Q2 p => [KPubrec p code] end []
    | QSub _ _ _, ASub p id fs code after =>
        if code =? 0 then
          match handle_subscribe5 now p id fs s g with
          | Panic => HpPanic
          | Done (s', g', out) => finish_hook after s' g' out
          end
        else HpOk s g [KSuback p (map (fun _ => code) fs)] []
    | QUnsub _ _, AUnsub p fs code after =>
        if code =? 0 then
          match handle_unsubscribe5 p fs s g with
          | Panic => HpPanic
          | Done (s', g', out) => finish_hook after s' g' out
          end
        else HpOk s g [KUnsuback p (map (fun _ => code) fs)] []
    | _, _ => HpErr s g []                       (* no such answer to this request *)
    end.

  (** v5/message.rs:427-528 [handle_packet] *)
  Definition packet5 (now : N) (x : N * in5) (s : sess5) (g : glob) : res5 (option req5) :=
    let request := if cf_packet_server (g_cfg g) <? fst x then None else
      match snd x with
      | IPub w => if hk_publish hk then Some (QPub w) else None
      | ISub p id fs => if hk_subscribe hk then Some (QSub p id fs) else None
      | IUnsub p fs => if hk_unsubscribe hk then Some (QUnsub p fs) else None
      | _ => None
      end in
    match request with
    | Some q => HpOk s g [] (Some q)
    | None =>
        match handle_packet5 hash pick now (fst x) (snd x) s g with
        | Go s' g' out => HpOk s' g' out None
        | Stop s' g' => HpErr s' g' []
        | Crash => HpPanic
        end
    end.

  (** v5/message.rs:538-634 [apply_action]; packets produced by the handlers are
      dropped. *)
  Definition action5 (now : N) (a : action) (s : sess5) (g : glob) : res5 unit :=
    match a with
    | ActPub retain q topic payload props =>
        match enc_len5 (WPub5 false (qp_make q 1) retain topic payload props) with
        | None => HpErr s g []
        | Some len =>
            match send_publish5 pick (SendPub topic retain q payload props len) s g with
            | Panic => HpPanic
            | Done (s', g', _) => HpOk s' g' [] tt
            end
        end
    | ActSub fs =>
        match handle_subscribe5 now 1 None (map (fun x => (fst x, SubOpts (snd x) false false RH_none)) fs) s g with
        | Panic => HpPanic
        | Done (s', g', _) => HpOk s' g' [] tt
        end
    | ActUnsub fs =>
        match handle_unsubscribe5 1 fs s g with
        | Panic => HpPanic
        | Done (s', g', _) => HpOk s' g' [] tt
        end
    end.

  (** v5/message.rs:738-793 [handle_control] while online: session, tables, stop,
      takeover wanted.  An online session is connected, so the expiry messages
      (meant for an earlier connection) do nothing. *)
  Definition control5 (c : control) (s : sess5) (g : glob) : sess5 * glob * bool * bool :=
    match c with
    | COnline3 => (s, g, false, false)
    | COnline5 => (s, g, false, true)
    | CKick => (s, g, true, false)
    | CExpired _ | CWillDelay _ => (s, g, false, false)
    end.

  (** v5/message.rs:343-351 *)
  Definition disc5 (s : sess5) : option disc :=
    if s_sdisc s && negb (s_cdisc s) then Some ByServer else if s_cdisc s then Some ByClient else None.

  (** v5/message.rs:388-425 [handle_decode_error] *)
  Definition decode_error5 (e : derr) (s : sess5) : option (sess5 * list pkt5) :=
    match e with
    | DIo => None
    | DMalformed text => let '(s', k) := error_disconnect RC_malformed text s in Some (s', [k])
    end.

  Definition online5 : iface pkt5 nmsg (N * in5) derr control action req5 ans5 sess5 glob :=
    {| i_encode := encode; i_disc := disc5; i_bc := s_bcast; i_cnt := s_bcnt; i_max := fun _ => 10;
       i_set := with_bcast; i_decode_error := decode_error5; i_packet := packet5; i_hook := hook5;
       i_after := after_packet5; i_action := action5; i_control := fun _ => control5;
       i_normal := fun now _ m s g =>
         let '(s', r) := handle_normal5 now (g_cfg g) m s in
         (s', g, match r with Some (q, po) => Some (qos_eqb q L0, po) | None => None end);
       i_pendings := pendings5; i_build := fun s => fst (build_state5 s) |}.
  End V5.

  (** ** v3 *)
  Section V3.
  Variable hash : wpub3 -> N.
  Variable encode : pkt3 -> option (list N).

  Inductive req3 :=
  | ZPub (w : wpub3)
  | ZSub (p : pid) (fs : list (string * qos))
  | ZUnsub (p : pid) (fs : list string).
  (** [ok]: the code was Success. *)
  Inductive ans3 :=
  | BPub (w : wpub3) (ok : bool) (after : option (list action))
  | BSub (p : pid) (fs : list (string * qos)) (ok : bool) (after : option (list action))
  | BUnsub (p : pid) (fs : list string) (ok : bool) (after : option (list action)).
  Definition res3 := hp pkt3 sess3 glob.

  (** hook.rs:667-788: any other code than Success is an error. *)
  Definition hook3 (now : N) (q : req3) (a : ans3) (s : sess3) (g : glob) : res3 (list action) :=
    match q, a with
    | ZPub _, BPub w ok after =>
        if ok then
          match handle_publish3 hash w s g with
          | Ok3 (s', g', out) => finish_hook after s' g' out
          | Err3 => HpErr s g []
          | Panic3 => HpPanic
          end
        else HpErr s g []
    | ZSub _ _, BSub p fs ok after =>
        if ok then
          match handle_subscribe3 now p fs s g with
          | (s', g', Ok3 out) => finish_hook after s' g' out
          | (s', g', Err3) => HpErr s' g' []
          | (_, _, Panic3) => HpPanic
          end
        else HpErr s g []
    | ZUnsub _ _, BUnsub p fs ok after =>
        if ok then
          match handle_unsubscribe3 p fs s g with
          | Done (s', g', out) => finish_hook after s' g' out
          | Panic => HpPanic
          end
        else HpErr s g []
    | _, _ => HpErr s g []
    end.

  (** v3/message.rs:281-359 *)
  Definition packet3 (now : N) (x : N * in3) (s : sess3) (g : glob) : res3 (option req3) :=
    let request := if cf_packet_server (g_cfg g) <? fst x then None else
      match snd x with
      | YPub w => if hk_publish hk then Some (ZPub w) else None
      | YSub p fs => if hk_subscribe hk then Some (ZSub p fs) else None
      | YUnsub p fs => if hk_unsubscribe hk then Some (ZUnsub p fs) else None
      | _ => None
      end in
    match request with
    | Some q => HpOk s g [] (Some q)
    | None =>
        match handle_packet3 hash now (fst x) (snd x) s g with
        | Go3 s' g' out => HpOk s' g' out None
        | Stop3 s' g' => HpErr s' g' []
        | Crash3 => HpPanic
        end
    end.

  (** v3/message.rs:361-433; a failed SUBSCRIBE is only logged. *)
  Definition action3 (now : N) (a : action) (s : sess3) (g : glob) : res3 unit :=
    match a with
    | ActPub retain q topic payload _ =>
        match enc_len3 (WPub3 false (qp_make q 1) retain topic payload) with
        | None => HpErr s g []
        | Some len =>
            match send_publish3 (SendPub3 topic retain q payload len) s g with
            | Panic => HpPanic
            | Done (s', g') => HpOk s' g' [] tt
            end
        end
    | ActSub fs =>
        match handle_subscribe3 now 1 fs s g with
        | (_, _, Panic3) => HpPanic
        | (s', g', _) => HpOk s' g' [] tt
        end
    | ActUnsub fs =>
        match handle_unsubscribe3 1 fs s g with
        | Panic => HpPanic
        | Done (s', g', _) => HpOk s' g' [] tt
        end
    end.

  (** v3/message.rs:544-579 while online.  The expiry messages are
      [unreachable!()]: they are only sent to v5 sessions. *)
  Definition control3 (c : control) (s : sess3) (g : glob) : sess3 * glob * bool * bool :=
    match c with
    | COnline3 => (s, g, false, true)
    | COnline5 => (s, g, false, false)
    | CKick => (s, g, true, false)
    | CExpired _ | CWillDelay _ => (s, g, false, false)
    end.

  Definition online3 : iface pkt3 nmsg (N * in3) derr control action req3 ans3 sess3 glob :=
    {| i_encode := encode; i_disc := fun s => if z_disc s then Some ByClient else None;
       i_bc := z_bcast; i_cnt := z_bcnt; i_max := fun _ => 10;
       i_set := zwith_bcast; i_decode_error := fun _ _ => None; i_packet := packet3; i_hook := hook3;
       i_after := after_packet3; i_action := action3; i_control := fun _ => control3;
       i_normal := fun now _ m s g =>
         let '(s', r) := handle_normal3 now m s in
         (s', g, match r with Some (q, po) => Some (qos_eqb q L0, po) | None => None end);
       i_pendings := pendings3; i_build := fun s => fst (build_state3 s) |}.
  End V3.
End Hooked.

(** ** Connect hooks *)

(** config.rs [HookConfig]: the flags for connecting. *)
Record chooks := CHooks { ck_before : bool; ck_after : bool }.

(** v5/message.rs:174-177, 969-992: [verdict] is the code of v5_before_connect (0
    is Success), or an error.  [None]: go on with CONNECT. *)
Definition before_connect5 (hk : chooks) (c : config) (now : N) (verdict : option N) : option (list cact5) :=
  if ck_before hk then
    match verdict with
    | None => Some []
    | Some code => if code =? 0 then None else Some [AConnack (snd (error_connack code "" (sess5_new c now)))]
    end
  else None.

(** v5/message.rs:155-270: the connection phase with the hook. *)
Definition connect_hooked5 {M} pw first final utf8 (hk : chooks) (verdict : option N) (c : config) (a : authcfg)
    (uuid : string) (now : N) (ask : string -> option receipt5) (p : connect5) (l : list (option auth5))
    : list cact5 * list pkt5 * cend5 :=
  match before_connect5 hk c now verdict with
  | Some out => (out, [], CFail)
  | None => connect_phase5 M pw first final utf8 c a uuid now ask p l
  end.

(** v5/message.rs:994-1014: the actions of v5_after_connect; their packets are dropped. *)
Fixpoint apply_actions5 (pick : string -> string -> N) (now : N) (acts : list action) (s : sess5) (g : glob)
    : hp pkt5 sess5 glob unit :=
  match acts with
  | [] => HpOk s g [] tt
  | a :: r => match action5 pick now a s g with HpOk s' g' _ _ => apply_actions5 pick now r s' g' | x => x end
  end.

(** v5/message.rs:271-274: guarded by [enable_before_connect]; [None] is an error of
    the hook. *)
Definition after_connect5 (hk : chooks) pick (now : N) (acts : option (list action)) (s : sess5) (g : glob)
    : hp pkt5 sess5 glob unit :=
  if ck_before hk then
    match acts with None => HpErr s g [] | Some l => apply_actions5 pick now l s g end
  else HpOk s g [] tt.

(** v3/message.rs:645-663: a refusal closes the connection; the return code is not
    sent.  [true]: go on with CONNECT. *)
Definition before_connect3 (hk : chooks) (verdict : option bool) : bool :=
  if ck_before hk then match verdict with Some ok => ok | None => false end else true.
