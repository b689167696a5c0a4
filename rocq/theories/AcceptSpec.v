(** When a connection is to be served: what the client has to send on each kind of
    listener, and what each kind of listener is. *)
From Coq Require Import List Bool Arith NArith.
From Verif Require Import Base ProxyModel ProxySpec AcceptModel.
Import ListNotations.
Local Open Scope list_scope.
Local Open Scope N_scope.

(** A variable byte integer (MQTT 5.0, 1.5.5): one to four bytes, all but the last
    with the top bit set, seven value bits each, least significant first. *)
Fixpoint var_value (v : bytes) : N := match v with [] => 0 | b :: v => b mod 128 + 128 * var_value v end.
Definition var_bytes (v : bytes) : Prop :=
  exists front last, v = front ++ [last] /\ (length front <= 3)%nat /\ Forall (fun b => 128 <= b) front /\ last < 128.

(** Protocol name and level (MQTT 3.1, 3.1.1 and 5.0, section 3.1.2). *)
Definition name_and_level (p : protocol) : bytes :=
  match p with
  | V310 => [0; 6; 77; 81; 73; 115; 100; 112; 3]
  | V311 => [0; 4; 77; 81; 84; 84; 4]
  | V500 => [0; 4; 77; 81; 84; 84; 5]
  end.

(** [b] begins like a CONNECT packet of protocol [p] with remaining length [n]; after
    the level comes [rest]. *)
Definition connect_begins (p : protocol) (n : N) (b rest : bytes) : Prop :=
  exists v, var_bytes v /\ var_value v = n /\ b = [16] ++ v ++ name_and_level p ++ rest.

(** Source address and port of a PROXY header. *)
Definition source (a : addresses) : option (bytes * N) :=
  match a with A4 s sp _ _ | A6 s sp _ _ => Some (s, sp) | AUnix _ _ => None end.

Section Inside.
  Variable crc : bytes -> N.
  Variable utf8 : bytes -> bool.
  Variable tls : client_auth -> bytes -> option (option bytes * reader).
  Variable ws : bytes -> option (option bytes * reader).

  (** A client at [peer] that sends [b] on a listener [a] is, as far as MQTT is
      concerned, a client at [peer'] that sends [b']. *)
  Definition inside (a : conn_args) (peer : bytes * N) (b : bytes) (peer' : bytes * N) (b' : bytes) : Prop :=
    exists b1 b2,
      (if a_proxy a
       then exists tr ad l, acceptable crc utf8 (a_term a) tr ad l /\ b = enc_header tr ad l ++ b1 /\ source ad = Some peer'
       else b1 = b /\ peer' = peer) /\
      match a_tls a with
      | Some ca => exists name r, tls ca b1 = Some (name, r) /\ concat r = b2
      | None => b2 = b1
      end /\
      (if a_ws a
       then exists sub r, ws b2 = Some (sub, r) /\ concat r = b' /\ (sub = None \/ sub = Some [109; 113; 116; 116])
       else b' = b2).

  (** The handshakes yield proper streams. *)
  Definition proper_stream (r : reader) : Prop := flowing r /\ all_bytes r.
  Definition proper_handshakes : Prop :=
    (forall ca b name r, tls ca b = Some (name, r) -> proper_stream r) /\
    (forall b sub r, ws b = Some (sub, r) -> proper_stream r).
End Inside.

(** The steps of a listener. *)
Definition step_of (a : conn_args) (g : stage) : Prop :=
  match g with
  | GProxy => a_proxy a = true
  | GTls => a_tls a <> None
  | GWs => a_ws a = true
  | GHeader | GProto => True
  | _ => False
  end.

(** Everything needed for these steps is there within five seconds. *)
Definition prompt (a : conn_args) (ready : stage -> option N) : Prop :=
  forall g, step_of a g -> exists t, ready g = Some t /\ t <= 5000.

Definition served (o : outcome) : Prop :=
  match o with Serve3 _ _ _ _ | Serve5 _ _ _ _ => True | _ => False end.
Definition ended (o : outcome) : option N :=
  match o with Serve3 t _ _ _ | Serve5 t _ _ _ | Close t | Panic t => Some t | Hang _ => None end.

(** What a TLS listener demands of its clients. *)
Definition demands (l : tls_listener) : client_auth :=
  match t_verify l, t_fail l with true, true => RequiredCert | true, false => OptionalCert | false, _ => NoCert end.
(** Its files are in order. *)
Definition usable (l : tls_listener) : Prop := t_files l = true /\ (t_verify l = true -> t_ca l = Some true).

(** The listener that accepts with arguments [a]. *)
Definition serves_plain (a : conn_args) (l : listener) : Prop :=
  a_tls a = None /\ (a_proxy a = true <-> l_mode l <> None) /\ (a_term a = true <-> l_mode l = Some TlsTermination).
Definition serves_tls (a : conn_args) (l : tls_listener) : Prop :=
  a_tls a = Some (demands l) /\ a_proxy a = t_proxy l /\ a_term a = false.
Definition listener_of (ls : listeners) (a : conn_args) : Prop :=
  if a_ws a
  then (exists l, ls_ws ls = Some l /\ serves_plain a l) \/ (exists l, ls_wss ls = Some l /\ serves_tls a l)
  else (exists l, ls_mqtt ls = Some l /\ serves_plain a l) \/ (exists l, ls_mqtts ls = Some l /\ serves_tls a l).
