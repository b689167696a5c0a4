(** Configuration, packet sizes, internal messages and the shared tables that
    the packet handlers read and write. *)
From Coq Require Import List Bool String NArith.
From Verif Require Import Base TopicModel MsgModel RouteModel RetainModel.
Import ListNotations.
Local Open Scope N_scope.

(** config.rs:12-52 [Config]: the fields the protocol code reads.  Listener,
    password-file and hook settings are modelled where they are used. *)
Record config := Config {
  cf_max_qos : N;                    (* max_allowed_qos : u8 *)
  cf_inflight_timeout : N;
  cf_inflight_client : N;            (* max_inflight_client *)
  cf_inflight_server : N;            (* max_inflight_server *)
  cf_max_pending : N;                (* max_in_mem_pending_messages *)
  cf_min_keep_alive : N;
  cf_max_keep_alive : N;
  cf_max_expiry : N;                 (* max_session_expiry_interval *)
  cf_packet_client : N;              (* max_packet_size_client *)
  cf_packet_server : N;              (* max_packet_size_server *)
  cf_alias_max : N;                  (* topic_alias_max *)
  cf_retain : bool;                  (* retain_available *)
  cf_shared : bool;                  (* shared_subscription_available *)
  cf_subid : bool;                   (* subscription_id_available *)
  cf_wildcard : bool                 (* wildcard_subscription_available *)
}.

(** config.rs:189-236 [Config::default] *)
Definition config_default : config :=
  Config 2 15 10 10 256 10 65535 4294967295 268435460 268435460 65535 true true true true.

(** config.rs:299-306 [Config::max_allowed_qos]; [None] is the panic. *)
Definition max_allowed_qos (c : config) : option qos :=
  match cf_max_qos c with 0 => Some L0 | 1 => Some L1 | 2 => Some L2 | _ => None end.

(** [cmp::max] on [QoS] *)
Definition qos_max (a b : qos) : qos := if qos_leb a b then b else a.

(** ** Encoded sizes (mqtt-proto [Encodable::encode_len], from the MQTT format) *)

Definition slen (s : string) : N := N.of_nat (String.length s).

(** Variable byte integer length, values up to 268435455. *)
Definition var_len (n : N) : N :=
  if n <? 128 then 1 else if n <? 16384 then 2 else if n <? 2097152 then 3 else 4.

Definition sum_len {A} (f : A -> N) (l : list A) : N := fold_right (fun x n => f x + n) 0 l.

(** Bytes of the PUBLISH properties; [pp_other] stands for the encoding of the
    remaining properties. *)
Definition props_len (p : pprops) : N :=
  (match pp_expiry p with Some _ => 5 | None => 0 end) +
  (match pp_alias p with Some _ => 3 | None => 0 end) +
  sum_len (fun id => 1 + var_len id) (pp_subids p) + slen (pp_other p).

Definition pid_len (q : qos) : N := match q with L0 => 0 | _ => 2 end.

(** Remaining length of a v5 PUBLISH. *)
Definition rem_len5 (q : qos) (topic payload : string) (p : pprops) : N :=
  2 + slen topic + pid_len q + var_len (props_len p) + props_len p + slen payload.
Definition rem_len3 (q : qos) (topic payload : string) : N := 2 + slen topic + pid_len q + slen payload.

(** mqtt-proto [total_len]: fixed header plus remaining length, an error above
    the protocol's limit. *)
Definition total_len (r : N) : option N :=
  if 268435455 <? r then None else Some (1 + var_len r + r).

Definition enc_len5 (w : wpub5) : option N :=
  total_len (rem_len5 (qp_qos (w5_qp w)) (w5_topic w) (w5_payload w) (w5_props w)).
Definition enc_len3 (w : wpub3) : option N :=
  total_len (rem_len3 (qp_qos (w3_qp w)) (w3_topic w) (w3_payload w)).

(** ** state.rs:243-265 [NormalMessage] *)

Record nmsg3 := NMsg3 {
  n3_retain : bool; n3_qos : qos; n3_topic : string; n3_payload : string;
  n3_filter : string; n3_sqos : qos; n3_len : N
}.
Record nmsg5 := NMsg5 {
  n5_retain : bool; n5_qos : qos; n5_topic : string; n5_payload : string;
  n5_filters : list string; n5_sqos : qos; n5_props : pprops; n5_len : N
}.
Inductive nmsg := NM3 (m : nmsg3) | NM5 (m : nmsg5).

(** ** state.rs:19-40 [GlobalState]: what [send_publish], [handle_subscribe] and
    [handle_unsubscribe] use.  [g_live] is the set of clients with a message
    channel ([GlobalState::clients]); the registry itself is in RegModel. *)
Record glob := Glob { g_cfg : config; g_route : route_table; g_retain : tnode; g_live : list client_id }.

Definition set_route (t : route_table) (g : glob) : glob := Glob (g_cfg g) t (g_retain g) (g_live g).
Definition set_retain (t : tnode) (g : glob) : glob := Glob (g_cfg g) (g_route g) t (g_live g).

(** state.rs:125-132 [get_client_normal_sender]: is there a channel? *)
Definition has_sender (g : glob) (c : client_id) : bool := existsb (N.eqb c) (g_live g).

(** The broadcast_packets map of a session (mqtt/mod.rs [BroadcastPackets]; the
    channel sink and its flushed flag are in BroadcastModel). *)
Definition bcast := list (client_id * list nmsg).

(** v5/packet/publish.rs:414-430 and v3/packet/publish.rs:215-231: queue one
    message for a receiver; the count was increased beforehand. *)
Definition queue_msg (g : glob) (c : client_id) (m : nmsg) (bc : bcast * N) : bcast * N :=
  let '(b, cnt) := bc in
  let b1 := match aget c b with
            | Some _ => b
            | None => if has_sender g c then aset c [] b else b
            end in
  match aget c b1 with
  | Some ms => (aset c (ms ++ [m]) b1, cnt)
  | None => (b1, cnt - 1)
  end.

(** v5/packet/publish.rs:314-329, v3/packet/publish.rs:164-179: update the
    retained store.  Not guarded by [retain_available]. *)
Definition store_retained (retain : bool) (x : rcontent) (g : glob) : glob :=
  if retain then
    if String.eqb (rc_payload x) "" then set_retain (fst (ret_remove (g_retain g) (rc_topic x))) g
    else set_retain (fst (ret_insert (g_retain g) x)) g
  else g.

(** Result of a handler: a value, or a panic. *)
Inductive outcome (A : Type) := Done (a : A) | Panic.
Arguments Done {A}. Arguments Panic {A}.

(** ** MQTT 5 reason codes (MQTT 5.0, table 2-6) *)
Definition RC_success := 0x00. 
Definition RC_no_matching_subscribers := 0x10.
Definition RC_no_subscription_existed := 0x11.
Definition RC_malformed := 0x81.
Definition RC_protocol_error := 0x82.
Definition RC_bad_user_or_password := 0x86.
Definition RC_not_authorized := 0x87.
Definition RC_bad_auth_method := 0x8C.
Definition RC_topic_name_invalid := 0x90.
Definition RC_pid_in_use := 0x91.
Definition RC_pid_not_found := 0x92.
Definition RC_receive_max_exceeded := 0x93.
Definition RC_topic_alias_invalid := 0x94.
Definition RC_packet_too_large := 0x95.
Definition RC_retain_not_supported := 0x9A.
Definition RC_qos_not_supported := 0x9B.
Definition RC_shared_not_supported := 0x9E.
Definition RC_subid_not_supported := 0xA1.
Definition RC_wildcard_not_supported := 0xA2.
Definition RC_granted (q : qos) : N := qos_num q.
