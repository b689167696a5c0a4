(** The subscriptions a session has, read off its history: the answers it got to SUBSCRIBE
    and UNSUBSCRIBE, and the clean starts. *)
From Coq Require Import List Bool NArith String.
From Verif Require Import Base TopicModel MsgModel OutModel GlobModel Sess5Model Sess3Model ConnModel InSpec.
Import ListNotations.
Local Open Scope N_scope.
Local Open Scope list_scope.

(** Filter [f] was answered with reason code [code]: 0, 1 and 2 grant that QoS, anything else
    refuses and leaves things as they were. *)
Definition granted5 (m : string -> option qos) (f : string) (code : N) : string -> option qos :=
  fun f' => if String.eqb f' f
            then match code with 0 => Some L0 | 1 => Some L1 | 2 => Some L2 | _ => m f' end
            else m f'.
Definition dropped (m : string -> option qos) (fs : list string) : string -> option qos :=
  fun f => if existsb (String.eqb f) fs then None else m f.

(** A SUBSCRIBE counts as its SUBACK says, filter by filter; an UNSUBSCRIBE that was answered
    removes its filters; a clean start removes all. *)
Definition subs_step5 (m : string -> option qos) (e : sev5 * list pkt5) : string -> option qos :=
  match e with
  | (VPkt _ _ (ISub _ _ fs) _, out) =>
      match answers out with
      | [KSuback _ codes] => fold_left (fun m fc => granted5 m (fst fc) (snd fc)) (combine (map fst fs) codes) m
      | _ => m
      end
  | (VPkt _ _ (IUnsub _ fs) _, out) => match answers out with [KUnsuback _ _] => dropped m fs | _ => m end
  | (VTake _ _ p _, _) => if co_clean p then fun _ => None else m
  | _ => m
  end.
Definition subscribed5 (l : list (sev5 * list pkt5)) : string -> option qos := fold_left subs_step5 l (fun _ => None).

(** MQTT 3 grants every filter the QoS asked for, but at most the server's; a shared filter
    closes the connection, and the filters before it stay.  A connection that is told no session
    is present starts with none. *)
Fixpoint granted3 (max : N) (m : string -> option qos) (fs : list (string * qos)) : string -> option qos :=
  match fs with
  | [] => m
  | (f, q) :: r =>
      if is_shared f then m
      else granted3 max (fun f' => if String.eqb f' f
                                   then Some (match N.min (qos_num q) max with 0 => L0 | 1 => L1 | _ => L2 end)
                                   else m f') r
  end.
Definition subs_step3 (cfg : config) (m : string -> option qos) (e : sev3 * list pkt3) : string -> option qos :=
  match e with
  | (UPkt _ len (YSub _ fs) _, _) => if len <=? cf_packet_server cfg then granted3 (cf_max_qos cfg) m fs else m
  | (UPkt _ len (YUnsub _ fs) _, _) => if len <=? cf_packet_server cfg then dropped m fs else m
  | (UTake _ _ present, _) => if present then m else fun _ => None
  | _ => m
  end.
Definition subscribed3 (cfg : config) (l : list (sev3 * list pkt3)) : string -> option qos := fold_left (subs_step3 cfg) l (fun _ => None).
