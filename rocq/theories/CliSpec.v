(** C76: a client that follows the standard, at the other end of a connection.

    The log of a session (OutSpec, LinkSpec) has what the server writes and which
    acknowledgements reach it.  Here the client and the network are put beside it: packets reach
    the client in the order they were written, its acknowledgements reach the server in the order
    they were sent, and what is under way when a connection begins anew is lost. *)
From Coq Require Import List Bool NArith.
From Verif Require Import Base MsgModel OutModel OutSpec.
Import ListNotations.
Local Open Scope N_scope.
Local Open Scope list_scope.

(** The client: packets under way to it, acknowledgements under way from it, the identifiers of
    the QoS 2 messages it received and that are not released yet, and what its application got. *)
Record client (W : Type) := Client { c_down : list (sent W); c_up : list (ackkind * pid); c_stored : list pid; c_app : list W }.
Arguments Client {W}. Arguments c_down {W}. Arguments c_up {W}. Arguments c_stored {W}. Arguments c_app {W}.
Definition client_new {W} : client W := Client [] [] [] [].

Section Client.
  Context {M W : Type}.
  Variable wqp : W -> qospid.                        (* QoS and packet identifier of a PUBLISH *)

  (** MQTT 5, section 4.3, for the receiver of a message.  QoS 0 and 1: every PUBLISH is given to
      the application; QoS 1 is answered by PUBACK.  QoS 2: a PUBLISH is given to the application
      unless its identifier is stored; it is stored, and answered by PUBREC.  PUBREL: the
      identifier is discarded, and PUBCOMP is the answer. *)
  Definition receive (c : client W) (s : sent W) (rest : list (sent W)) : client W :=
    match s with
    | SPub w =>
        match wqp w with
        | Q0 => Client rest (c_up c) (c_stored c) (c_app c ++ [w])
        | Q1 p => Client rest (c_up c ++ [(AckPuback, p)]) (c_stored c) (c_app c ++ [w])
        | Q2 p =>
            if existsb (N.eqb p) (c_stored c) then Client rest (c_up c ++ [(AckPubrec, p)]) (c_stored c) (c_app c)
            else Client rest (c_up c ++ [(AckPubrec, p)]) (p :: c_stored c) (c_app c ++ [w])
        end
    | SRel p => Client rest (c_up c ++ [(AckPubcomp, p)]) (filter (fun q => negb (q =? p)) (c_stored c)) (c_app c)
    end.

  Definition names (p : pid) (s : sent W) : Prop := match s with SPub w => qp_pid (wqp w) = Some p | SRel q => q = p end.
  (** Nothing about identifier [p] is under way. *)
  Definition quiet (p : pid) (c : client W) : Prop :=
    Forall (fun s => ~ names p s) (c_down c) /\ Forall (fun a => snd a <> p) (c_up c).

  (** An event of the server's log.  An acknowledgement that reaches the server is the first of
      those under way; PUBREC is answered by PUBREL, whether it is taken or not (LinkSpec).  When an
      identifier is used for another message (after 65535 others), nothing of its last use is
      under way any more. *)
  Inductive heard : client W -> oev M W -> client W -> Prop :=
  | hd_conn c rm : heard c (EConn rm) (Client [] [] (c_stored c) (c_app c))
  | hd_queued c t p m : quiet p c -> heard c (EQueued t p m) c
  | hd_full c t p m : heard c (EFull t p m) c
  | hd_sent c t s : heard c (ESent t s) (Client (c_down c ++ [s]) (c_up c) (c_stored c) (c_app c))
  | hd_acked c k t p ok up : c_up c = (k, p) :: up ->
      heard c (EAcked k t p ok)
        (Client (c_down c ++ (match k with AckPubrec => [SRel p] | _ => [] end)) up (c_stored c) (c_app c))
  | hd_expired c t p : heard c (EExpired t p) c.

  (** [met c log c']: along [log] the client goes from [c] to [c']. *)
  Inductive met : client W -> list (oev M W) -> client W -> Prop :=
  | met_nil c : met c [] c
  | met_event c log c1 e c2 : met c log c1 -> heard c1 e c2 -> met c (log ++ [e]) c2
  | met_receive c log c1 s rest : met c log c1 -> c_down c1 = s :: rest -> met c log (receive c1 s rest).

  (** What the application got under identifier [p]. *)
  Definition got (p : pid) (c : client W) : list W :=
    filter (fun w => match qp_pid (wqp w) with Some q => q =? p | None => false end) (c_app c).
End Client.

(** A message is given up for its age only if it was never transmitted. *)
Definition expired_unsent {M W} (log : list (oev M W)) (wpid : W -> option pid) : Prop :=
  forall l1 t p l2 t' w l3 l4 t0 m, log = l1 ++ EQueued t0 p m :: l2 -> l2 = l3 ++ EExpired t p :: l4 ->
    (forall t1 m1, ~ In (EQueued t1 p m1) l3) -> wpid w = Some p -> ~ In (ESent t' (SPub w)) l3.

(** The message queued with a log event is given to the application of a correct client: at most
    once with QoS 2, and once when the exchange is finished; with QoS 1 at least once when it is
    acknowledged.  [post] is what happens until the identifier is used again; [d] is what the
    application gets under this identifier meanwhile.  [given] are conditions on the log. *)
Definition delivered_once {M W} (wqp : W -> qospid) (mqos : M -> qos) (carries : N -> N -> M -> W -> Prop) (given : Prop) (log : list (oev M W)) : Prop :=
  forall pre t p m post rest c1 c2, log = pre ++ EQueued t p m :: post ++ rest -> (forall t' m', ~ In (EQueued t' p m') post) ->
    met wqp client_new (pre ++ [EQueued t p m]) c1 -> met wqp c1 post c2 ->
    exists d, got wqp p c2 = got wqp p c1 ++ d /\ Forall (fun w => exists t', carries t t' m w) d /\
      (mqos m = L2 -> (List.length d <= 1)%nat) /\
      (mqos m = L2 -> given -> (exists t', In (EAcked AckPubcomp t' p true) post) -> List.length d = 1%nat) /\
      (mqos m = L1 -> (exists t', In (EAcked AckPuback t' p true) post) -> (1 <= List.length d)%nat).
