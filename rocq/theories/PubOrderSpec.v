(** Vocabulary for the order of messages from a publisher to a subscriber's application (C86). *)
From Coq Require Import List Bool NArith String.
From Verif Require Import Base MsgModel OutModel OutSpec GlobModel Sess5Model Sess3Model ConnModel InSpec LinkSpec BrokerModel BrokerSpec LifeSpec AccSpec CliSpec ArriveSpec.
Import ListNotations.
Local Open Scope list_scope.

(** [fed5 cfg l log src]: [log] is a log of the session with events [l] ([logs5], LinkSpec), and [src]
    says for every queued message where it came from: [Some n] if the session queued it when it was
    handed the message number [n] of all it got from other connections ([heard5], AccSpec), and
    [None] if it queued it on another occasion. *)
Definition from5 (l : list (sev5 * list pkt5)) (e : sev5) : option nat :=
  match e with VMsg _ _ | VLost _ _ => Some (List.length (heard5 l)) | _ => None end.
Inductive fed5 (cfg : config) : list (sev5 * list pkt5) -> list (oev pub5 wpub5) -> list (option nat) -> Prop :=
| fd_new rm : fed5 cfg [] [EConn rm] []
| fd_step l log src e out evs : fed5 cfg l log src -> logged5 cfg e out evs ->
    fed5 cfg (l ++ [(e, out)]) (log ++ evs) (src ++ map (fun _ => from5 l e) (OutSpec.queued evs))
| fd_clean l log src now uuid p data : fed5 cfg l log src -> co_clean p = true ->
    fed5 cfg (l ++ [(VTake now uuid p data, [])]) [EConn (rmax5 cfg p)] [].
Definition from3 (l : list (sev3 * list pkt3)) (e : sev3) : option nat :=
  match e with UMsg _ _ | ULost _ _ => Some (List.length (heard3 l)) | _ => None end.
Inductive fed3 (cfg : config) : list (sev3 * list pkt3) -> list (oev pub3 wpub3) -> list (option nat) -> Prop :=
| fd3_new : fed3 cfg [] [EConn (cf_inflight_client cfg)] []
| fd3_step l log src e out evs : fed3 cfg l log src -> logged3 cfg e out evs ->
    fed3 cfg (l ++ [(e, out)]) (log ++ evs) (src ++ map (fun _ => from3 l e) (OutSpec.queued evs))
| fd3_clean l log src now s0 : fed3 cfg l log src ->
    fed3 cfg (l ++ [(UTake now s0 false, [])]) [EConn (cf_inflight_client cfg)] [].

(** A PUBLISH is message number [n] of those that other connections passed on to client [d]. *)
Definition published5 (d : client_id) (h : list past) (w : wpub5) (n : nat) : Prop :=
  exists j from y, nth_error (passed_in d h) n = Some (j, (from, y)) /\ w5_payload w = nm_payload y /\ qp_qos (w5_qp w) = LinkSpec.nm_qos y /\
    (w5_topic w = nm_topic y \/ w5_topic w = EmptyString /\ pp_alias (w5_props w) <> None).
Definition published3 (d : client_id) (h : list past) (w : wpub3) (n : nat) : Prop :=
  exists j from y, nth_error (passed_in d h) n = Some (j, (from, y)) /\ w3_payload w = nm_payload y /\ qp_qos (w3_qp w) = LinkSpec.nm_qos y /\ w3_topic w = nm_topic y.

(** [ws] are received in this order: each is a queued message, by number ([shows]), and one of the
    messages passed on to the client if it came from another connection.  If, of two of these, the
    later one has not been received before, it was passed on later. *)
Definition as_published {M W} (wpid : W -> option pid) (carries : N -> N -> M -> W -> Prop) (published : W -> nat -> Prop)
    (log : list (oev M W)) (src : list (option nat)) (ws : list W) : Prop :=
  exists x, Forall2 (shows wpid carries log) ws x /\
    Forall2 (fun w i => exists o, nth_error src i = Some o /\ forall n, o = Some n -> published w n) ws x /\
    forall u v i i' n n', (u < v)%nat -> nth_error x u = Some i -> nth_error x v = Some i' -> ~ In i' (firstn v x) ->
      nth_error src i = Some (Some n) -> nth_error src i' = Some (Some n') -> (n <= n')%nat.
