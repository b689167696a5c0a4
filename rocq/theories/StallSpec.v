(** Vocabulary of C77: whether deliveries go on (log of OutSpec). *)
From Coq Require Import List Bool NArith.
From Verif Require Import Base MsgModel OutModel GlobModel BrokerModel BrokerSpec OutSpec CliSpec.
Import ListNotations.
Local Open Scope N_scope.

Section Flow.
  Context {M W : Type}.
  Variable wpid : W -> option pid.
  Variable wdup : W -> bool.
  Variable carries : N -> N -> M -> W -> Prop.
  Variable lifetime : M -> option N.

  (** The message under identifier [p] was transmitted on this connection (or its PUBREC was
      answered on it) and the client has yet to acknowledge it. *)
  Definition on_its_way (timeout : N) (p : pid) (log : list (oev M W)) : Prop :=
    exists t, (exists t0 m, life wpid wdup carries lifetime timeout p log (InFlight t0 m (Some t))) \/
      life wpid wdup carries lifetime timeout p log (Released (Some t)).

  (** The last event, but for QoS 0 messages, is that a queued message was discarded because it
      had expired. *)
  Definition of_qos0 (e : oev M W) : Prop := match e with ESent _ s => sent_pid wpid s = None | _ => False end.
  Definition just_expired (log : list (oev M W)) : Prop :=
    exists log1 t p log2, log = (log1 ++ EExpired t p :: log2)%list /\ Forall of_qos0 log2.
End Flow.

(** Every message accepted under an identifier came to its end before the identifier was used
    again: the server took its PUBACK or PUBCOMP, or (if [aged]) gave it up for its age. *)
Definition all_ended {M W} (aged : Prop) (log : list (oev M W)) : Prop :=
  forall pre t p m post, log = (pre ++ EQueued t p m :: post)%list ->
    exists post1 e post2, post = (post1 ++ e :: post2)%list /\ (forall t1 m1, ~ In (EQueued t1 p m1) post1) /\
      ((exists k t', e = EAcked k t' p true /\ k <> AckPubrec) \/ aged /\ exists t', e = EExpired t' p).
(** Nothing is under way between server and client (CliSpec). *)
Definition at_rest {W} (c : client W) : Prop := c_down c = [] /\ c_up c = [].

(** The clock reads at least the retransmission timeout (15 seconds by default). *)
Definition late (c : config) (p : past) : Prop :=
  match w_e p with ETick _ => True | _ => cf_inflight_timeout c <= seconds (w_b p) end.
