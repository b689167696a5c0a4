(** From a retained message to the application of a new subscriber (C83): vocabulary. *)
From Coq Require Import List Bool NArith String.
From Verif Require Import Base MsgModel OutModel OutSpec GlobModel Sess5Model Sess3Model DelivSpec InSpec LinkSpec CliSpec GetSpec.
Import ListNotations.
Local Open Scope N_scope.
Local Open Scope list_scope.

(** [log] has, at time [now] and after the event log [base], either that message [m] was turned
    down because the queue was full, or that it was queued, and then [P before p after]. *)
Definition entered {M W} (log base : list (oev M W)) (now : N) (m : M) (P : list (oev M W) -> pid -> list (oev M W) -> Prop) : Prop :=
  exists more p post, log = (base ++ more) ++ EFull now p m :: post \/ log = (base ++ more) ++ EQueued now p m :: post /\ P (base ++ more) p post.

(** The session with the events [lr] answered a packet, after the events [l1], with the packets
    [o]; the events since are [l2].  Message [m] comes to the client: with QoS 0 it is among [o]; else the
    log has it as turned down or queued, and if it was queued and no clean start followed, the
    application of the client gets it as in C80. *)
Definition comes5 (c : config) (lr l1 l2 : list (sev5 * list pkt5)) (now : N) (o : list pkt5) (m : pub5) : Prop :=
  (p5_qos m = L0 -> exists w, In (KPub w) o /\ carries5 now now m w) /\
  (p5_qos m <> L0 -> goes_on5 l2 -> exists log base, logs5 c lr log /\ logs5 c l1 base /\
     entered log base now m (fun pre p post => few_enough c log -> gets w5_qp p5_qos carries5 (expired_unsent log wpid5) False pre now p m post)).
Definition comes3 (c : config) (up : Prop) (lr l1 l2 : list (sev3 * list pkt3)) (now : N) (o : list pkt3) (m : pub3) : Prop :=
  (p3_qos m = L0 -> In (JPub (WPub3 false Q0 (p3_retain m) (p3_topic m) (p3_payload m))) o) /\
  (p3_qos m <> L0 -> goes_on3 l2 -> exists log base, logs3 c lr log /\ logs3 c l1 base /\
     entered log base now m (fun pre p post => few_enough c log -> gets w3_qp p3_qos carries3 True up pre now p m post)).
