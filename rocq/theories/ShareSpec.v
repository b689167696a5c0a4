(** From an accepted PUBLISH to the member of a share group that is chosen (C84): vocabulary. *)
From Coq Require Import List Bool NArith String.
From Verif Require Import Base MsgModel OutModel OutSpec GlobModel Sess5Model Sess3Model ConnModel BrokerModel DelivSpec InSpec BrokerSpec LifeSpec AccSpec EndSpec LinkSpec CliSpec GetSpec.
Import ListNotations.
Local Open Scope N_scope.
Local Open Scope list_scope.

(** Connection [j] had PUBLISH [w] accepted in state [b1], on topic [T].  Once the messages for client [d]
    have gone through, the session [d] then has got it, for filter [f] with QoS [q], as in C73; and, if it
    goes out with QoS 1 or 2, the client's application gets it, as in C80. *)
Definition arrives5 (hash5 : wpub5 -> N) (hash3 : wpub3 -> N) (pick : draw -> broker -> string -> string -> N)
    (c : config) (h1 : list past) (b1 : broker) (j len : N) (w : wpub5) (b2 : broker) (out : list bout) (d : client_id) (T f : string) (q : qos) : Prop :=
  forall h b k r, gone_through hash5 hash3 pick c h1 b1 (EPacket5 j len (IPub w)) b2 out h b j d -> sess_at b k = Some (A5 r) -> s_id r = d ->
    exists y lr l1 now live o n, life5 k h lr /\ srun5 hash5 c r lr /\ reached5 d h j (queued_in j d h1 b1) y lr l1 now live o /\ enc_len5 w = Some n /\
      fate5 hash5 c l1 now y live o T (w5_payload w) (qp_qos (w5_qp w)) n f q /\
      ((forall p, In p h -> after_1970 p) ->
       exists l2, lr = l1 ++ (if live then VMsg now y else VLost now y, o) :: l2 /\ finds5 hash5 c lr l1 l2 now y T (w5_payload w) (qp_qos (w5_qp w)) n f q).
