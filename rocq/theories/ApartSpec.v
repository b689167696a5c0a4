(** Words for C69: whose step it is, and why a connection stops being served. *)
From Coq Require Import List Bool NArith String.
From Verif Require Import Base MsgModel GlobModel Sess5Model Sess3Model ConnModel RegModel BrokerModel BrokerSpec.
Import ListNotations.
Local Open Scope N_scope.

(** The connection whose task takes the step; new connections, timers and the clock belong to
    no connection. *)
Definition who (e : bev) : option N :=
  match e with
  | EConnect5 _ _ _ _ | EConnect3 _ _ _ | EFire _ | ETick _ => None
  | EPut k | EFail k | EJoin k | EStart k | EPacket5 k _ _ | EPacket3 k _ _ | EMalformed k _ | EClose k | EControl k | ENormal k | EFlush k _ | EEnd k _ | EDone k => Some k
  end.
(** The connection that something visible happens to. *)
Definition about (o : bout) : N :=
  match o with OConnack5 k _ | OConnack3 k _ | OPkt5 k _ | OPkt3 k _ | OWill5 k _ | OWill3 k _ | OClosed k => k end.

(** Why connection [j] of a client, whose session is [a], is not served any longer after step
    [e]; [h] is what happened before.  Its socket was closed or failed, or the server closed
    it after DISCONNECT; its own packet; it is already disconnected; nothing came from it for
    more than 1.5 times its keep-alive; there is another connection with its identifier. *)
Inductive cause (h : list past) (e : bev) (j : N) (a : sess) : Prop :=
| its_socket : e = EClose j -> cause h e j a
| its_packet5 len x : e = EPacket5 j len x -> cause h e j a
| its_packet3 len x : e = EPacket3 j len x -> cause h e j a
| its_end : e = EControl j -> a_disc a = true -> cause h e j a
| its_silence h2 p h1 : e = EControl j -> h = (h2 ++ p :: h1)%list -> 0 < a_keep a -> heard j h1 + a_keep a * 1500 < b_now (w_b p) -> cause h e j a
| its_identifier q k : e = EControl j -> made_by h q k -> asks (w_e q) = Some (a_ident a) -> k <> j -> cause h e j a.
