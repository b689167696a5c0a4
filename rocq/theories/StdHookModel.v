(** The hook that the akasa program installs.  Models akasa/src/default_hook.rs:1-254:
    every method logs, answers Success (or Ok) at once and asks for no actions; the
    packet is left as it is. *)
From Coq Require Import List Bool String NArith.
From Verif Require Import Base TopicModel MsgModel GlobModel Sess5Model Sess3Model ConnModel OnlineModel HookModel.
Import ListNotations.
Local Open Scope N_scope.

(** default_hook.rs:39-125 *)
Definition std_answer5 (q : req5) : ans5 :=
  match q with
  | QPub w => APub w 0 (Some [])
  | QSub p id fs => ASub p id fs 0 (Some [])
  | QUnsub p fs => AUnsub p fs 0 (Some [])
  end.
(** default_hook.rs:161-247 *)
Definition std_answer3 (q : req3) : ans3 :=
  match q with
  | ZPub w => BPub w true (Some [])
  | ZSub p fs => BSub p fs true (Some [])
  | ZUnsub p fs => BUnsub p fs true (Some [])
  end.
(** default_hook.rs:17-37 and 139-159: the code of before_connect, and what
    after_connect asks for. *)
Definition std_before5 : option N := Some 0.
Definition std_before3 : option bool := Some true.
Definition std_after : option (list action) := Some [].
