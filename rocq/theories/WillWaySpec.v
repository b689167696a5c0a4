(** The way of a will to the subscribers (C81): vocabulary. *)
From Coq Require Import List Bool NArith String.
From Verif Require Import Base MsgModel OutModel GlobModel Sess5Model Sess3Model.
Import ListNotations.
Local Open Scope N_scope.

(** The PUBLISH packet by which the size of a will is measured. *)
Definition will_packet5 (w : will5) : wpub5 :=
  WPub5 false (qp_make (wl_qos w) 1) false (wl_topic w) (wl_payload w) (set_alias None (set_subids [] (wl_props w))).
Definition will_packet3 (w : will3) : wpub3 := WPub3 false (qp_make (wl3_qos w) 1) false (wl3_topic w) (wl3_payload w).
