(** C82: the retained message of a topic is the last one the server accepted for it.

    Whatever clients of either protocol do, at every moment the retained messages are those that
    come from the accepted PUBLISH packets with RETAIN and the published wills with RETAIN, in the
    order in which the server took them ([keeps], RetRunSpec): the last one for a topic is
    kept, one with an empty payload removes what there was, and nothing else changes
    them: not the end of the connection or of the session that published them, not a refused or
    repeated PUBLISH. *)
From Coq Require Import List Bool NArith String.
From Verif Require Import Base TopicModel TopicSpec MsgModel OutModel RetainModel RetainSpec GlobModel Sess5Model Sess3Model ConnModel BrokerModel DelivSpec InSpec BrokerSpec LifeSpec WillWaySpec
  RetRunSpec RetRunProofs BrokerProps LifeProps.
Import ListNotations.
Local Open Scope N_scope.
Local Open Scope list_scope.

Section Props.
  Variables (hash5 : wpub5 -> N) (hash3 : wpub3 -> N) (pick : draw -> broker -> string -> string -> N).
  Local Notation brun := (BrokerSpec.brun hash5 hash3 pick).

  (** What a filter finds among the retained messages. *)
  Theorem C82_kept : forall c h b, brun c h b -> (forall p, In p h -> proper p) -> exists hr, keeps c h b hr /\
    forall f, valid_filter f -> exists l, ret_get_matches (b_retain b) f = Some l /\ NoDup (map rc_topic l) /\
      forall m, In m l <-> retained hr (rc_topic m) = Some m /\ topic_matches f (rc_topic m).
  Proof. exact (kept_lemma hash5 hash3 pick). Qed.

  (** A step that is no PUBLISH and publishes no will leaves them as they are. *)
  Theorem C82_untouched : forall c h b e b' out, brun c h b -> (forall p, In p (Past b e out :: h) -> proper p) -> bstep hash5 hash3 pick e b = BOk b' out ->
    ~ publishes e -> no_will out -> b_retain b' = b_retain b.
  Proof. exact (untouched_lemma hash5 hash3 pick). Qed.
End Props.
Print Assumptions C82_kept.
Print Assumptions C82_untouched.

(** ** A case
    "p" (protocol 5) publishes retained messages for "t", "u" and (with an alias) "v"; "q" (protocol 3)
    replaces the one for "t" and removes the one for "u"; then "p" loses its connection, its will for "w" is kept,
    and its session ends. *)
Definition k_pub5 (k : N) (w : wpub5) : bev := EPacket5 k 10 (IPub w).
Definition k_pub3 (k : N) (w : wpub3) : bev := EPacket3 k 10 (YPub w).
Definition k_no : pprops := PProps None None [] "".
Definition k_will : will5 := Will5 L1 true "w" "bye" None k_no.
Definition k_evs : list bev := [ETick 100000; x_c5 "p" true 60 None (Some k_will)] ++ x_up 0 ++ [x_c3 false "q" true 60 None] ++ x_up 1 ++
  [k_pub5 0 (WPub5 false (Q1 7) true "t" "1" k_no); k_pub5 0 (WPub5 false Q0 true "u" "2" k_no);
   k_pub5 0 (WPub5 false Q0 false "v" "-" (PProps None (Some 3) [] "")); k_pub5 0 (WPub5 false (Q2 9) true "" "3" (PProps None (Some 3) [] ""));
   k_pub3 1 (WPub3 false Q0 true "t" "4"); k_pub3 1 (WPub3 false (Q1 1) true "u" ""); k_pub3 1 (WPub3 false Q0 false "t" "5")] ++ x_down 0.
Example kept_case : exists h b, x_run h b /\ (forall p, In p h -> proper p) /\ aget 0 (b_tasks b) = None /\
  match ret_get_matches (b_retain b) "#" with Some l => map (fun m => (rc_topic m, rc_payload m, rc_client m, rc_qos m)) l | None => [] end =
    [("t", "4", "q", L0); ("v", "3", "p", L2); ("w", "bye", "p", L1)]%string.
Proof. run_of k_evs. split; [proper_of|]. split; vm_compute; reflexivity. Qed.
Example untouched_case : exists h b, x_run h b /\ (forall p, In p (Past b (EDone 0) [] :: h) -> proper p) /\ exists b', x_step (EDone 0) b = BOk b' [] /\ ~ publishes (EDone 0) /\ no_will [] /\
  exists l, ret_get_matches (b_retain b) "#" = Some l /\ List.length l = 3%nat.
Proof. run_of (removelast k_evs). split; [proper_of|]. eexists. split; [vm_compute; reflexivity|]. split; [intros []|]. split; [intros k; split; intros w []|]. eexists. split; vm_compute; reflexivity. Qed.
