(** Property theorems C06, C07 and the retained half of C02. *)
From Coq Require Import List Bool String Ascii NArith.
From Verif Require Import Base TopicModel TopicSpec MsgModel RetainModel RetainSpec RetainProofs.
Import ListNotations.
Local Open Scope string_scope.

(** C06: for every history of stores and removals and every valid filter, the
    lookup does not panic and returns exactly the message last retained for each
    matching topic, once per topic; and each store or removal returns the message
    it replaced. *)
Theorem C06_retained_exact : forall h,
  (forall f, valid_filter f ->
     exists l, ret_get_matches (ret_run h) f = Some l /\ NoDup (map rc_topic l) /\
       forall c, In c l <-> retained h (rc_topic c) = Some c /\ topic_matches f (rc_topic c)) /\
  (forall o, snd (ret_step (ret_run h) o) =
     retained h (match o with RIns x => rc_topic x | RDel tp => tp end)).
Proof. exact (fun h => conj (retained_lookup_lemma h) (ret_step_returns h)). Qed.
Print Assumptions C06_retained_exact.

Definition ex_msg (topic payload : string) : rcontent := RContent "c" L1 topic payload None 9.
Definition ex_ret : list retop :=
  [RIns (ex_msg "a" "1"); RIns (ex_msg "a/b" "2"); RIns (ex_msg "a/b/c" "3"); RIns (ex_msg "$SYS/b" "4");
   RIns (ex_msg "a/b" "5"); RDel "a/b/c"; RDel "zz"; RIns (ex_msg "/b" "6")].
Example C06_example :
  ret_get_matches (ret_run ex_ret) "a/#" = Some [ex_msg "a/b" "5"; ex_msg "a" "1"] /\
  ret_get_matches (ret_run ex_ret) "+/b" = Some [ex_msg "a/b" "5"; ex_msg "/b" "6"] /\
  ret_get_matches (ret_run ex_ret) "$SYS/+" = Some [ex_msg "$SYS/b" "4"] /\
  retained ex_ret "a/b/c" = None /\ valid_filter "+/b".
Proof.
  repeat (split; [vm_compute; reflexivity|]). unfold valid_filter. cbn.
  apply vl_plus, vl_lit; [split; reflexivity|constructor].
Qed.

(** C02 (retained half): a filter starting with a wildcard never returns a
    message retained under a '$' topic. *)
Theorem C02_dollar_retained_hidden : forall h f l c, valid_filter f -> begins_with_wildcard f ->
  ret_get_matches (ret_run h) f = Some l -> In c l -> ~ begins_with_dollar (rc_topic c).
Proof. exact retained_dollar_lemma. Qed.
Print Assumptions C02_dollar_retained_hidden.

Example C02_retained_example :
  begins_with_wildcard "#" /\ retained ex_ret "$SYS/b" = Some (ex_msg "$SYS/b" "4") /\
  ret_get_matches (ret_run ex_ret) "#" = Some [ex_msg "a/b" "5"; ex_msg "a" "1"; ex_msg "/b" "6"].
Proof. split; [exists ""; auto|]. split; vm_compute; reflexivity. Qed.

(** C07: every node of the store lies on the path of a topic that has a retained
    message, and a store without retained messages is the initial one. *)
Theorem C07_retained_no_garbage : forall h,
  (forall p m, p <> [] -> tnode_at p (ret_run h) = Some m ->
     exists topic c q, levels topic = (p ++ q)%list /\ retained h topic = Some c) /\
  ((forall topic, retained h topic = None) -> ret_run h = ret_empty).
Proof. exact retained_no_garbage_lemma. Qed.
Print Assumptions C07_retained_no_garbage.

Example C07_example :
  (exists m, tnode_at ["a"; "b"] (ret_run ex_ret) = Some m) /\
  (forall topic, retained [RIns (ex_msg "a/b" "1"); RIns (ex_msg "a" "2"); RDel "a/b"; RDel "a"] topic = None) /\
  ret_run [RIns (ex_msg "a/b" "1"); RIns (ex_msg "a" "2"); RDel "a/b"] <> ret_empty.
Proof.
  split; [eexists; vm_compute; reflexivity|]. split; [|vm_compute; discriminate].
  intros topic. unfold retained. cbn [fold_left rc_topic ex_msg].
  destruct (String.eqb "a" topic); [reflexivity|]. destruct (String.eqb "a/b" topic); reflexivity.
Qed.
