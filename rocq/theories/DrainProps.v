(** C59: when a connection ends, it is cleared away. *)
From Coq Require Import List Bool NArith String Lia.
From Verif Require Import Base BaseLemmas TopicModel TopicSpec MsgModel PendingModel OutModel RouteModel RouteSpec RetainModel GlobModel Sess5Model Sess3Model ConnModel RegModel BrokerModel
  OutSpec InSpec BrokerSpec LifeSpec DelivSpec DrainSpec RunProofs BrokerFacts PanicProofs DrainProofs BrokerProps LifeProps PanicProps.
Import ListNotations.
Local Open Scope N_scope.
Local Open Scope list_scope.

Section Props.
  Variables (hash5 : wpub5 -> N) (hash3 : wpub3 -> N) (pick : draw -> broker -> string -> string -> N).
  Local Notation bstep := (bstep hash5 hash3 pick).
  Local Notation brun := (brun hash5 hash3 pick).
  Local Notation bgo := (bgo hash5 hash3 pick).
  Local Notation exec := (exec hash5 hash3 pick).

  (** A connection that is over, and nothing stands in the way of its last messages: then it
      can be cleared away by handing them over one by one, while the receivers take theirs from
      their inboxes.  Nothing else has to happen.  Missing: a receiver that does not empty its
      full inbox ([C59_cleared_refuted]).  Shared subscriptions are plain as in C50. *)
  Theorem C59_cleared_partial : forall c h b k a, cf_max_qos c <= 2 -> brun c h b ->
    (forall p, In p h -> Forall plain (shared_asked c (w_e p))) -> (forall p, In p h -> proper p) ->
    (forall k w, In w (asked_will k h) -> valid_topic_name (will_topic w)) ->
    ending b k a -> (forall d, queue_of (a_bcast a) d <> [] -> clear_way b k a d) ->
    exists es b1 out b2 o2, exec es b = Some (b1, out) /\ Forall (helps k) es /\ bstep (EDone k) b1 = BOk b2 o2 /\ cleared b2 k a.
  Proof. exact (clears_plain hash5 hash3 pick). Qed.
  (** Without any condition on shared subscriptions and wills, the last step can fail only with
      the panic of C50. *)
  Theorem C59_last_step_partial : forall c h b k a, brun c h b -> ending b k a -> (forall d, queue_of (a_bcast a) d <> [] -> clear_way b k a d) ->
    exists es b1 out, exec es b = Some (b1, out) /\ Forall (helps k) es /\
      (bstep (EDone k) b1 = BPanic \/ exists b2 o2, bstep (EDone k) b1 = BOk b2 o2 /\ cleared b2 k a).
  Proof. exact (clears hash5 hash3 pick). Qed.

  (** Whatever else happens, the work of a connection that is over only gets less, and every
      message it hands over makes it less. *)
  Theorem C59_work_shrinks : forall c h e b b' out k a a', brun c h b -> bstep e b = BOk b' out -> ending b k a -> ending b' k a' ->
    (work a' <= work a)%nat /\ ((exists d, e = EFlush k d) -> (work a' < work a)%nat).
  Proof. exact (ending_work hash5 hash3 pick). Qed.
  (** It ends in no other way than by its last step. *)
  Theorem C59_only_last_step : forall c h e b b' out k a d, brun c h b -> bstep e b = BOk b' out -> ending b k a -> queue_of (a_bcast a) d <> [] ->
    exists a', ending b' k a' /\ a_id a' = a_id a /\ a_ident a' = a_ident a.
  Proof.
    intros c h e b b' out k a d R S EN Q. destruct (ending_step hash5 hash3 pick c h e b b' out k a d R S EN Q) as (a' & E & I1 & I2 & _). exists a'. auto.
  Qed.
  (** Every client a message is queued for has an inbox: a message never waits for one that
      does not exist. *)
  Theorem C59_inbox_exists : forall c h b k a d, brun c h b -> sess_at b k = Some a -> queue_of (a_bcast a) d <> [] -> exists ch, aget d (b_chans b) = Some ch.
  Proof.
    intros c h b k a d R A Q. apply (target_chan hash5 hash3 pick c h b k a d R A). unfold queue_of in Q. destruct (aget d (a_bcast a)); congruence.
  Qed.

  (** Connections that are over and wait for each other, or one that waits for itself, do so
      for ever, whatever happens. *)
  Theorem C59_circle : forall c h b ks h' b', brun c h b -> circle b ks -> bgo b h' b' ->
    circle b' ks /\ forall k a, In k ks -> ending b k a -> exists a', ending b' k a' /\ a_id a' = a_id a /\ a_ident a' = a_ident a.
  Proof.
    intros c h b ks h' b' R C G. destruct (circle_forever hash5 hash3 pick c h b ks h' b' R C G) as (C' & K). split; [exact C'|].
    intros k a IN EN. destruct (K k a IN EN) as (a' & E & I1 & I2 & _). exists a'. auto.
  Qed.
End Props.

(** ** The full statement is false *)
(** Client "a" has subscribed to the topic of its own will, eight messages wait for it, and its
    network connection breaks. *)
Definition x_self : list bev :=
  [ETick 100000; x_w None (Some 100)] ++ x_up 0 ++ [x_sub 0 "w"; x_c5 "b" true 60 None None] ++ x_up 1 ++
  List.concat (List.repeat [x_pub 1 "w"; EFlush 1 0] 8) ++ [EClose 0; EEnd 0 true].
Ltac circle_of := intros ? IN; repeat (destruct IN as [<-|IN]); [..|destruct IN].
(** Then it is never cleared away, and the client never gets a connection again. *)
Theorem C59_cleared_refuted : exists h b, x_run h b /\ (forall p, In p h -> proper p) /\ circle b [0] /\
  forall h' b', BrokerSpec.bgo x_h5 x_h3 x_pick b h' b' -> (exists a, ending b' 0 a /\ a_ident a = "a"%string) /\
    forall k a, aget k (b_tasks b') = Some (TReady a) \/ aget k (b_tasks b') = Some (TOnline a) -> a_ident a <> "a"%string.
Proof.
  assert (X : exists h b, x_run h b /\ (forall p, In p h -> proper p) /\ circle b [0] /\ exists a, aget 0 (b_tasks b) = Some (TDrain a) /\ a_ident a = "a"%string).
  { run_of x_self. split; [proper_of|]. split; [|eexists; split; reflexivity].
    circle_of. do 2 eexists. exists 0. eexists. split; [left; vm_compute; reflexivity|]. split; [|split; [|split; [left; reflexivity|split; [left; vm_compute; reflexivity|reflexivity]]]].
    - vm_compute. discriminate.
    - vm_compute. lia. }
  destruct X as (h & b & R & P & C & a & T & E). exists h, b. split; [exact R|]. split; [exact P|]. split; [exact C|]. intros h' b' G.
  destruct (circle_locked x_h5 x_h3 x_pick _ _ _ _ _ _ 0 a R C (or_introl eq_refl) T G) as ((a' & T' & I') & N). split; [exists a'; split; [left; exact T'|congruence]|].
  intros k a2 K. rewrite <- E. eapply N; eauto.
Qed.

(** Two clients, each with eight messages waiting and a will the other one wants. *)
Definition x_will_to (t : string) : will5 := Will5 L0 false t "bye" None (PProps None None [] "").
Definition x_pair : list bev :=
  [ETick 100000; x_c5 "a" true 60 (Some 100) (Some (x_will_to "for/b"))] ++ x_up 0 ++ [x_sub 0 "for/a"; x_c5 "b" true 60 (Some 100) (Some (x_will_to "for/a"))] ++ x_up 1 ++ [x_sub 1 "for/b"; x_c5 "p" true 60 None None] ++ x_up 2 ++
  List.concat (List.repeat [x_pub 2 "for/a"; EFlush 2 0; x_pub 2 "for/b"; EFlush 2 1] 8) ++ [EClose 0; EEnd 0 true; EClose 1; EEnd 1 true].
Theorem C59_pair_refuted : exists h b, x_run h b /\ (forall p, In p h -> proper p) /\ circle b [0; 1] /\ ~ circle b [0] /\ ~ circle b [1] /\
  forall h' b', BrokerSpec.bgo x_h5 x_h3 x_pick b h' b' -> circle b' [0; 1].
Proof.
  assert (X : exists h b, x_run h b /\ (forall p, In p h -> proper p) /\ circle b [0; 1] /\ ~ circle b [0] /\ ~ circle b [1]).
  { run_of x_pair. split; [proper_of|]. split; [|split].
    - circle_of.
      + do 2 eexists. exists 1. eexists. split; [left; vm_compute; reflexivity|]. split; [|split; [|split; [right; left; reflexivity|split; [left; vm_compute; reflexivity|reflexivity]]]]; [vm_compute; discriminate|vm_compute; lia].
      + do 2 eexists. exists 0. eexists. split; [left; vm_compute; reflexivity|]. split; [|split; [|split; [left; reflexivity|split; [left; vm_compute; reflexivity|reflexivity]]]]; [vm_compute; discriminate|vm_compute; lia].
    - intros C. destruct (C 0 (or_introl eq_refl)) as (a & d & j & a' & EN & Q & _ & [<-|[]] & EN' & <-). 
      pose proof (ending_sess _ _ _ EN) as S. pose proof (ending_sess _ _ _ EN') as S'. rewrite S in S'. injection S' as <-. vm_compute in S. injection S as <-. vm_compute in Q. now apply Q.
    - intros C. destruct (C 1 (or_introl eq_refl)) as (a & d & j & a' & EN & Q & _ & [<-|[]] & EN' & <-). 
      pose proof (ending_sess _ _ _ EN) as S. pose proof (ending_sess _ _ _ EN') as S'. rewrite S in S'. injection S' as <-. vm_compute in S. injection S as <-. vm_compute in Q. now apply Q. }
  destruct X as (h & b & R & P & C & N0 & N1). exists h, b. repeat (split; [assumption|]). intros h' b' G. exact (proj1 (circle_forever x_h5 x_h3 x_pick _ _ _ _ _ _ R C G)).
Qed.

(** ** Cases that meet the hypotheses *)
(** The same as [x_self], but the subscriber is another client, which is away and has a full
    inbox: the will of "a" is for "c". *)
Definition x_clear : list bev :=
  [ETick 100000; x_w None (Some 100)] ++ x_up 0 ++ [x_c5 "c" true 60 (Some 100) None] ++ x_up 1 ++ [x_sub 1 "w"; x_c5 "b" true 60 None None] ++ x_up 2 ++ x_down 1 ++
  List.concat (List.repeat [x_pub 2 "w"; EFlush 2 1] 8) ++ [EClose 0; EEnd 0 true].
Example C59_cleared_case : exists h b, x_run h b /\ (forall p, In p h -> Forall plain (shared_asked config_default (w_e p))) /\ (forall p, In p h -> proper p) /\
  asked_will 0 h = [W5 (x_will None)] /\ asked_will 1 h = [] /\
  exists a, ending b 0 a /\ queue_of (a_bcast a) 1 <> [] /\ List.length (waiting b 1) = 8%nat /\ (forall d, queue_of (a_bcast a) d <> [] -> clear_way b 0 a d) /\ work a = 2%nat.
Proof.
  run_of x_clear. split; [plain_of|]. split; [proper_of|]. split; [reflexivity|]. split; [reflexivity|].
  eexists. split; [left; vm_compute; reflexivity|]. split; [vm_compute; discriminate|]. split; [reflexivity|]. split; [|reflexivity].
  intros d Q. right. right. exists 1. destruct (N.eqb_spec d 1) as [->|NE].
  - eexists. split; [discriminate|]. split; [right; vm_compute; reflexivity|reflexivity].
  - exfalso. apply Q. unfold queue_of. cbn [a_bcast s_bcast aget]. change (@eqb client_id _ d 1) with (N.eqb d 1). apply N.eqb_neq in NE. rewrite NE. reflexivity.
Qed.

Print Assumptions C59_cleared_partial.
Print Assumptions C59_last_step_partial.
Print Assumptions C59_work_shrinks.
Print Assumptions C59_only_last_step.
Print Assumptions C59_inbox_exists.
Print Assumptions C59_circle.
Print Assumptions C59_cleared_refuted.
Print Assumptions C59_pair_refuted.
