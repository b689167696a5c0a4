(** Proofs for C86. *)
From Coq Require Import List Bool NArith String Lia Arith.
From Verif Require Import Base MsgModel OutModel OutSpec OutFacts GlobModel Sess5Model Sess3Model ConnModel InSpec LinkSpec LinkProofs LinkProofs3 LinkFacts BrokerModel BrokerSpec LifeSpec LifeFacts RecordProofs BrokerInv OrderFacts AccSpec AccProofs AccRecv EndProofs CliSpec ArriveSpec ArriveProofs Arrive2Proofs PubOrderSpec.
Import ListNotations.
Local Open Scope list_scope.

Definition mono (src : list (option nat)) : Prop :=
  forall i i' n n', (i < i')%nat -> nth_error src i = Some (Some n) -> nth_error src i' = Some (Some n') -> (n <= n')%nat.
Definition below (k : nat) (src : list (option nat)) : Prop := Forall (fun o => match o with Some n => (n < k)%nat | None => True end) src.
Lemma mono_app src t k : mono src -> below k src -> Forall (fun o => o = None \/ o = Some k) t -> mono (src ++ t).
Proof.
  intros M B F i i' n n' L E E'. rewrite Forall_forall in F. unfold below in B. rewrite Forall_forall in B. destruct (le_lt_dec (List.length src) i') as [H|H].
  - rewrite nth_error_app2 in E' by lia. apply nth_error_In in E'. destruct (F _ E') as [?|X]; [discriminate|]. injection X as ->.
    destruct (le_lt_dec (List.length src) i) as [H1|H1].
    + rewrite nth_error_app2 in E by lia. apply nth_error_In in E. destruct (F _ E) as [?|X]; [discriminate|]. injection X as ->. lia.
    + rewrite nth_error_app1 in E by lia. apply nth_error_In in E. specialize (B _ E). cbn in B. lia.
  - rewrite nth_error_app1 in E, E' by lia. exact (M _ _ _ _ L E E').
Qed.

(** In the order of the queue is in the order of the sources. *)
Lemma first_mono src x : first_in_order x -> mono src -> forall u v i i' n n', (u < v)%nat -> nth_error x u = Some i -> nth_error x v = Some i' -> ~ In i' (firstn v x) ->
  nth_error src i = Some (Some n) -> nth_error src i' = Some (Some n') -> (n <= n')%nat.
Proof.
  intros F M u v i i' n n' L U V NI. destruct (nth_error_split _ _ V) as (a & b & -> & La).
  rewrite firstn_app, La, Nat.sub_diag, firstn_O, app_nil_r, firstn_all2 in NI by lia.
  destruct (F _ _ _ eq_refl) as [X|X]; [contradiction|]. rewrite nth_error_app1 in U by lia. apply nth_error_In in U. rewrite Forall_forall in X. specialize (X _ U).
  intros. exact (M _ _ _ _ X H H0).
Qed.
Lemma each_first x : each_once_in_order x -> first_in_order x.
Proof. intros H a i b E. right. exact (H a i b E). Qed.

Section One.
  Context {M W : Type}.
  Variables (wpid : W -> option pid) (carries : N -> N -> M -> W -> Prop) (published : W -> nat -> Prop) (log : list (oev M W)) (src : list (option nat)).
  Hypothesis MO : mono src.
  Hypothesis OK : forall w i, shows wpid carries log w i -> exists o, nth_error src i = Some o /\ forall n, o = Some n -> published w n.
  Lemma ordered ws : (exists x, Forall2 (shows wpid carries log) ws x /\ first_in_order x) -> as_published wpid carries published log src ws.
  Proof.
    intros (x & X & F). exists x. split; [exact X|]. split; [|now apply first_mono]. clear F. induction X; constructor; auto.
  Qed.
End One.

(** ** Where messages of a log come from *)
Lemma queued_app {M W} (a b : list (oev M W)) : OutSpec.queued (a ++ b) = OutSpec.queued a ++ OutSpec.queued b.
Proof. apply flat_map_app. Qed.
Lemma fed5_logs cfg l log src : fed5 cfg l log src -> logs5 cfg l log.
Proof. induction 1; econstructor; eauto. Qed.
Lemma logs5_fed cfg l log : logs5 cfg l log -> exists src, fed5 cfg l log src.
Proof. induction 1 as [|l log e out evs L (src & F)|l log now uuid p data L (src & F)]; eexists; econstructor; eauto. Qed.
Lemma fed3_logs cfg l log src : fed3 cfg l log src -> logs3 cfg l log.
Proof. induction 1; econstructor; eauto. Qed.
Lemma logs3_fed cfg l log : logs3 cfg l log -> exists src, fed3 cfg l log src.
Proof. induction 1 as [|l log e out evs L (src & F)|l log now s0 L (src & F)]; eexists; econstructor; eauto. Qed.

Section Step.
  Context {M W H : Type}.
  Variable is_message : H -> M -> Prop.
  (** Queue, sources and messages handed over agree. *)
  Definition agrees (hs : list H) (q : list (N * pid * M)) (src : list (option nat)) : Prop :=
    mono src /\ below (List.length hs) src /\
    Forall2 (fun m o => forall n, o = Some n -> exists y, nth_error hs n = Some y /\ is_message y (snd m)) q src.
  Lemma agrees_nil hs : agrees hs [] [].
  Proof. split; [intros [|] ? ? ? ? E; discriminate|]. split; constructor. Qed.
  Lemma agrees_more hs hs' q src : agrees hs q src -> agrees (hs ++ hs') q src.
  Proof.
    intros (M1 & B & F). split; auto. split.
    - eapply Forall_impl; [|exact B]. intros [n|] X; auto. rewrite app_length. lia.
    - clear M1 B. induction F as [|m o q src X F IH]; constructor; auto. intros n E. destruct (X n E) as (y & Y & Z). exists y. split; auto. rewrite nth_error_app1; auto. apply nth_error_Some. congruence.
  Qed.
  Lemma agrees_none hs q src (q' : list (N * pid * M)) : agrees hs q src -> agrees hs (q ++ q') (src ++ map (fun _ => None) q').
  Proof.
    intros (M1 & B & F). split; [|split].
    - eapply mono_app; eauto. apply Forall_map, Forall_forall. auto.
    - apply Forall_app. split; auto. apply Forall_map, Forall_forall. auto.
    - apply Forall2_app; auto. clear. induction q'; constructor; auto. discriminate.
  Qed.
  Lemma agrees_message hs y q src (q' : list (N * pid * M)) : agrees hs q src -> Forall (fun m => is_message y (snd m)) q' ->
    agrees (hs ++ [y]) (q ++ q') (src ++ map (fun _ => Some (List.length hs)) q').
  Proof.
    intros A Q. assert (A' := agrees_more hs [y] q src A). destruct A as (M1 & B & F), A' as (_ & B' & F'). split; [|split].
    - apply (mono_app _ _ (List.length hs)); auto. apply Forall_map, Forall_forall. auto.
    - apply Forall_app. split; auto. apply Forall_map, Forall_forall. intros. rewrite app_length. cbn. lia.
    - apply Forall2_app; auto. induction Q; constructor; auto. intros n E. injection E as <-. exists y. split; auto. rewrite nth_error_app2, Nat.sub_diag by lia. reflexivity.
  Qed.
  Lemma entry_queued t ack ans outs (qp : M -> Prop) (evs : list (oev M W)) : LinkSpec.entry t ack ans outs qp evs -> Forall (fun m => qp (snd m)) (OutSpec.queued evs).
  Proof.
    intros (f & r & -> & A & _ & F). rewrite queued_app. apply Forall_app. split.
    - destruct ack as [[k p]|]; [destruct A as (ok & -> & _)|subst f]; constructor.
    - induction F as [|e r X F IH]; [constructor|]. destruct e; cbn; auto. constructor; auto. cbn. tauto.
  Qed.
End Step.

Lemma heard5_app a b : heard5 (a ++ b) = heard5 a ++ heard5 b.
Proof. apply flat_map_app. Qed.
Lemma heard3_app a b : heard3 (a ++ b) = heard3 a ++ heard3 b.
Proof. apply flat_map_app. Qed.
Lemma fed5_agrees cfg l log src : fed5 cfg l log src -> agrees is_message5 (heard5 l) (OutSpec.queued log) src.
Proof.
  induction 1 as [rm|l log src e out evs F IH L|l log src now uuid p data F IH C]; [apply agrees_nil| |apply agrees_nil].
  rewrite heard5_app, queued_app. destruct e; cbn [from5 heard5 flat_map fst app] in *; rewrite ?app_nil_r; try (now apply agrees_none).
  - cbn [logged5 logged3] in L. apply agrees_message; auto. exact (entry_queued _ _ _ _ _ _ L).
  - destruct L as (_ & outs & _ & L). apply agrees_message; auto. exact (entry_queued _ _ _ _ _ _ L).
Qed.
Lemma fed3_agrees cfg l log src : fed3 cfg l log src -> agrees is_message3 (heard3 l) (OutSpec.queued log) src.
Proof.
  induction 1 as [|l log src e out evs F IH L|l log src now s0 F IH]; [apply agrees_nil| |apply agrees_nil].
  rewrite heard3_app, queued_app. destruct e; cbn [from3 heard3 flat_map fst app] in *; rewrite ?app_nil_r; try (now apply agrees_none).
  - cbn [logged5 logged3] in L. apply agrees_message; auto. exact (entry_queued _ _ _ _ _ _ L).
  - destruct L as (_ & outs & _ & L). apply agrees_message; auto. exact (entry_queued _ _ _ _ _ _ L).
Qed.
(** The other messages are queued on a SUBSCRIBE. *)
Lemma forall2_length {A B} (P : A -> B -> Prop) l l' : Forall2 P l l' -> List.length l = List.length l'.
Proof. induction 1; cbn; auto. Qed.
Lemma entry_time {M W} t ack ans outs (qp : M -> Prop) (evs : list (oev M W)) : LinkSpec.entry t ack ans outs qp evs -> Forall (fun m => fst (fst m) = t /\ qp (snd m)) (OutSpec.queued evs).
Proof.
  intros (f & r & -> & A & _ & F). rewrite queued_app. apply Forall_app. split.
  - destruct ack as [[k p]|]; [destruct A as (ok & -> & _)|subst f]; constructor.
  - induction F as [|e r X F IH]; [constructor|]. destruct e; cbn; auto.
Qed.
Lemma others_step {M} (P Q : N * pid * M -> Prop) (q q' : list (N * pid * M)) (src : list (option nat)) o : List.length q = List.length src ->
  (forall i m, nth_error q i = Some m -> nth_error src i = Some None -> P m) -> (forall m, P m -> Q m) -> (o = None -> Forall Q q') ->
  forall i m, nth_error (q ++ q') i = Some m -> nth_error (src ++ map (fun _ => o) q') i = Some None -> Q m.
Proof.
  intros L H PQ F i m E S. destruct (le_lt_dec (List.length q) i) as [X|X].
  - rewrite nth_error_app2 in E, S by lia. rewrite L in E. apply nth_error_In in S. apply in_map_iff in S as (? & -> & _). apply nth_error_In in E. specialize (F eq_refl). rewrite Forall_forall in F. auto.
  - rewrite nth_error_app1 in E, S by lia. eauto.
Qed.
Lemma others5 cfg l log src : fed5 cfg l log src -> forall i m, nth_error (OutSpec.queued log) i = Some m -> nth_error src i = Some None ->
  exists len x g out, In (VPkt (fst (fst m)) len x g, out) l /\ by_subscribe5 x.
Proof.
  induction 1 as [rm|l log src e out evs F IH L|l log src now uuid p data F IH C]; [intros [|] ? E; discriminate E| |intros [|] ? E; discriminate E].
  rewrite queued_app. apply (others_step (fun m => exists len x g out, In (VPkt (fst (fst m)) len x g, out) l /\ by_subscribe5 x)).
  - destruct (fed5_agrees _ _ _ _ F) as (_ & _ & A). exact (forall2_length _ _ _ A).
  - exact IH.
  - intros m (len & x & g & o & I & B). exists len, x, g, o. split; auto. apply in_app_iff. auto.
  - intros E. destruct e; try discriminate E; cbn [logged5] in L.
    + apply entry_time in L. eapply Forall_impl; [|exact L]. intros m (<- & B). do 4 eexists. split; [apply in_app_iff; right; left; reflexivity|exact B].
    + destruct L as (_ & ->). constructor.
    + apply entry_time in L. eapply Forall_impl; [|exact L]. intros m (_ & []).
    + destruct L as (_ & ->). constructor.
    + destruct L as (_ & ->). constructor.
    + destruct L as (_ & ->). constructor.
Qed.
Lemma others3 cfg l log src : fed3 cfg l log src -> forall i m, nth_error (OutSpec.queued log) i = Some m -> nth_error src i = Some None ->
  exists len x g out, In (UPkt (fst (fst m)) len x g, out) l /\ by_subscribe3 x.
Proof.
  induction 1 as [|l log src e out evs F IH L|l log src now s0 F IH]; [intros [|] ? E; discriminate E| |intros [|] ? E; discriminate E].
  rewrite queued_app. apply (others_step (fun m => exists len x g out, In (UPkt (fst (fst m)) len x g, out) l /\ by_subscribe3 x)).
  - destruct (fed3_agrees _ _ _ _ F) as (_ & _ & A). exact (forall2_length _ _ _ A).
  - exact IH.
  - intros m (len & x & g & o & I & B). exists len, x, g, o. split; auto. apply in_app_iff. auto.
  - intros E. destruct e; try discriminate E; cbn [logged3] in L.
    + destruct L as (outs & L & _). apply entry_time in L. eapply Forall_impl; [|exact L]. intros m (<- & B). do 4 eexists. split; [apply in_app_iff; right; left; reflexivity|exact B].
    + destruct L as (_ & ->). constructor.
    + apply entry_time in L. eapply Forall_impl; [|exact L]. intros m (_ & []).
    + destruct L as (_ & ->). constructor.
    + destruct L as (_ & ->). constructor.
Qed.
Lemma forall2_nth {A B} (P : A -> B -> Prop) l l' i a : Forall2 P l l' -> nth_error l i = Some a -> exists b, nth_error l' i = Some b /\ P a b.
Proof. intros F. revert i. induction F as [|x y l l' X F IH]; intros [|i] E; try discriminate; cbn in *; [injection E as <-; eauto|auto]. Qed.
Lemma nth_passed d h (hs w : list nmsg) n y : map (fun x => snd (snd x)) (passed_in d h) = hs ++ w -> nth_error hs n = Some y ->
  exists j from, nth_error (passed_in d h) n = Some (j, (from, y)).
Proof.
  intros E N. assert (X : nth_error (map (fun x => snd (snd x)) (passed_in d h)) n = Some y) by (rewrite E, nth_error_app1; auto; apply nth_error_Some; congruence).
  rewrite nth_error_map in X. destruct (nth_error (passed_in d h) n) as [[j [from z]]|]; [|discriminate]. injection X as ->. eauto.
Qed.

Section Broker.
  Variables (hash5 : wpub5 -> N) (hash3 : wpub3 -> N) (pick : draw -> broker -> string -> string -> N).
  Variables (c : config) (h : list past) (b : broker) (k : N).
  Hypotheses (R : brun hash5 hash3 pick c h b) (P : forall p, In p h -> proper p) (T : forall p, In p h -> after_1970 p).
  Lemma order5 s : sess_at b k = Some (A5 s) -> exists l log src, LifeSpec.life5 k h l /\ fed5 c l log src /\
    (forall d r, arrives log d r -> as_published wpid5 carries5 (published5 (s_id s) h) log src (pubs wpid5 r)) /\
    (forall cl, met w5_qp client_new log cl -> as_published wpid5 carries5 (published5 (s_id s) h) log src (with_qos1 w5_qp (c_app cl)) /\
       (few_enough c log -> expired_unsent log wpid5 -> as_published wpid5 carries5 (published5 (s_id s) h) log src (with_qos2 w5_qp (c_app cl)))).
  Proof.
    intros A. destruct (arrived5 hash5 hash3 pick c h b k s R P A) as (l & L & S & HP). assert (C : Forall clocked5 l) by (eapply life5_clocked; eauto).
    destruct (run_linked _ _ _ _ S C) as (rm & amax & ops & log & F & RN & LG & _). destruct (logs5_fed _ _ _ LG) as (src & FD). exists l, log, src. split; [exact L|]. split; [exact FD|].
    destruct (fed5_agrees _ _ _ _ FD) as (MO & _ & AG).
    assert (OK : forall w i, shows wpid5 carries5 log w i -> exists o, nth_error src i = Some o /\ forall n, o = Some n -> published5 (s_id s) h w n).
    { intros w i (t & p & m & t' & E & _ & CR). destruct (forall2_nth _ _ _ _ _ AG E) as (o & O & X). exists o. split; [exact O|]. intros n N. destruct (X n N) as (y & Y & I1 & I2 & I3). cbn [snd] in *.
      destruct (nth_passed _ _ _ _ _ _ HP Y) as (j & from & J). exists j, from, y. destruct CR as (C1 & _ & C3 & _ & _ & C6 & _). rewrite <- I1, <- I2, <- I3. auto. }
    assert (El : log = snd (run5 rm (cf_max_pending c) (cf_inflight_timeout c) amax ops)) by now rewrite RN.
    assert (AR : arrive_in_order wpid5 carries5 log).
    { rewrite El. apply arrive5_lemma; auto. rewrite <- El. apply up_steady. eapply rising_log; [exact LG|]. eapply life_rising; eauto. }
    split.
    - intros d r X. apply ordered; auto. exact (AR d r X).
    - intros cl X. split; [apply ordered; auto; exact (proj2 (given5_lemma _ AR) cl X)|]. intros FE EX. apply ordered; auto.
      assert (G : given_once_in_order w5_qp carries5 log) by (rewrite El in *; apply once5_lemma; auto; now apply few_no_reuse5).
      destruct (G cl X) as (x & X1 & X2). exists x. split; [exact X1|now apply each_first].
  Qed.
  Lemma order3 s : sess_at b k = Some (A3 s) -> exists l log src, LifeSpec.life3 k h l /\ fed3 c l log src /\
    (forall d r, arrives log d r -> as_published wpid3 carries3 (published3 (z_id s) h) log src (pubs wpid3 r)) /\
    (forall cl, met w3_qp client_new log cl -> as_published wpid3 carries3 (published3 (z_id s) h) log src (with_qos1 w3_qp (c_app cl)) /\
       (few_enough c log -> as_published wpid3 carries3 (published3 (z_id s) h) log src (with_qos2 w3_qp (c_app cl)))).
  Proof.
    intros A. destruct (arrived3 hash5 hash3 pick c h b k s R P A) as (l & L & S & HP). assert (C : Forall clocked3 l) by (eapply life3_clocked; eauto).
    destruct (run_linked3 _ _ _ _ S C) as (ops & log & F & RN & LG). destruct (logs3_fed _ _ _ LG) as (src & FD). exists l, log, src. split; [exact L|]. split; [exact FD|].
    destruct (fed3_agrees _ _ _ _ FD) as (MO & _ & AG).
    assert (OK : forall w i, shows wpid3 carries3 log w i -> exists o, nth_error src i = Some o /\ forall n, o = Some n -> published3 (z_id s) h w n).
    { intros w i (t & p & m & t' & E & _ & CR). destruct (forall2_nth _ _ _ _ _ AG E) as (o & O & X). exists o. split; [exact O|]. intros n N. destruct (X n N) as (y & Y & I1 & I2 & I3). cbn [snd] in *.
      destruct (nth_passed _ _ _ _ _ _ HP Y) as (j & from & J). exists j, from, y. destruct CR as (C1 & _ & C3 & C4). rewrite <- I1, <- I2, <- I3. auto. }
    assert (El : log = snd (run3 (cf_inflight_client c) (cf_max_pending c) (cf_inflight_timeout c) ops)) by now rewrite RN.
    assert (AR : arrive_in_order wpid3 carries3 log) by (rewrite El; apply arrive3_lemma; auto).
    split.
    - intros d r X. apply ordered; auto. exact (AR d r X).
    - intros cl X. split; [apply ordered; auto; exact (proj2 (given3_lemma _ AR) cl X)|]. intros FE. apply ordered; auto.
      assert (G : given_once_in_order w3_qp carries3 log) by (rewrite El in *; apply once3_lemma; auto; now apply few_no_reuse3).
      destruct (G cl X) as (x & X1 & X2). exists x. split; [exact X1|now apply each_first].
  Qed.
End Broker.

(** What a connection passed on is the beginning of what it accepted, whatever became of it. *)
Section Sender.
  Variables (hash5 : wpub5 -> N) (hash3 : wpub3 -> N) (pick : draw -> broker -> string -> string -> N).
  Lemma passed_prefix c h b j d : brun hash5 hash3 pick c h b -> (forall p, In p h -> ~ cut_off j d p) ->
    exists rest, AccSpec.queued_in j d h b = passed_by j (passed_in d h) ++ rest.
  Proof.
    intros R NC. destruct (sess_at b j) as [a|] eqn:A; [eexists; exact (sender_lemma _ _ _ _ _ _ _ _ _ R A NC)|].
    revert NC A. induction R as [|h b e b' out R IH S]; intros NC A; [exists []; reflexivity|].
    assert (NF : forall d', w_e (Past b e out) <> EFlush j d').
    { cbn. intros d' ->. cbn [BrokerModel.bstep] in S. unfold do_flush, sess_at in *.
      destruct (aget j (b_tasks b)) as [[x q|x q|x r|a|a|a|a|a|a st]|]; try discriminate; (destruct (flush d' a b) as [[a1 b1]|]; [|discriminate]); injection S as <- <-;
        cbn [set_task set_tasks b_tasks] in A; rewrite aget_N, N.eqb_refl in A; discriminate A. }
    assert (IH' : exists rest, AccSpec.queued_in j d h b = passed_by j (passed_in d h) ++ rest).
    { assert (NC' : forall p, In p h -> ~ cut_off j d p) by (intros p I; apply NC; right; exact I).
      destruct (sess_at b j) as [a|] eqn:A0; [eexists; exact (sender_lemma _ _ _ _ _ _ _ _ _ R A0 NC')|exact (IH NC' eq_refl)]. }
    destruct IH' as (rest & E). exists rest. cbn [AccSpec.queued_in passed_in w_b]. unfold passed_by in *. rewrite flat_map_app. fold (passed_by j (passed d (Past b e out))). rewrite (passed_other _ _ _ NF), app_nil_r, E.
    unfold AccSpec.queued. rewrite A. destruct (sess_at b j); apply app_nil_r.
  Qed.
  Lemma from_publisher c h b k a j : brun hash5 hash3 pick c h b -> sess_at b k = Some a ->
    exists rest, AccSpec.queued_in j (a_id a) h b = passed_by j (passed_in (a_id a) h) ++ rest.
  Proof. intros R A. eapply passed_prefix; [exact R|]. exact (not_cut hash5 hash3 pick c h b k a j R A). Qed.
End Sender.
