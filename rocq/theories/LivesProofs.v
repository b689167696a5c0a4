(** What a history says about a session is unambiguous: all its lives agree. *)
From Coq Require Import List Bool NArith String Lia.
From Verif Require Import Base BaseLemmas TopicModel MsgModel PendingModel OutModel RouteModel RetainModel GlobModel Sess5Model Sess3Model ConnModel
  OutSpec InSpec LinkSpec SubsSpec RegModel BrokerModel BrokerSpec CoreProofs BrokerInv TaskMove StepProofs RunProofs RegProofs EvolProofs HistProofs LifeSpec TimeProofs.
Import ListNotations.
Local Open Scope N_scope.
Local Open Scope list_scope.

(** ** What counts of a life: packets and takeovers since the last clean start *)
Definition recall5 (acc : list (sev5 * list pkt5)) (x : sev5 * list pkt5) : list (sev5 * list pkt5) :=
  match fst x with
  | VTake _ _ p _ => if co_clean p then [] else acc ++ [x]
  | VPkt _ _ IOther _ => acc
  | VPkt _ _ _ _ => acc ++ [x]
  | _ => acc
  end.
Definition recent5 (l : list (sev5 * list pkt5)) : list (sev5 * list pkt5) := fold_left recall5 l [].
Definition recall3 (acc : list (sev3 * list pkt3)) (x : sev3 * list pkt3) : list (sev3 * list pkt3) :=
  match fst x with
  | UTake _ _ present => if present then acc ++ [x] else []
  | UPkt _ _ YOther _ => acc
  | UPkt _ _ _ _ => acc ++ [x]
  | _ => acc
  end.
Definition recent3 (l : list (sev3 * list pkt3)) : list (sev3 * list pkt3) := fold_left recall3 l [].

Lemma recent5_app l d : recent5 (l ++ d) = fold_left recall5 d (recent5 l).
Proof. apply fold_left_app. Qed.
Lemma recent3_app l d : recent3 (l ++ d) = fold_left recall3 d (recent3 l).
Proof. apply fold_left_app. Qed.

Lemma still_recall5 l : Forall still5 l -> forall acc, fold_left recall5 l acc = acc.
Proof. induction 1 as [|[x o] l S F IH]; intros acc; auto. cbn. destruct x, o; cbn in *; try contradiction; auto. Qed.
Lemma still_recall3 l : Forall still3 l -> forall acc, fold_left recall3 l acc = acc.
Proof. induction 1 as [|[x o] l S F IH]; intros acc; auto. cbn. destruct x, o; cbn in *; try contradiction; auto. Qed.
Lemma lost_recall3 t ms acc : fold_left recall3 (map (fun m : client_id * nmsg => (ULost t (snd m), @nil pkt3)) ms) acc = acc.
Proof. revert acc. induction ms; intros acc; cbn; auto. Qed.

Lemma fold_snoc {A B} (f : A -> B -> A) l x a : fold_left f (l ++ [x]) a = f (fold_left f l a) x.
Proof. rewrite fold_left_app. reflexivity. Qed.
Lemma bound_snoc l x a : bound (l ++ [x]) a = bind_step a (bound l a) (fst x).
Proof. unfold bound. rewrite map_app. apply fold_snoc. Qed.
Lemma opener_snoc' l x p : opener (l ++ [x]) p = open_step p (opener l p) x.
Proof. apply fold_snoc. Qed.
Lemma subs5_snoc l x : subscribed5 (l ++ [x]) = subs_step5 (subscribed5 l) x.
Proof. apply fold_snoc. Qed.
Lemma opener3_snoc' l x p : opener3 (l ++ [x]) p = open_step3 p (opener3 l p) x.
Proof. apply fold_snoc. Qed.
Lemma subs3_snoc c l x : subscribed3 c (l ++ [x]) = subs_step3 c (subscribed3 c l) x.
Proof. apply fold_snoc. Qed.

Lemma recent5_view l : (forall a, bound l a = bound (recent5 l) a) /\ (forall p, opener l p = opener (recent5 l) p) /\ subscribed5 l = subscribed5 (recent5 l).
Proof.
  induction l as [|[x o] l (A & B & C)] using rev_ind; [auto|]. rewrite recent5_app. cbn [fold_left]. unfold recall5 at 1 2 3. cbn [fst].
  destruct x as [now len i g| | | | | | |now u p data]; try (repeat split; intros; rewrite ?bound_snoc, ?opener_snoc', ?subs5_snoc; cbn; auto; fail).
  - destruct i; try (repeat split; intros; rewrite ?bound_snoc, ?opener_snoc', ?subs5_snoc; cbn; rewrite ?A, ?B, ?C; auto; fail).
  - destruct (co_clean p) eqn:E; repeat split; intros; rewrite ?bound_snoc, ?opener_snoc', ?subs5_snoc; cbn; rewrite ?E; auto.
Qed.
Lemma recent3_view c l : (forall p, opener3 l p = opener3 (recent3 l) p) /\ subscribed3 c l = subscribed3 c (recent3 l).
Proof.
  induction l as [|[x o] l (B & C)] using rev_ind; [auto|]. rewrite recent3_app. cbn [fold_left]. unfold recall3 at 1 2. cbn [fst].
  destruct x as [now len i g| | | | | |now s present]; try (repeat split; intros; rewrite ?opener3_snoc', ?subs3_snoc; cbn; auto; fail).
  - destruct i; try (repeat split; intros; rewrite ?opener3_snoc', ?subs3_snoc; cbn; rewrite ?B, ?C; auto; fail).
  - destruct present eqn:E; repeat split; intros; rewrite ?opener3_snoc', ?subs3_snoc; cbn; rewrite ?E; auto.
Qed.

Lemma did_view5 k p d1 d2 acc : did5 k p d1 -> did5 k p d2 -> fold_left recall5 d1 acc = fold_left recall5 d2 acc.
Proof.
  assert (X : forall d, did5 k p d -> fold_left recall5 d acc = match w_e p with
    | EPacket5 j len x => if j =? k then recall5 acc (VPkt (seconds (w_b p)) len x (glob_of (w_b p)), pkts5 k (w_out p)) else acc | _ => acc end).
  { intros d D. destruct D; try (rewrite H; cbn; rewrite ?N.eqb_refl; auto; fail).
    rewrite still_recall5 by auto. destruct (w_e p); auto. destruct (N.eqb_spec k0 k); auto. subst. cbn in H. destruct x; cbn; auto; congruence. }
  intros A B. rewrite (X _ A), (X _ B). reflexivity.
Qed.
Lemma did_view3 k p d1 d2 acc : did3 k p d1 -> did3 k p d2 -> fold_left recall3 d1 acc = fold_left recall3 d2 acc.
Proof.
  assert (X : forall d, did3 k p d -> fold_left recall3 d acc = match w_e p with
    | EPacket3 j len x => if j =? k then recall3 acc (UPkt (seconds (w_b p)) len x (glob_of (w_b p)), pkts3 k (w_out p)) else acc | _ => acc end).
  { intros d D. destruct D; try (rewrite H; cbn; rewrite ?N.eqb_refl; auto; fail).
    rewrite still_recall3 by auto. destruct (w_e p); auto. destruct (N.eqb_spec k0 k); auto. subst. cbn in H. destruct x; cbn; auto; congruence. }
  intros A B. rewrite (X _ A), (X _ B). reflexivity.
Qed.

Section Lives.
  Variables (hash5 : wpub5 -> N) (hash3 : wpub3 -> N) (pick : draw -> broker -> string -> string -> N).
  Notation bstep := (bstep hash5 hash3 pick).
  Notation brun := (brun hash5 hash3 pick).
  Notation bgo := (bgo hash5 hash3 pick).

  (** ** A connection goes forward only *)
  (** It has made its request, or has needed none. *)
  Definition late (b : broker) (k : N) : Prop := k < b_conns b /\ forall x c, aget k (b_tasks b) <> Some (TSend x c) /\ aget k (b_tasks b) <> Some (TReply x c).
  (** It has got its CONNACK, too. *)
  Definition later (b : broker) (k : N) : Prop := late b k /\ forall x r, aget k (b_tasks b) <> Some (TJoin x r).

  Lemma late_step e b b' out k : good b -> bstep e b = BOk b' out -> late b k -> late b' k.
  Proof.
    intros [I P] S (L & N). pose proof (step_conns _ _ _ _ _ _ _ S) as SC. split; [destruct e; lia|]. intros x c.
    pose proof (step_move _ _ _ _ _ _ _ I S k) as M.
    split; intros E; rewrite E in M; inversion M; subst; try lia;
      match goal with H : Some _ = aget k (b_tasks b) |- _ => revert H; intros H; symmetry in H; revert H; apply N | H : aget k (b_tasks b) = Some _ |- _ => revert H; apply N end.
  Qed.
  Lemma later_step e b b' out k : good b -> bstep e b = BOk b' out -> later b k -> later b' k.
  Proof.
    intros G S (L & N). split; [eapply late_step; eauto|]. destruct L as (L & W). destruct G as [I P].
    pose proof (step_move _ _ _ _ _ _ _ I S k) as M. intros x r E. rewrite E in M. inversion M; subst; try lia.
    - eapply N; eauto.
    - match goal with H : Some ?t = aget k (b_tasks b) |- _ => symmetry in H; apply W in H; auto end.
  Qed.
  Lemma late_go b h b' k : good b -> bgo b h b' -> late b k -> late b' k.
  Proof. intros G R L. induction R; auto. eapply late_step; [eapply go_good; eauto| |]; eauto. Qed.
  Lemma later_go b h b' k : good b -> bgo b h b' -> later b k -> later b' k.
  Proof. intros G R L. induction R; auto. eapply later_step; [eapply go_good; eauto| |]; eauto. Qed.

  Lemma join_step k b b' out : good b -> bstep (EJoin k) b = BOk b' out -> (exists x r, aget k (b_tasks b) = Some (TJoin x r)) /\ later b' k.
  Proof.
    intros G S. pose proof G as [I P]. assert (T : exists x r, aget k (b_tasks b) = Some (TJoin x r)).
    { cbn [BrokerModel.bstep] in S. unfold do_join in S. destruct (_ <=? _); [discriminate|]. destruct (aget k (b_tasks b)) as [[| |x r| | | | | |]|]; try discriminate. eauto. }
    split; auto. destruct T as (x & r & A). pose proof (task_num _ _ _ G A) as L. pose proof (step_conns _ _ _ _ _ _ _ S) as SC. cbn in SC.
    assert (T' : aget k (b_tasks b') = None \/ exists a, aget k (b_tasks b') = Some (TReady a)).
    { cbn [BrokerModel.bstep] in S. unfold do_join in S. destruct (_ <=? _); [discriminate|]. rewrite A in S. destruct x as [cn data|s0].
      - destruct (match r with RNew c => Some (RcNew c) | ROld5 st => Some (RcPresent st) | ROld3 _ => None end); [|discriminate].
        destruct (session_connect5 _ _ _ _ _ _) as [[s ack]|]; [|discriminate]. destruct (s_connected s); injection S as <- <-.
        + right. exists (A5 s). cbn. apply aget_aset_eq.
        + left. unfold close. destruct I as [K TN CN OK]. destruct (start_keep_same k (A5 s) b) as (ST & _). destruct (aget (s_id s) _); cbn; apply aget_adel_eq; rewrite ST; auto.
      - destruct (match r with RNew c => Some (RcNew3 c) | ROld3 st => Some (RcPresent3 st) | ROld5 _ => None end); [|discriminate].
        destruct (session_connect3 _ _ _) as [s1 ack]. injection S as <- <-. right. exists (A3 s1). cbn. apply aget_aset_eq. }
    split; [split; [lia|]|]; intros; destruct T' as [->|(a & ->)]; try split; discriminate.
  Qed.

  (** The session goes to the connection that waits for it. *)
  Lemma give_step j b b' out (on : bool) a k : good b -> bstep (EControl j) b = BOk b' out -> aget j (b_tasks b) = Some (if on then TOnline a else TOffline a) ->
    requested b a k -> (exists x c, aget k (b_tasks b) = Some (TReply x c)) /\ late b' k.
  Proof.
    intros G S A (ch & r & C & Q). pose proof (step_conns _ _ _ _ _ _ _ S) as SC. cbn in SC.
    assert (X : exists b1 x c rc, b_tasks b1 = b_tasks b /\ aget k (b_tasks b1) = Some (TReply x c) /\ hand_over j k x rc b1 = BOk b' out).
    { cbn [BrokerModel.bstep] in S. unfold do_control in S. rewrite A in S. destruct ch as [cs ms o]. cbn in Q. subst cs. destruct on; rewrite C in S.
      - unfold control in S. destruct a as [s|s]; cbn [a_v5] in S.
        + set (b1 := set_chan _ _ _) in S. destruct (aget k (b_tasks b1)) as [[|x c| | | | | | |]|] eqn:K; try discriminate. exists b1, x, c. eexists. split; [reflexivity|]. split; eauto.
        + set (b1 := set_chan _ _ _) in S. destruct (aget k (b_tasks b1)) as [[|x c| | | | | | |]|] eqn:K; try discriminate. destruct (aget (z_id s) (b_chans b1)) eqn:Z; [|discriminate].
          exists b1, x, c. eexists. split; [reflexivity|]. split; eauto.
      - unfold control in S. destruct a as [s|s]; cbn [a_v5] in S.
        + set (b1 := set_chan _ _ _) in S. destruct (aget k (b_tasks b1)) as [[|x c| | | | | | |]|] eqn:K; try discriminate. exists b1, x, c. eexists. split; [reflexivity|]. split; eauto.
        + set (b1 := set_chan _ _ b) in S. destruct (aget k (b_tasks b1)) as [[|x c| | | | | | |]|] eqn:K; try discriminate. destruct (aget (z_id s) (b_chans b1)) eqn:Z; [|discriminate].
          eexists _, x, c, _. split; [|split; [|exact S]]; [reflexivity|exact K]. }
    destruct X as (b1 & x & c & rc & E & K & H). rewrite E in K. split; eauto. pose proof (task_num _ _ _ G K).
    unfold hand_over in H. injection H as <- <-. split; [lia|]. intros. cbn. rewrite aget_aset_eq. split; discriminate.
  Qed.

  Lemma run_inv c p h b : brun c (p :: h) b -> brun c h (w_b p) /\ bstep (w_e p) (w_b p) = BOk b (w_out p).
  Proof. intros R. inversion R; subst. auto. Qed.

  (** The CONNECT of a connection. *)
  Lemma made_same c h b q1 q2 k : brun c h b -> made_by h q1 k -> made_by h q2 k -> e_clean (w_e q1) <> None -> e_clean (w_e q2) <> None -> q1 = q2.
  Proof.
    intros R. assert (LT : forall h b q, brun c h b -> In q h -> e_clean (w_e q) <> None -> b_conns (w_b q) < b_conns b).
    { clear. intros h b q R. induction R as [|h b e b' out R IH S]; [intros []|]. intros I E. pose proof (step_conns _ _ _ _ _ _ _ S) as SC.
      destruct I as [<-|I]; cbn in *; [destruct e; cbn in E; try congruence; lia|]. specialize (IH I E). destruct e; lia. }
    induction R as [|h b e b' out R IH S]; [intros ([] & _)|]. intros ([<-|I1] & N1) ([<-|I2] & N2) E1 E2; auto.
    - pose proof (LT _ _ _ R I2 E2). cbn in N1. lia.
    - pose proof (LT _ _ _ R I1 E1). cbn in N2. lia.
    - apply IH; [split|split| |]; auto.
  Qed.

  (** A life begins with a CONNACK. *)
  Lemma life5_join k h l : life5 k h l -> exists p h1 h2, h = h2 ++ p :: h1 /\ w_e p = EJoin k.
  Proof.
    induction 1.
    - exists p, h, []. auto.
    - exists p, (h2 ++ q :: h1), []. auto.
    - destruct IHlife5 as (p' & h1 & h2 & -> & E). exists p', h1, (p :: h2). auto.
  Qed.
  Lemma life3_join k h l : life3 k h l -> exists p h1 h2, h = h2 ++ p :: h1 /\ w_e p = EJoin k.
  Proof.
    induction 1.
    - exists p, h, []. auto.
    - exists p, (h2 ++ q :: h1), []. auto.
    - destruct IHlife3 as (p' & h1 & h2 & -> & E). exists p', h1, (p :: h2). auto.
  Qed.
  Lemma joined_later c h b p h1 h2 k : brun c h b -> h = h2 ++ p :: h1 -> w_e p = EJoin k -> later b k.
  Proof.
    intros R -> E. destruct (run_split _ _ _ _ _ _ _ R) as (b0 & R0 & G). destruct (run_inv _ _ _ _ R0) as (R1 & S). rewrite E in S.
    eapply later_go; [|exact G|]; [exact (run_good _ _ _ _ _ _ R0)|]. eapply join_step; [|exact S]. exact (run_good _ _ _ _ _ _ R1).
  Qed.
  Lemma later_no_join b b' out k : good b -> later b k -> bstep (EJoin k) b = BOk b' out -> False.
  Proof. intros G L S. destruct (join_step _ _ _ _ G S) as ((x & r & A) & _). destruct L as (_ & L). exact (L _ _ A). Qed.

  (** Two steps at which the session was handed to connection [k] are the same. *)
  Lemma gave_after c h2 q h1 b j (on : bool) a k : brun c (h2 ++ q :: h1) b -> w_e q = EControl j ->
    aget j (b_tasks (w_b q)) = Some (if on then TOnline a else TOffline a) -> requested (w_b q) a k ->
    (exists x c, aget k (b_tasks (w_b q)) = Some (TReply x c)) /\
    forall q' h2', In q' h2 -> w_e q' = EControl h2' -> forall (on' : bool) a', aget h2' (b_tasks (w_b q')) = Some (if on' then TOnline a' else TOffline a') -> requested (w_b q') a' k -> False.
  Proof.
    intros R E A Q. destruct (run_split _ _ _ _ _ _ _ R) as (b0 & R0 & G). destruct (run_inv _ _ _ _ R0) as (R1 & S). rewrite E in S.
    destruct (give_step _ _ _ _ _ _ _ (run_good _ _ _ _ _ _ R1) S A Q) as (T & L). split; auto. pose proof (run_good _ _ _ _ _ _ R0) as G0.
    intros q' j' I' E' on' a' A' Q'. apply in_split in I'. destruct I' as (ha & hb & ->).
    rewrite <- app_assoc in R. cbn in R. destruct (run_split _ _ _ _ _ _ _ R) as (b2 & R2 & _). destruct (run_inv _ _ _ _ R2) as (R3 & S3). rewrite E' in S3.
    destruct (run_split _ _ _ _ _ _ _ R3) as (b4 & R4 & G4). assert (b4 = b0).
    { destruct (run_inv _ _ _ _ R4) as (_ & S4). rewrite E, S in S4. congruence. }
    subst b4. pose proof (late_go _ _ _ _ G0 G4 L) as L3. destruct (give_step _ _ _ _ _ _ _ (run_good _ _ _ _ _ _ R3) S3 A' Q') as ((x & cc & T') & _).
    destruct L3 as (_ & L3). exact (proj2 (L3 _ _) T').
  Qed.
  Lemma two_splits {A} (h2 : list A) q h1 h2' q' h1' : h2 ++ q :: h1 = h2' ++ q' :: h1' -> (q = q' /\ h1 = h1') \/ In q' h2 \/ In q h2'.
  Proof.
    revert h2'. induction h2 as [|x h2 IH]; intros [|x' h2']; cbn; intros E; injection E as E1 E2; subst; auto.
    destruct (IH _ E2) as [X|[X|X]]; auto.
  Qed.
  Lemma gave_once c h2 q h1 h2' q' h1' b j (on : bool) a j' (on' : bool) a' k : brun c (h2 ++ q :: h1) b -> h2 ++ q :: h1 = h2' ++ q' :: h1' ->
    w_e q = EControl j -> aget j (b_tasks (w_b q)) = Some (if on then TOnline a else TOffline a) -> requested (w_b q) a k ->
    w_e q' = EControl j' -> aget j' (b_tasks (w_b q')) = Some (if on' then TOnline a' else TOffline a') -> requested (w_b q') a' k ->
    q = q' /\ h1 = h1'.
  Proof.
    intros R E Q1 Q2 Q3 Q1' Q2' Q3'. destruct (two_splits _ _ _ _ _ _ E) as [X|[X|X]]; auto; exfalso.
    - eapply (proj2 (gave_after _ _ _ _ _ _ _ _ _ R Q1 Q2 Q3)); eauto.
    - rewrite E in R. eapply (proj2 (gave_after _ _ _ _ _ _ _ _ _ R Q1' Q2' Q3')); eauto.
  Qed.

  (** ** All lives agree *)
  Definition holds5 (b : broker) (k : N) : Prop := exists s, sess_at b k = Some (A5 s).
  Definition holds3 (b : broker) (k : N) : Prop := exists s, sess_at b k = Some (A3 s).
  Lemma holds5_back e b b' out k : good b -> bstep e b = BOk b' out -> later b k -> holds5 b' k -> holds5 b k.
  Proof.
    intros G S L (s & H). pose proof G as [I P]. pose proof (step_move _ _ _ _ _ _ _ I S k) as M. destruct L as ((L & LW) & LJ). unfold holds5, sess_at in *.
    destruct (aget k (b_tasks b)) as [t|] eqn:A.
    - destruct (t_sess t) as [a|] eqn:T.
      + destruct (sess_step _ _ _ _ _ _ _ _ _ _ G S A T) as [X|(t1 & a1 & A1 & T1 & SA)]; [rewrite X in H; discriminate|].
        rewrite A1, T1 in H. injection H as ->. destruct a as [s0|s0]; eauto. exfalso. unfold asame in SA. destruct SA as (_ & V & _). cbn in V. discriminate.
      + exfalso. destruct t; try discriminate; [exact (proj1 (LW _ _) eq_refl)|exact (proj2 (LW _ _) eq_refl)|exact (LJ _ _ eq_refl)].
    - exfalso. destruct (aget k (b_tasks b')) as [t'|]; [|discriminate]. inversion M; subst; discriminate.
  Qed.
  Lemma holds3_back e b b' out k : good b -> bstep e b = BOk b' out -> later b k -> holds3 b' k -> holds3 b k.
  Proof.
    intros G S L (s & H). pose proof G as [I P]. pose proof (step_move _ _ _ _ _ _ _ I S k) as M. destruct L as ((L & LW) & LJ). unfold holds3, sess_at in *.
    destruct (aget k (b_tasks b)) as [t|] eqn:A.
    - destruct (t_sess t) as [a|] eqn:T.
      + destruct (sess_step _ _ _ _ _ _ _ _ _ _ G S A T) as [X|(t1 & a1 & A1 & T1 & SA)]; [rewrite X in H; discriminate|].
        rewrite A1, T1 in H. injection H as ->. destruct a as [s0|s0]; eauto. exfalso. unfold asame in SA. destruct SA as (_ & V & _). cbn in V. discriminate.
      + exfalso. destruct t; try discriminate; [exact (proj1 (LW _ _) eq_refl)|exact (proj2 (LW _ _) eq_refl)|exact (LJ _ _ eq_refl)].
    - exfalso. destruct (aget k (b_tasks b')) as [t'|]; [|discriminate]. inversion M; subst; discriminate.
  Qed.

  Lemma holds_of b j (on : bool) a : aget j (b_tasks b) = Some (if on then TOnline a else TOffline a) -> sess_at b j = Some a.
  Proof. unfold sess_at. intros ->. destruct on; reflexivity. Qed.
  Lemma past_run c h2 q h1 b : brun c (h2 ++ q :: h1) b -> brun c h1 (w_b q).
  Proof. intros R. destruct (run_split _ _ _ _ _ _ _ R) as (b0 & R0 & _). exact (proj1 (run_inv _ _ _ _ R0)). Qed.

  (** The CONNACK of a session that was taken over and starts afresh. *)
  Lemma afresh_clean c p h2 q h1 b j (on : bool) s0 k q0 t0 uuid pc data : brun c (p :: h2 ++ q :: h1) b -> holds5 b k -> w_e p = EJoin k -> afresh k (w_out p) ->
    w_e q = EControl j -> aget j (b_tasks (w_b q)) = Some (if on then TOnline (A5 s0) else TOffline (A5 s0)) -> requested (w_b q) (A5 s0) k ->
    made_by (h2 ++ q :: h1) q0 k -> w_e q0 = EConnect5 t0 uuid pc data -> co_clean pc = true.
  Proof.
    intros R (s & H) EP AF EQ A RQ M EC. destruct (run_inv _ _ _ _ R) as (R1 & S). rewrite EP in S. pose proof (run_good _ _ _ _ _ _ R1) as G. pose proof G as [I _].
    destruct (join_step _ _ _ _ G S) as ((x & r & J) & _). pose proof (step_move _ _ _ _ _ _ _ I S k) as MV. rewrite J in MV. unfold sess_at in H.
    pose proof (proj2 G _ _ J) as PO. cbn in PO.
    assert (AK : exists ack, ka_code ack = RC_success /\ w_out p = [OConnack5 k ack]).
    { cbn [BrokerModel.bstep] in S. unfold do_join in S. destruct (_ <=? _); [discriminate|]. rewrite J in S. destruct x as [cn dt|z0].
      - destruct (match r with RNew c => Some (RcNew c) | ROld5 st => Some (RcPresent st) | ROld3 _ => None end); [|discriminate].
        destruct (session_connect5 _ _ _ _ _ _) as [[s1 ack]|] eqn:SC; [|discriminate]. destruct (s_connected s1) eqn:CO.
        + injection S as _ E. exists ack. split; auto. cbn in PO. destruct PO as (P1 & _).
          destruct (session_connect5_facts _ _ _ _ _ _ _ SC) as (_ & _ & _ & F & _). destruct (N.eqb_spec (ka_code ack) RC_success); auto. congruence.
        + exfalso. injection S as E _. rewrite <- E in H. unfold close in H. destruct I as [K TN CN OK].
          destruct (start_keep_same k (A5 s1) (w_b p)) as (ST & _).
          assert (X : aget k (adel k (b_tasks (w_b p))) = None) by (apply aget_adel_eq; auto).
          destruct (aget (s_id s1) _); cbn in H; rewrite ST, X in H; discriminate.
      - exfalso. destruct (match r with RNew c => Some (RcNew3 c) | ROld3 st => Some (RcPresent3 st) | ROld5 _ => None end); [|discriminate].
        destruct (session_connect3 _ _ _) as [s1 ack]. injection S as E _. rewrite <- E in H. cbn in H. rewrite aget_aset_eq in H. discriminate. }
    destruct AK as (ack & CD & OUT). rewrite OUT in *.
    assert (NP : ka_present ack = false).
    { destruct AF as [(ack' & [X|[]] & Y)|(code & [X|[]])]; [injection X as <-; auto|discriminate]. }
    destruct (present5 _ _ _ _ _ _ _ _ _ _ R1 S (or_introl eq_refl) CD) as (qq & t1 & u1 & p1 & d1 & s1 & M1 & E1 & _ & PR & _).
    assert (qq = q0) by (eapply made_same; eauto; [rewrite E1|rewrite EC]; discriminate). subst qq. rewrite EC in E1. injection E1 as <- <- <- <-.
    destruct (co_clean pc) eqn:CC; auto. exfalso. assert (ka_present ack = true); [|congruence]. apply PR. split; auto.
    destruct (gave_after _ _ _ _ _ _ _ _ _ R1 EQ A RQ) as ((x' & c' & T') & _). pose proof (past_run _ _ _ _ _ R1) as R2.
    pose proof (conn_from _ _ _ _ _ _ _ _ R2 T') as (q3 & M3 & C3 & K3). assert (q3 = q0).
    { eapply (made_same _ _ _ _ _ k R1); auto; [|destruct C3 as [(a1&a2&a3&a4&->&_)|(a1&a2&a3&->&_)]; discriminate|rewrite EC; discriminate].
      destruct M3 as (I3 & N3). split; auto. apply in_or_app. right. right. auto. }
    subst q3. exists (p_ident x'), c'. split; [apply (connecting_asks _ _ _ C3)|exact K3].
  Qed.

  Lemma step_cases5 c p h b k l1 l2 : brun c (p :: h) b -> holds5 b k ->
    (forall h1 q j m1 m2, (List.length h1 < List.length (p :: h))%nat -> brun c h1 q -> holds5 q j -> life5 j h1 m1 -> life5 j h1 m2 -> recent5 m1 = recent5 m2) ->
    life5 k (p :: h) l1 -> life5 k (p :: h) l2 -> recent5 l1 = recent5 l2.
  Proof.
    intros R H IH L1 L2. destruct (run_inv _ _ _ _ R) as (R1 & S). pose proof (run_good _ _ _ _ _ _ R1) as G.
    assert (NJ : forall l, life5 k h l -> w_e p = EJoin k -> False).
    { intros l L E. destruct (life5_join _ _ _ L) as (p' & ha & hb & EH & EJ). pose proof (joined_later _ _ _ _ _ _ _ R1 EH EJ) as LT. rewrite E in S.
      exact (later_no_join _ _ _ _ G LT S). }
    inversion L1 as [p1 h1 q t0 uuid pc data E1 AF1 M1 C1|p1 g2 q j on s0 g1 l q0 t0 uuid pc data E1 EQ LJ A RQ M1 C1|p1 h1 l d LK D]; subst;
    inversion L2 as [p1' h1' q' t0' uuid' pc' data' E1' AF1' M1' C1'|p1' g2' q' j' on' s0' g1' l' q0' t0' uuid' pc' data' E1' EQ' LJ' A' RQ' M1' C1'|p1' h1' l' d' LK' D']; subst;
      try (exfalso; eapply NJ; eauto; fail); auto.
    - assert (CC : co_clean pc' = true) by (exact (afresh_clean _ _ _ _ _ _ _ _ _ _ _ _ _ _ _ R H E1' AF1 EQ' A' RQ' M1' C1')). rewrite recent5_app. cbn. rewrite CC. reflexivity.
    - assert (CC : co_clean pc = true) by (exact (afresh_clean _ _ _ _ _ _ _ _ _ _ _ _ _ _ _ R H E1 AF1' EQ A RQ M1 C1)). rewrite recent5_app. cbn. rewrite CC. reflexivity.
    - match goal with E : _ ++ _ :: _ = _ ++ _ :: _ |- _ => symmetry in E; destruct (gave_once _ _ _ _ _ _ _ _ _ _ _ _ _ _ _ R1 E EQ A RQ EQ' A' RQ') as (<- & <-); rename E into EH end.
      assert (j' = j) by congruence. subst j'. assert (RC : recent5 l = recent5 l').
      { apply (IH g1 (w_b q) j); auto.
        - cbn. rewrite app_length. cbn. lia.
        - exact (past_run _ _ _ _ _ R1).
        - exists s0. eapply holds_of; eauto. }
      assert (q0' = q0). { rewrite <- EH in M1'. eapply made_same; eauto; [rewrite C1'|rewrite C1]; discriminate. } subst q0'. rewrite C1 in C1'. injection C1' as <- <- <- <-.
      rewrite !recent5_app, RC. reflexivity.
    - assert (RC : recent5 l = recent5 l').
      { apply (IH h (w_b p) k); auto. eapply holds5_back; eauto. destruct (life5_join _ _ _ LK) as (p' & ha & hb & EH & EJ). eapply joined_later; eauto. }
      rewrite !recent5_app, RC. eapply did_view5; eauto.
  Qed.
  Theorem lives5 c : forall h b k l1 l2, brun c h b -> holds5 b k -> life5 k h l1 -> life5 k h l2 -> recent5 l1 = recent5 l2.
  Proof.
    intros h. assert (X : forall n h b k l1 l2, (List.length h < n)%nat -> brun c h b -> holds5 b k -> life5 k h l1 -> life5 k h l2 -> recent5 l1 = recent5 l2); [|intros; eapply X; eauto].
    clear h. induction n as [|n IH]; intros h b k l1 l2 LN R H L1 L2; [lia|]. destruct h as [|p h]; [inversion L1|].
    eapply step_cases5; eauto. intros. eapply IH; eauto. cbn in *. lia.
  Qed.

  Lemma join_out3 k b b' out ack : bstep (EJoin k) b = BOk b' out -> In (OConnack3 k ack) out -> out = [OConnack3 k ack].
  Proof.
    intros S I. cbn [BrokerModel.bstep] in S. unfold do_join in S. destruct (_ <=? _); [discriminate|].
    destruct (aget k (b_tasks b)) as [[| |[cn dt|z0] r| | | | | |]|]; try discriminate.
    - destruct (match r with RNew c => Some (RcNew c) | ROld5 st => Some (RcPresent st) | ROld3 _ => None end); [|discriminate].
      destruct (session_connect5 _ _ _ _ _ _) as [[s1 a1]|]; [|discriminate]. destruct (s_connected s1); injection S as _ <-; destruct I as [I|[I|[]]] || destruct I as [I|[]]; discriminate.
    - destruct (match r with RNew c => Some (RcNew3 c) | ROld3 st => Some (RcPresent3 st) | ROld5 _ => None end); [|discriminate].
      destruct (session_connect3 _ _ _) as [s1 a1]. injection S as _ <-. destruct I as [I|[]]. rewrite I. reflexivity.
  Qed.
  Lemma afresh_absent k b b' out present : bstep (EJoin k) b = BOk b' out -> In (OConnack3 k (Connack3 present 0)) out -> afresh k out -> present = false.
  Proof.
    intros S I A. rewrite (join_out3 _ _ _ _ _ S I) in A. destruct A as [(a & [X|[]] & _)|(code & [X|[]])]; [discriminate|]. injection X; auto.
  Qed.
  Lemma step_cases3 c p h b k l1 l2 : brun c (p :: h) b ->
    (forall h1 q j m1 m2, (List.length h1 < List.length (p :: h))%nat -> brun c h1 q -> life3 j h1 m1 -> life3 j h1 m2 -> recent3 m1 = recent3 m2) ->
    life3 k (p :: h) l1 -> life3 k (p :: h) l2 -> recent3 l1 = recent3 l2.
  Proof.
    intros R IH L1 L2. destruct (run_inv _ _ _ _ R) as (R1 & S). pose proof (run_good _ _ _ _ _ _ R1) as G.
    assert (NJ : forall l, life3 k h l -> w_e p = EJoin k -> False).
    { intros l L E. destruct (life3_join _ _ _ L) as (p' & ha & hb & EH & EJ). pose proof (joined_later _ _ _ _ _ _ _ R1 EH EJ) as LT. rewrite E in S.
      exact (later_no_join _ _ _ _ G LT S). }
    inversion L1 as [p1 h1 q t0 uuid pc E1 AF1 M1 C1|p1 g2 q j on s0 g1 l q0 t0 uuid pc z0 present E1 EQ LJ M1 C1 Z A RQ OA|p1 h1 l d LK D]; subst;
    inversion L2 as [p1' h1' q' t0' uuid' pc' E1' AF1' M1' C1'|p1' g2' q' j' on' s0' g1' l' q0' t0' uuid' pc' z0' present' E1' EQ' LJ' M1' C1' Z' A' RQ' OA'|p1' h1' l' d' LK' D']; subst;
      try (exfalso; eapply NJ; eauto; fail); auto.
    - rewrite E1 in S. rewrite (afresh_absent _ _ _ _ _ S OA' AF1), app_assoc, recent3_app. reflexivity.
    - rewrite E1 in S. rewrite (afresh_absent _ _ _ _ _ S OA AF1'), app_assoc, recent3_app. reflexivity.
    - match goal with E : _ ++ _ :: _ = _ ++ _ :: _ |- _ => symmetry in E; destruct (gave_once _ _ _ _ _ _ _ _ _ _ _ _ _ _ _ R1 E EQ A RQ EQ' A' RQ') as (<- & <-); rename E into EH end.
      assert (j' = j) by congruence. subst j'. assert (RC : recent3 l = recent3 l').
      { apply (IH g1 (w_b q) j); auto.
        - cbn. rewrite app_length. cbn. lia.
        - exact (past_run _ _ _ _ _ R1). }
      assert (q0' = q0). { rewrite <- EH in M1'. refine (made_same _ _ _ _ _ _ R1 M1' M1 _ _); [rewrite C1'|rewrite C1]; discriminate. } subst q0'. rewrite C1 in C1'. injection C1' as <- <- <-.
      rewrite E1 in S. pose proof (join_out3 _ _ _ _ _ S OA) as O1. pose proof (join_out3 _ _ _ _ _ S OA') as O2. rewrite O1 in O2. injection O2 as <-.
      rewrite !recent3_app, !fold_left_app, RC. destruct on, on'; rewrite ?lost_recall3; reflexivity.
    - assert (RC : recent3 l = recent3 l') by (apply (IH h (w_b p) k); auto).
      rewrite !recent3_app, RC. eapply did_view3; eauto.
  Qed.
  Theorem lives3 c : forall h b k l1 l2, brun c h b -> life3 k h l1 -> life3 k h l2 -> recent3 l1 = recent3 l2.
  Proof.
    intros h. assert (X : forall n h b k l1 l2, (List.length h < n)%nat -> brun c h b -> life3 k h l1 -> life3 k h l2 -> recent3 l1 = recent3 l2); [|intros; eapply X; eauto].
    clear h. induction n as [|n IH]; intros h b k l1 l2 LN R L1 L2; [lia|]. destruct h as [|p h]; [inversion L1|].
    eapply step_cases3; eauto. intros. eapply IH; eauto. cbn in *. lia.
  Qed.

  (** ** What is read off them *)
  Lemma agree5_lemma c h b k s l1 l2 : brun c h b -> sess_at b k = Some (A5 s) -> life5 k h l1 -> life5 k h l2 ->
    (forall amax w, topic_for amax l1 w = topic_for amax l2 w) /\ (forall i, opener l1 i = opener l2 i) /\ (forall f, subscribed5 l1 f = subscribed5 l2 f).
  Proof.
    intros R H L1 L2. pose proof (lives5 _ _ _ _ _ _ R (ex_intro _ s H) L1 L2) as E. destruct (recent5_view l1) as (A1 & B1 & C1), (recent5_view l2) as (A2 & B2 & C2).
    split; [|split].
    - intros amax w. unfold topic_for. destruct (pp_alias _) as [a|]; auto. rewrite A1, A2, E. reflexivity.
    - intros i. rewrite B1, B2, E. reflexivity.
    - intros f. rewrite C1, C2, E. reflexivity.
  Qed.
  Lemma agree3_lemma c h b k l1 l2 : brun c h b -> life3 k h l1 -> life3 k h l2 ->
    (forall i, opener3 l1 i = opener3 l2 i) /\ (forall cf f, subscribed3 cf l1 f = subscribed3 cf l2 f).
  Proof.
    intros R L1 L2. pose proof (lives3 _ _ _ _ _ _ R L1 L2) as E. split.
    - intros i. destruct (recent3_view c l1) as (B1 & _), (recent3_view c l2) as (B2 & _). rewrite B1, B2, E. reflexivity.
    - intros cf f. destruct (recent3_view cf l1) as (_ & C1), (recent3_view cf l2) as (_ & C2). rewrite C1, C2, E. reflexivity.
  Qed.
End Lives.
