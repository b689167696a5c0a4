(** The stores and removals of retained messages are determined by the history. *)
From Coq Require Import List Bool NArith String Lia.
From Verif Require Import Base BaseLemmas TopicModel TopicSpec MsgModel PendingModel OutModel RouteModel RetainModel RetainSpec GlobModel Sess5Model Sess3Model ConnModel
  OutSpec DelivSpec InSpec LinkSpec SubsSpec RegModel BrokerModel BrokerSpec CoreProofs BrokerInv TaskMove StepProofs RunProofs LifeSpec WillWaySpec RetRunSpec RetRunProofs RecordSpec LivesProofs.
Import ListNotations.
Local Open Scope N_scope.
Local Open Scope list_scope.

Section Ret.
  Variables (hash5 : wpub5 -> N) (hash3 : wpub3 -> N) (pick : draw -> broker -> string -> string -> N).
  Notation bstep := (bstep hash5 hash3 pick).
  Notation brun := (brun hash5 hash3 pick).

  (** A step publishes one will at most, and then it is no packet. *)
  Lemma will_when e b b' out k w : good b -> bstep e b = BOk b' out -> In w (wills_of k out) -> wills_of k out = [w] /\ (e = EEnd k true \/ e = EControl k).
  Proof.
    intros [I _] S W. pose proof (step_move _ _ _ _ _ _ _ I S k) as M.
    destruct M; try (destruct W; fail);
      match goal with |- send_ok ?a = _ /\ _ => destruct (send_ok_cases a) as [X|(w' & _ & X)]; rewrite X in *; [destruct W|destruct W as [<-|[]]; auto] end.
  Qed.
  Lemma will5_of k w out : In (OWill5 k w) out -> In (W5 w) (wills_of k out).
  Proof. intros H. apply in_flat_map. eexists. split; eauto. cbn. rewrite N.eqb_refl. left. reflexivity. Qed.
  Lemma will3_of k w out : In (OWill3 k w) out -> In (W3 w) (wills_of k out).
  Proof. intros H. apply in_flat_map. eexists. split; eauto. cbn. rewrite N.eqb_refl. left. reflexivity. Qed.
  Lemma will_same e b b' out k w k' w' : good b -> bstep e b = BOk b' out -> In w (wills_of k out) -> In w' (wills_of k' out) -> k = k' /\ w = w'.
  Proof.
    intros G S W W'. destruct (will_when _ _ _ _ _ _ G S W) as (X & E), (will_when _ _ _ _ _ _ G S W') as (X' & E').
    assert (k = k') by (destruct E, E'; congruence). subst k'. split; auto. congruence.
  Qed.

  Lemma updates_once c p h b o1 o2 : brun c (p :: h) b -> updates c h p b o1 -> updates c h p b o2 -> o1 = o2.
  Proof.
    intros R U1 U2. destruct (run_inv _ _ _ _ _ _ _ R) as (R1 & S). pose proof (run_good _ _ _ _ _ _ R1) as G.
    assert (W5P : forall k w, In (OWill5 k w) (w_out p) -> w_e p = EEnd k true \/ w_e p = EControl k) by (intros k w I; eapply will_when; eauto; apply will5_of; eauto).
    assert (W3P : forall k w, In (OWill3 k w) (w_out p) -> w_e p = EEnd k true \/ w_e p = EControl k) by (intros k w I; eapply will_when; eauto; apply will3_of; eauto).
    assert (REP : forall k s l l' w, sess_at (w_b p) k = Some (A5 s) -> life5 k h l -> life5 k h l' -> repeated5 l' w -> repeated5 l w).
    { intros k s l l' w A L L' (i & Q & O). exists i. split; auto. destruct (agree5_lemma _ _ _ _ _ _ _ _ _ _ R1 A L L') as (_ & AO & _). rewrite AO. auto. }
    destruct U1 as [k len w s l T n E A L RF RP TP EN|k len w E RR|k len w s n E A O RP EN|k len w E RR|k w s n I A EN|k w s n I A EN|NP NW];
    destruct U2 as [k' len' w' s' l' T' n' E' A' L' RF' RP' TP' EN'|k' len' w' E' RR'|k' len' w' s' n' E' A' O' RP' EN'|k' len' w' E' RR'|k' w' s' n' I' A' EN'|k' w' s' n' I' A' EN'|NP' NW'];
      auto;
      try (rewrite E in E'; injection E' as <- <- <- || discriminate E');
      try (exfalso; rewrite E in NP'; exact (NP' Logic.I)); try (exfalso; rewrite E' in NP; exact (NP Logic.I));
      try (exfalso; destruct (W5P _ _ I) as [X|X]; congruence); try (exfalso; destruct (W5P _ _ I') as [X|X]; congruence);
      try (exfalso; destruct (W3P _ _ I) as [X|X]; congruence); try (exfalso; destruct (W3P _ _ I') as [X|X]; congruence);
      try (exfalso; exact (proj1 (NW _) _ I')); try (exfalso; exact (proj1 (NW' _) _ I)); try (exfalso; exact (proj2 (NW _) _ I')); try (exfalso; exact (proj2 (NW' _) _ I)).
    - destruct (agree5_lemma _ _ _ _ _ _ _ _ _ _ R1 A L L') as (AT & _). rewrite AT in TP. congruence.
    - exfalso. destruct RR' as [X|(l' & L' & X)]; [exact (RF X)|]. apply RP. eapply REP; eauto.
    - exfalso. destruct RR as [X|(l & L & X)]; [exact (RF' X)|]. apply RP'. eapply REP; eauto.
    - congruence.
    - exfalso. destruct RR' as [X|X]; [congruence|auto].
    - exfalso. destruct RR as [X|X]; [congruence|auto].
    - destruct (will_same _ _ _ _ _ _ _ _ G S (will5_of _ _ _ I) (will5_of _ _ _ I')) as (<- & X). injection X as <-. congruence.
    - destruct (will_same _ _ _ _ _ _ _ _ G S (will5_of _ _ _ I) (will3_of _ _ _ I')) as (_ & X). discriminate X.
    - destruct (will_same _ _ _ _ _ _ _ _ G S (will3_of _ _ _ I) (will5_of _ _ _ I')) as (_ & X). discriminate X.
    - destruct (will_same _ _ _ _ _ _ _ _ G S (will3_of _ _ _ I) (will3_of _ _ _ I')) as (<- & X). injection X as <-. congruence.
  Qed.
  Lemma keeps_once c h b : brun c h b -> forall r1 r2, keeps c h b r1 -> keeps c h b r2 -> r1 = r2.
  Proof.
    intros R. induction R as [|h b e b' out R IH S]; intros r1 r2 K1 K2.
    - inversion K1. inversion K2. reflexivity.
    - pose proof (run_cons _ _ _ _ _ _ _ _ _ R S) as RN. inversion K1 as [|p1 h1 b1 hr1 ops1 KA UA]; subst. inversion K2 as [|p2 h2 b2 hr2 ops2 KB UB]; subst. cbn [w_b] in *.
      rewrite (IH _ _ KA KB), (updates_once _ _ _ _ _ _ RN UA UB). reflexivity.
  Qed.
  Lemma kept_all_lemma c h b : brun c h b -> (forall p, In p h -> proper p) -> (exists hr, keeps c h b hr) /\ forall hr, keeps c h b hr ->
    forall f, valid_filter f -> exists l, ret_get_matches (b_retain b) f = Some l /\ NoDup (map rc_topic l) /\
      forall m, In m l <-> retained hr (rc_topic m) = Some m /\ topic_matches f (rc_topic m).
  Proof.
    intros R P. destruct (kept_lemma _ _ _ _ _ _ R P) as (hr & K & X). split; [eauto|]. intros hr' K'. rewrite (keeps_once _ _ _ R _ _ K' K). exact X.
  Qed.

  Lemma record_once_lemma c h b k a m1 m2 : brun c h b -> sess_at b k = Some a -> on_record c h k a m1 -> on_record c h k a m2 -> forall f, m1 f = m2 f.
  Proof.
    intros R A R1 R2 f. destruct a as [s|s]; destruct R1 as (l1 & L1 & E1), R2 as (l2 & L2 & E2); rewrite E1, E2.
    - exact (proj2 (proj2 (agree5_lemma _ _ _ _ _ _ _ _ _ _ R A L1 L2)) f).
    - exact (proj2 (agree3_lemma _ _ _ _ _ _ _ _ _ R L1 L2) c f).
  Qed.
End Ret.
