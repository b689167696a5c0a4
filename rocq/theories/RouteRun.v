(** Runs of the broker: the routing table is that of the subscriptions on record. *)
From Coq Require Import List Bool NArith String Lia.
From Verif Require Import Base BaseLemmas TopicModel MsgModel PendingModel OutModel RouteModel RouteSpec RouteInv RetainModel GlobModel Sess5Model Sess3Model ConnModel
  InSpec RecvSpec RegModel BrokerModel
  BrokerSpec FrameProofs CoreProofs BrokerInv TaskMove StepProofs RunProofs RegProofs EvolProofs HistProofs LifeSpec TabProofs TabInv.
Import ListNotations.
Local Open Scope N_scope.
Local Open Scope list_scope.

Lemma current_unsubs c fs : forall h f d, current (h ++ map (fun f => Unsub f c) fs) f d = if (d =? c) && existsb (String.eqb f) fs then None else current h f d.
Proof.
  induction fs as [|g fs IH]; intros h f d; cbn [map existsb]; [rewrite app_nil_r, andb_false_r; reflexivity|].
  rewrite snoc_app, IH, current_snoc. rewrite (N.eqb_sym c d), (String.eqb_sym g f). destruct (d =? c), (String.eqb f g), (existsb (String.eqb f) fs); reflexivity.
Qed.
Lemma aget_in_keys {V} f (m : list (string * V)) : existsb (String.eqb f) (keys m) = false <-> aget f m = None.
Proof.
  induction m as [|[g v] m IH]; cbn; [split; auto|]. destruct (String.eqb f g); cbn; [split; discriminate|exact IH].
Qed.

Section RouteRun.
  Variables (hash5 : wpub5 -> N) (hash3 : wpub3 -> N) (pick : draw -> broker -> string -> string -> N).
  Notation bstep := (bstep hash5 hash3 pick).
  Notation brun := (brun hash5 hash3 pick).

  Definition all_has (b : broker) (ops : list rop) : Prop := forall k c m, held b k = Some (c, m) -> NoDup (keys m) /\ has sq3 c ops m.
  Definition none_yet (b : broker) (ops : list rop) : Prop := forall c f, r_next (b_reg b) <= c -> current ops f c = None.
  Definition all_held (b : broker) (ops : list rop) : Prop := forall c f q, current ops f c = Some q -> exists k m, held b k = Some (c, m) /\ aget f m = Some q.

  Definition on_client (c : client_id) (o : rop) : Prop := match o with Sub _ d _ | Unsub _ d => d = c end.
  Lemma unsubs_on c fs : Forall (on_client c) (map (fun f => Unsub f c) fs).
  Proof. induction fs; constructor; auto. reflexivity. Qed.

  Lemma tab_route b e out b' ops h : tabmove b e out b' ops -> b_route b = rt_run h -> b_route b' = rt_run (h ++ ops).
  Proof.
    assert (KK : forall k o o' op, tkind b e out b' k o o' op -> b_route b = rt_run h -> b_route b' = rt_run (h ++ op)).
    { intros k o o' op K E. inversion K; subst; rewrite ?app_nil_r; try congruence; auto. eapply sync_route; eauto. }
    intros [k o' ops' H K|k o' i H NE HI K|k i c m R _ _ _ _] E; eauto. rewrite app_nil_r; congruence.
  Qed.

  (** The client whose routes are changed by the step. *)
  Lemma tab_on b e out b' ops : inv b -> tabmove b e out b' ops -> exists c, Forall (on_client c) ops /\ (ops = [] \/ c < r_next (b_reg b) \/ exists fs, ops = map (fun f => Unsub f c) fs).
  Proof.
    intros I [k o' ops' H K|k o' i H NE HI K|k i c m R _ _ _ _]; [|exists 0; auto|exists 0; auto].
    inversion K; subst; try (exists 0; auto; fail).
    - exists c. split; [eapply sync_client; eauto|]. right; left. symmetry in H0. eapply held_lt; eauto.
    - exists c. split; [apply unsubs_on|eauto].
    - exists c. split; [apply unsubs_on|eauto].
  Qed.

  Lemma tab_has b e out b' ops h : inv b -> tabmove b e out b' ops -> all_has b h -> all_has b' (h ++ ops).
  Proof.
    intros I M A.
    assert (NIL : forall k c m, held b k = Some (c, m) -> NoDup (keys m) /\ has sq3 c (h ++ []) m) by (rewrite app_nil_r; exact A).
    assert (EMP : forall c ops, NoDup (@keys string qos []) /\ has sq3 c ops []) by (intros; split; [constructor|discriminate]).
    assert (OTH : forall k c m c0 ops0, held b k = Some (c, m) -> c <> c0 -> Forall (on_client c0) ops0 -> NoDup (keys m) /\ has sq3 c (h ++ ops0) m).
    { intros k c m c0 ops0 H NE F. destruct (A _ _ _ H) as (ND & HS). split; auto. intros f v G. rewrite (current_other c0 ops0 F) by auto. auto. }
    destruct M as [k o' ops' H K|k o' i H NE HI K|k i c m R HK HI NE H]; intros j c0 m0 G; rewrite H in G.
    - destruct (N.eqb_spec j k) as [E|NE].
      + remember (held b k) as ho eqn:HO; remember (@nil rop) as on eqn:ON in K; destruct K as [o X|X|c m m' ops0 SY F|x r X1 X2 X3 X4 X|c m X X1|c fs X X1 X2|o X X1]; subst; try discriminate; eauto; inversion G; subst; auto.
        destruct (A k c0 m ltac:(congruence)) as (ND & HS). split; [eapply sync_nodup; eauto|]. eapply sync_has; eauto.
      + remember (held b k) as ho eqn:HO; remember (@nil rop) as on eqn:ON in K; destruct K as [o X|X|c m m' ops0 SY F|x r X1 X2 X3 X4 X|c m X X1|c fs X X1 X2|o X X1]; subst; eauto.
        * apply (OTH j c0 m0 c); auto; [|eapply sync_client; eauto]. intros ->. apply NE. eapply held_one; eauto.
        * apply (OTH j c0 m0 c); auto; [|apply unsubs_on]. intros ->. apply NE. eapply held_one; eauto.
        * apply (OTH j c0 m0 c); auto; [|apply unsubs_on]. intros ->. exact (X1 _ _ G).
    - destruct (N.eqb_spec j k) as [E|NE']; [|destruct (N.eqb_spec j i); [discriminate|eauto]].
      remember (held b k) as ho eqn:HO; remember (@nil rop) as on eqn:ON in K; destruct K as [o X|X|c m m' ops0 SY F|x r X1 X2 X3 X4 X|c m X X1|c fs X X1 X2|o X X1]; subst; try discriminate; eauto; inversion G; subst; auto.
      inversion SY; subst. apply (NIL k). congruence.
    - destruct (N.eqb_spec j k) as [E|NE']; [discriminate|]. destruct (N.eqb_spec j i); [inversion G; subst|]; eauto.
  Qed.

  Lemma tab_held b e out b' ops h : inv b -> lossless (Past b e out) -> tabmove b e out b' ops -> all_has b h -> all_held b h -> all_held b' (h ++ ops).
  Proof.
    intros I (L1 & L2) M HAS A. cbn [w_b w_e w_out] in L1, L2.
    assert (CUR : forall c c0 ops f q, Forall (on_client c0) ops -> current (h ++ ops) f c = Some q -> c <> c0 -> exists k m, held b k = Some (c, m) /\ aget f m = Some q).
    { intros c c0 ops0 f q F E NE. rewrite (current_other c0 ops0 F) in E by auto. auto. }
    destruct M as [k o' ops' H K|k o' i H NE HI K|k i c m R HK HI NE H]; intros c0 f q CU.
    - assert (KEEP : forall j m, j <> k -> held b j = Some (c0, m) -> aget f m = Some q -> exists k0 m1, held b' k0 = Some (c0, m1) /\ aget f m1 = Some q).
      { intros j m NE G X. exists j, m. rewrite H. destruct (N.eqb_spec j k); [contradiction|auto]. }
      remember (held b k) as ho eqn:HO; remember (@nil rop) as on eqn:ON in K; destruct K as [o X|X|c m m' ops0 SY F|x r X1 X2 X3 X4 X|c m X X1|c fs X X1 X2|o X X1]; subst; rewrite ?app_nil_r in CU.
      + destruct (A _ _ _ CU) as (j & m & G & X1). exists j, m. rewrite H. destruct (N.eqb_spec j k) as [->|]; auto.
      + destruct (A _ _ _ CU) as (j & m & G & X1). apply (KEEP j m); auto. intros ->. congruence.
      + symmetry in HO. destruct (N.eq_dec c0 c) as [->|NE].
        * exists k, m'. split; [rewrite H, N.eqb_refl; reflexivity|].
          destruct (HAS _ _ _ HO) as (ND & HS). assert (ON : only c h m). { intros g G. destruct (current h g c) as [v|] eqn:E; auto. destruct (A _ _ _ E) as (j & m2 & G1 & G2). assert (j = k) by (eapply held_one; eauto). subst j. congruence. }
          destruct (aget f m') as [v|] eqn:G; [|pose proof (sync_only sq3 c _ _ _ _ _ SY ND _ ON f G); congruence].
          pose proof (sync_has sq3 c _ _ _ _ _ SY ND _ HS f v G) as E. unfold sq3 in E. congruence.
        * destruct (CUR c0 c ops0 f q (sync_client _ _ _ _ _ _ _ SY) CU NE) as (j & m2 & G1 & G2). apply (KEEP j m2); auto. intros ->. congruence.
      + destruct (L2 _ _ _ X4 X2) as (c & ->). exfalso. eapply X3; eauto.
      + symmetry in HO. rewrite current_unsubs in CU. destruct (N.eqb_spec c0 c) as [->|NE]; cbn [andb] in CU.
        * destruct (existsb (String.eqb f) (keys m)) eqn:EX; [discriminate|]. apply aget_in_keys in EX. destruct (A _ _ _ CU) as (j & m2 & G1 & G2). assert (j = k) by (eapply held_one; eauto). subst j. congruence.
        * destruct (A _ _ _ CU) as (j & m2 & G1 & G2). apply (KEEP j m2); auto. intros ->. congruence.
      + rewrite current_unsubs in CU. destruct (_ && _); [discriminate|]. destruct (A _ _ _ CU) as (j & m2 & G1 & G2). apply (KEEP j m2); auto. intros ->. congruence.
      + destruct (A _ _ _ CU) as (j & m2 & G1 & G2). apply (KEEP j m2); auto. intros ->. exact (L1 _ _ X G1).
    - rewrite app_nil_r in CU. destruct (A _ _ _ CU) as (j & m2 & G1 & G2).
      assert (JI : j <> i) by congruence.
      destruct (N.eqb_spec j k) as [->|NE'].
      2:{ exists j, m2. rewrite H. destruct (N.eqb_spec j k); [contradiction|]. destruct (N.eqb_spec j i); [contradiction|auto]. }
      remember (held b k) as ho eqn:HO; remember (@nil rop) as on eqn:ON in K; destruct K as [o X|X|c m m' ops0 SY F|x r X1 X2 X3 X4 X|c m X X1|c fs X X1 X2|o X X1]; subst; try discriminate.
      + exists k, m2. rewrite H, N.eqb_refl. auto.
      + inversion G1; subst. inversion SY; subst. eexists k, _. rewrite H, N.eqb_refl. auto.
      + destruct (L2 _ _ _ X4 X2) as (c & ->). exfalso. eapply X3; eauto.
      + inversion G1; subst. destruct m2 as [|[g v] m2]; [discriminate G2|discriminate].
      + exfalso. exact (L1 _ _ X G1).
    - rewrite app_nil_r in CU. destruct (A _ _ _ CU) as (j & m2 & G1 & G2). assert (JI : j <> i) by congruence.
      destruct (N.eqb_spec j k) as [->|NE'].
      + exists i, m2. rewrite H. destruct (N.eqb_spec i k); [congruence|]. rewrite N.eqb_refl. split; congruence.
      + exists j, m2. rewrite H. destruct (N.eqb_spec j k); [contradiction|]. destruct (N.eqb_spec j i); [contradiction|auto].
  Qed.

  Lemma pre_subs_nil c h b k x r : brun c h b -> aget k (b_tasks b) = Some (TJoin x r) -> pre_subs x = [].
  Proof. intros R A. pose proof (pre_empty _ _ _ _ _ _ _ x R (ex_intro _ r A)) as E. destruct x; cbn; [rewrite E; reflexivity|exact E]. Qed.

  Definition subs_plain (ops : list rop) : Prop := forall f c q, In (Sub f c q) ops -> plain f.
  Lemma subs_plain_members h f : subs_plain h -> ~ plain f -> members h f = [].
  Proof.
    intros P N. unfold members. induction h as [|o h IH] using rev_ind; [reflexivity|]. rewrite fold_left_app. cbn. rewrite IH by (intros g c q I; apply (P g c q); apply in_or_app; auto).
    destruct o as [g c q|g c]; cbn; destruct (String.eqb_spec g f) as [->|]; auto. exfalso. apply N. apply (P f c q). apply in_or_app. right. left. reflexivity.
  Qed.
  Lemma subs_plain_safe h : subs_plain h -> ~ last_member_leaves h.
  Proof.
    intros P (h1 & f & c & h2 & l & E & N & M & _). rewrite subs_plain_members in M; auto; [destruct l; discriminate|]. intros g d q I. apply (P g d q). rewrite E. apply in_or_app. auto.
  Qed.

  Lemma run_tables c h b : brun c h b -> exists ops hr, b_cfg b = c /\ b_route b = rt_run ops /\ b_retain b = ret_run hr /\ all_has b ops /\ none_yet b ops /\
    ((forall p, In p h -> Forall plain (shared_asked c (w_e p))) -> subs_plain ops) /\
    ((forall p, In p h -> lossless p) -> all_held b ops).
  Proof.
    induction 1 as [|h b e b' out R IH S].
    - exists [], []. repeat split; auto; try discriminate. intros _ f d q [].
    - destruct IH as (ops & hr & C & RT & RE & HAS & NY & PL & HE). pose proof (run_good _ _ _ _ _ _ R) as G. pose proof G as [I P].
      destruct (step_tab _ _ _ _ _ _ _ G (fun k x r => pre_subs_nil _ _ _ k x r R) S) as (C' & RM & op & M).
      destruct (rmoved_run _ _ _ RM RE) as (hr' & RE'). exists (ops ++ op), hr'. split; [congruence|]. split; [eapply tab_route; eauto|]. split; [exact RE'|]. split; [eapply tab_has; eauto|].
      pose proof (step_next _ _ _ _ _ _ _ G S) as NX.
      split; [|split].
      + intros d f L. assert (current ops f d = None) by (apply NY; lia). destruct (tab_on _ _ _ _ _ I M) as (d' & ON & Q).
        destruct (N.eq_dec d d') as [->|NE]; [|rewrite (current_other d' op ON) by auto; auto].
        destruct Q as [->|[Q|(fs & ->)]]; [rewrite app_nil_r; auto|lia|]. rewrite current_unsubs. destruct (_ && _); auto.
      + intros PP. assert (PO : subs_plain ops) by (apply PL; intros p Q; apply PP; right; auto).
        assert (PN : Forall plain (shared_asked c e)) by (apply (PP (Past b e out)); left; auto). rewrite Forall_forall in PN.
        intros f d q O. apply in_app_or in O. destruct O as [O|O]; [eauto|]. destruct M as [k o' ops' H K|k o' i H NE HI K|k i d0 m RR HK HI NE H]; [|destruct O|destruct O].
        remember (held b k) as ho eqn:HO; remember (@nil rop) as on eqn:ON in K; destruct K as [o X|X|c0 m m' ops0 SY F|x r X1 X2 X3 X4 X|c0 m X X1|c0 fs X X1 X2|o X X1]; subst; try destruct O as [].
        * rewrite Forall_forall in F. destruct (F _ O) as (F1 & F2). cbn [op_filter] in F1. destruct e as [| | | | | |j len x|j len x| | | | | | | | |]; try destruct F1; [|apply F2; reflexivity].
          cbn [strict shared_asked named] in F1, F2, PN. destruct x; try destruct F1; [|apply F2; reflexivity]. cbn [strict5] in F2.
          destruct (cf_shared (b_cfg b)) eqn:SH; [apply PN; exact F1|]. apply F2. reflexivity.
        * apply in_map_iff in O. destruct O as (? & ? & _). discriminate.
        * apply in_map_iff in O. destruct O as (? & ? & _). discriminate.
      + intros LL. eapply tab_held; eauto; [apply LL; left; auto|]. apply HE. intros p Q. apply LL. right. auto.
  Qed.
End RouteRun.
