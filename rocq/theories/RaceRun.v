(** What every interleaving of publishers and subscribers satisfies. *)
From Coq Require Import List Bool String Ascii NArith Arith Lia Permutation.
From Verif Require Import Base BaseLemmas TopicModel TopicSpec TopicProofs MsgModel RouteModel RouteSpec
  RouteProofs RouteHistory RouteInv RetainModel RetainSpec RetainProofs RaceModel RaceSpec RaceProofs.
Import ListNotations.
Local Open Scope N_scope.

Lemma route_calls_app a b : route_calls (a ++ b) = route_calls a ++ route_calls b.
Proof. unfold route_calls. now rewrite flat_map_app. Qed.
Lemma retain_calls_app a b : retain_calls (a ++ b) = retain_calls a ++ retain_calls b.
Proof. unfold retain_calls. now rewrite flat_map_app. Qed.

Lemma list_set_get {A} (x : A) : forall l i l', list_set i x l = Some l' ->
  forall j, nth_error l' j = if Nat.eqb j i then Some x else nth_error l j.
Proof.
  induction l as [|y r IH]; intros [|i] l'; cbn; try discriminate.
  - intros E. injection E as <-. intros [|j]; reflexivity.
  - destruct (list_set i x r) as [r'|] eqn:E; [|discriminate]. cbn. intros H. injection H as <-.
    intros [|j]; cbn; auto.
Qed.
Lemma list_set_some {A} (x y : A) : forall l i, nth_error l i = Some y -> exists l', list_set i x l = Some l'.
Proof.
  induction l as [|z r IH]; intros [|i]; cbn; try discriminate; eauto.
  intros E. destruct (IH i E) as (l' & ->). cbn. eauto.
Qed.

(** The call a publisher makes on the retained store. *)
Definition keep_call (retain : bool) (x : rcontent) : option retop :=
  if retain then Some (if String.eqb (rc_payload x) "" then RDel (rc_topic x) else RIns x) else None.

Lemma Forall2_in_l {A B} (R : A -> B -> Prop) l l' x : Forall2 R l l' -> In x l -> exists y, In y l' /\ R x y.
Proof. induction 1; intros []; subst; [eexists; split; [now left|auto]|]. destruct IHForall2 as (y' & ? & ?); auto. exists y'. split; auto. now right. Qed.

Section Run.
  Variable ts : list task.
  Hypothesis FR : Forall fresh ts.

  Definition tab_inv (tr : list (nat * event)) (w : world) : Prop :=
    tab_ok (w_route w) /\ atable (w_route w) = rt_run (route_calls tr) /\ w_ret w = ret_run (retain_calls tr).

  (** The content at path [p] as it is after the calls in [tr]. *)
  Definition at_path (tr : list (nat * event)) (p : list string) : content := cont (root (rt_run (route_calls tr))) p.

  Definition linked (t1 tr : list (nat * event)) (w : world) (p : list string) (a : addr) : Prop :=
    ptr_at (hroot (w_route w)) p = Some a \/
    (a < m_next (ht_mem (w_route w)) /\ ~ In a (ptrs (hroot (w_route w))) /\ mget (ht_mem (w_route w)) a = content_new /\
     exists u v, tr = t1 ++ u ++ v /\ at_path (t1 ++ u) p = content_new).

  Definition looked (x : rcontent) (i : nat) (tr t1 t2 : list (nat * event)) : Prop :=
    tr = t1 ++ (i, VLook (rc_topic x)) :: t2 /\
    exists b u v, nth_error ts i = Some (TPub b x) /\ t1 = u ++ (i, VKeep (keep_call b x)) :: v.

  Definition read_of (i : nat) (x : rcontent) (tr t1 : list (nat * event)) (p : list string) (ct : content) : Prop :=
    c_filter ct <> None /\ exists u v, tr = (t1 ++ (i, VLook (rc_topic x)) :: u) ++ (i, VRead ct) :: v /\
      ct = at_path (t1 ++ (i, VLook (rc_topic x)) :: u) p.

  Definition task_ok (tr : list (nat * event)) (w : world) (i : nat) (k : task) : Prop :=
    match k with
    | TPub _ _ | TSub _ _ _ _ | TUnsub _ _ => nth_error ts i = Some k /\ reads_by i tr = []
    | TLook x => reads_by i tr = [] /\ exists b u v, nth_error ts i = Some (TPub b x) /\ tr = u ++ (i, VKeep (keep_call b x)) :: v
    | TRead x todo => exists t1 t2 done ps, looked x i tr t1 t2 /\
        table_paths (rt_run (route_calls t1)) (rc_topic x) = done ++ ps /\
        Forall2 (linked t1 tr w) ps todo /\ Forall2 (read_of i x tr t1) done (reads_by i tr)
    | TRet f c => exists q u v, nth_error ts i = Some (TSub f c q true) /\ tr = u ++ (i, VRoute (Sub f c q)) :: v
    | TEnd => forall f c q, nth_error ts i = Some (TSub f c q true) -> exists u l v, tr = u ++ (i, VRet l) :: v
    | TPanic => exists e, In (i, e) tr
    end.

  Definition ev_ok (t1 : list (nat * event)) (i : nat) (e : event) : Prop :=
    match e with
    | VRead ct => exists x p u v, looked x i t1 u v /\
        In p (table_paths (rt_run (route_calls u)) (rc_topic x)) /\ ct = at_path t1 p /\ c_filter ct <> None
    | VPanic => match nth_error ts i with
        | Some (TPub b x) => exists p u v1 v2, looked x i t1 u (v1 ++ v2) /\
            In p (table_paths (rt_run (route_calls u)) (rc_topic x)) /\ at_path (u ++ v1) p = content_new
        | Some (TSub f c q _) => ret_get_matches (ret_run (retain_calls t1)) f = None
        | _ => False
        end
    | VRet l => exists f c q u v, nth_error ts i = Some (TSub f c q true) /\ t1 = u ++ (i, VRoute (Sub f c q)) :: v /\
        ret_get_matches (ret_run (retain_calls t1)) f = Some l
    | VLook topic => exists b x u v, nth_error ts i = Some (TPub b x) /\ topic = rc_topic x /\
        t1 = u ++ (i, VKeep (keep_call b x)) :: v
    | VKeep o => exists b x, nth_error ts i = Some (TPub b x) /\ o = keep_call b x
    | VRoute (Sub f c q) => exists w, nth_error ts i = Some (TSub f c q w)
    | VRoute (Unsub f c) => nth_error ts i = Some (TUnsub f c)
    end.

  Record race_inv (tr : list (nat * event)) (w : world) : Prop := {
    rc_tab : tab_inv tr w;
    rc_tasks : forall i k, nth_error (w_tasks w) i = Some k -> task_ok tr w i k;
    rc_evs : forall t1 i e t2, tr = t1 ++ (i, e) :: t2 -> ev_ok t1 i e;
    rc_len : forall i, nth_error (w_tasks w) i = None <-> nth_error ts i = None
  }.

  Lemma tab_struct tr w : tab_inv tr w -> kids_wf (root (atable (w_route w))) /\ clean (root (atable (w_route w))).
  Proof. intros (_ & -> & _). pose proof (rinv_run (route_calls tr)) as I. split; [exact (ri_wf _ _ I)|exact (ri_clean _ _ I)]. Qed.

  Lemma at_path_abs tr w p : tab_inv tr w ->
    at_path tr p = match ptr_at (hroot (w_route w)) p with Some a => mget (ht_mem (w_route w)) a | None => content_new end.
  Proof.
    intros (T & A & _). unfold at_path. rewrite <- A, <- (abs_hroot _ T). apply cont_abs.
  Qed.

  (** A step changes the tables by the calls it makes. *)
  Lemma turn_tab tr w i k e t' r' k' : tab_inv tr w -> turn k w = Some (e, t', r', k') ->
    forall tl, tab_inv (tr ++ [(i, e)]) (World t' r' tl) /\
    (t' = w_route w \/ exists o, e = VRoute o /\ t' = fst (h_step (w_route w) o)).
  Proof.
    intros TI H tl. pose proof TI as (T & A & R). destruct (tab_struct _ _ TI) as [WF CL].
    assert (RT : forall o, turn k w = Some (VRoute o, fst (h_step (w_route w) o), w_ret w, k') ->
       tab_inv (tr ++ [(i, VRoute o)]) (World (fst (h_step (w_route w) o)) (w_ret w) tl)).
    { intros o _. destruct (h_step_ok _ o T WF CL) as (B1 & B2 & _). split; [exact B1|]. cbn.
      rewrite route_calls_app, retain_calls_app. cbn. rewrite rt_run_snoc, app_nil_r, <- A. auto. }
    assert (SM : forall e, (forall o, e <> VRoute o) -> (forall o, e <> VKeep (Some o)) ->
       tab_inv (tr ++ [(i, e)]) (World (w_route w) (w_ret w) tl)).
    { intros e0 N1 N2. split; [exact T|]. cbn. rewrite route_calls_app, retain_calls_app. cbn.
      destruct e0 as [[o|]| | |o| |]; cbn; try (exfalso; eapply N1; reflexivity); try (exfalso; eapply N2; reflexivity);
      rewrite !app_nil_r; auto. }
    destruct k; cbn in H; try discriminate.
    - destruct retain; injection H as <- <- <- <-.
      + split; [|now left]. split; [exact T|]. cbn. rewrite route_calls_app, retain_calls_app. cbn.
        rewrite app_nil_r, ret_run_snoc, <- R. auto.
      + split; [|now left]. apply SM; congruence.
    - injection H as <- <- <- <-. split; [|now left]. apply SM; congruence.
    - destruct todo as [|a r]; [discriminate|]. cbn in H. destruct (c_filter _); injection H as <- <- <- <-;
        (split; [|now left]); apply SM; congruence.
    - unfold call_route in H. destruct (h_step (w_route w) (Sub f c q)) as [t2 pn] eqn:E. injection H as <- <- <- <-.
      specialize (RT (Sub f c q)). rewrite E in RT. split; [|right; exists (Sub f c q); rewrite E; auto].
      destruct (h_step_ok _ (Sub f c q) T WF CL) as (B1 & B2 & _). rewrite E in B1, B2. split; [exact B1|]. cbn in B2 |- *.
      rewrite route_calls_app, retain_calls_app. cbn. rewrite rt_run_snoc, app_nil_r, <- A. auto.
    - destruct (ret_get_matches (w_ret w) f); injection H as <- <- <- <-; (split; [|now left]); apply SM; congruence.
    - unfold call_route in H. destruct (h_step (w_route w) (Unsub f c)) as [t2 pn] eqn:E. injection H as <- <- <- <-.
      split; [|right; exists (Unsub f c); rewrite E; auto].
      destruct (h_step_ok _ (Unsub f c) T WF CL) as (B1 & B2 & _). rewrite E in B1, B2. split; [exact B1|]. cbn in B2 |- *.
      rewrite route_calls_app, retain_calls_app. cbn. rewrite rt_run_snoc, app_nil_r, <- A. auto.
  Qed.

  Lemma linked_step tr w i e t' r' tl t1 x p a : tab_inv tr w -> tab_inv (tr ++ [(i, e)]) (World t' r' tl) ->
    (t' = w_route w \/ exists o, e = VRoute o /\ t' = fst (h_step (w_route w) o)) ->
    tr = t1 ++ x -> linked t1 tr w p a -> linked t1 (tr ++ [(i, e)]) (World t' r' tl) p a.
  Proof.
    intros TI TI' C PX L. destruct (tab_struct _ _ TI) as [WF CL]. pose proof TI as (T & A & _).
    destruct C as [->|(o & -> & ->)].
    - destruct L as [L|(L1 & L2 & L3 & u & v & L4 & L5)]; [left; exact L|right]. cbn. repeat split; auto.
      exists u, (v ++ [(i, e)]). rewrite L4. split; auto. now rewrite !app_assoc.
    - destruct (h_step_ok _ o T WF CL) as (_ & _ & _ & B4 & B5 & B6).
      destruct L as [L|(L1 & L2 & L3 & u & v & L4 & L5)].
      + destruct (B4 _ _ L) as [B|(B & BN & BC)]; [left; exact B|right]. cbn.
        split; [|split; [exact BN|split; [exact BC|]]].
        * pose proof (proj2 (to_ok _ T) a (ptr_at_in _ _ _ L)). cbn. lia.
        * exists (x ++ [(i, VRoute o)]), []. rewrite PX, app_nil_r, <- app_assoc. split; auto.
          rewrite app_assoc, <- PX, (at_path_abs _ _ p TI'). cbn [w_route]. now rewrite B.
      + right. destruct (B5 a L1 L2) as [N1 N2]. cbn. split; [lia|split; [exact N1|split; [congruence|]]].
        exists u, (v ++ [(i, VRoute o)]). rewrite L4. split; auto. now rewrite !app_assoc.
  Qed.

  Lemma looked_more x i tr t1 t2 e : looked x i tr t1 t2 -> looked x i (tr ++ [e]) t1 (t2 ++ [e]).
  Proof. intros (-> & B). split; auto. now rewrite <- app_assoc. Qed.

  Lemma snoc_split {A} (l u v : list A) x y : l ++ [x] = u ++ y :: v ->
    (v = [] /\ l = u /\ x = y) \/ exists v', v = v' ++ [x] /\ l = u ++ y :: v'.
  Proof.
    intros H. destruct (list_snoc_cases v) as [->|(v' & z & ->)].
    - left. apply app_inj_tail in H as [-> ->]. auto.
    - right. exists v'. rewrite app_comm_cons, app_assoc in H. apply app_inj_tail in H as [-> ->]. auto.
  Qed.

  Lemma reads_more i tr e j : j <> i -> reads_by j (tr ++ [(i, e)]) = reads_by j tr.
  Proof.
    intros N. unfold reads_by. rewrite flat_map_app. cbn. rewrite (proj2 (Nat.eqb_neq i j)) by auto. now rewrite !app_nil_r.
  Qed.
  Lemma reads_own i tr e : reads_by i (tr ++ [(i, e)]) = reads_by i tr ++ match e with VRead ct => [ct] | _ => [] end.
  Proof. unfold reads_by. rewrite flat_map_app. cbn. rewrite Nat.eqb_refl. now rewrite !app_nil_r. Qed.

  Lemma read_of_more i x tr t1 p ct e : read_of i x tr t1 p ct -> read_of i x (tr ++ [e]) t1 p ct.
  Proof.
    intros (A & u & v & -> & B). split; auto. exists u, (v ++ [e]). split; auto. now rewrite <- !app_assoc.
  Qed.

  Lemma task_more tr w i e t' r' tl j k : tab_inv tr w -> tab_inv (tr ++ [(i, e)]) (World t' r' tl) ->
    (t' = w_route w \/ exists o, e = VRoute o /\ t' = fst (h_step (w_route w) o)) -> j <> i ->
    task_ok tr w j k -> task_ok (tr ++ [(i, e)]) (World t' r' tl) j k.
  Proof.
    intros TI TI' C NE H. destruct k; cbn in H |- *; rewrite ?reads_more by auto; auto.
    - destruct H as (R & b & u & v & H1 & ->). split; auto. exists b, u, (v ++ [(i, e)]). rewrite <- app_assoc. auto.
    - destruct H as (t1 & t2 & done & ps & L & P & F & D).
      exists t1, (t2 ++ [(i, e)]), done, ps. split; [now apply looked_more|]. split; auto. split.
      + destruct L as (PX & _). revert F. clear - TI TI' C PX. induction 1; constructor; auto.
        eapply linked_step; eauto.
      + revert D. clear. induction 1; constructor; auto using read_of_more.
    - destruct H as (q & u & v & H1 & ->). exists q, u, (v ++ [(i, e)]). rewrite <- app_assoc. auto.
    - intros f c q E. destruct (H f c q E) as (u & l & v & ->). exists u, l, (v ++ [(i, e)]). now rewrite <- app_assoc.
    - destruct H as (e0 & H). exists e0. apply in_app_iff. auto.
  Qed.

  Lemma race_start : race_inv [] (world_new ts).
  Proof.
    split.
    - split; [|split; reflexivity]. split; [|reflexivity]. split; [repeat constructor; auto|].
      intros a [<-|[]]. reflexivity.
    - intros i k H. cbn in H. pose proof (proj1 (Forall_forall _ _) FR k (nth_error_In _ _ H)) as F.
      destruct k; cbn in F |- *; tauto.
    - intros [|? ?] i e t2 H; discriminate.
    - reflexivity.
  Qed.

  Lemma linked_get t1 tr w p a : tab_inv tr w -> linked t1 tr w p a ->
    mget (ht_mem (w_route w)) a = at_path tr p \/
    (mget (ht_mem (w_route w)) a = content_new /\ exists u v, tr = t1 ++ u ++ v /\ at_path (t1 ++ u) p = content_new).
  Proof.
    intros TI [L|(_ & _ & L3 & L4)]; auto. left. rewrite (at_path_abs _ _ p TI), L. reflexivity.
  Qed.

  Lemma empty_path tr p : c_filter (at_path tr p) = None -> at_path tr p = content_new.
  Proof.
    intros H. pose proof (rinv_run (route_calls tr)) as I. apply (ri_clean _ _ I).
    destruct (content_is_empty _) eqn:E; auto. exfalso. exact (ri_has_flt _ _ I _ E H).
  Qed.

  Lemma race_next tr w i e w' : race_inv tr w -> race_step i w = Some (e, w') -> race_inv (tr ++ [(i, e)]) w'.
  Proof.
    intros [TI TK EV LN] H. unfold race_step in H. destruct (nth_error (w_tasks w) i) as [k|] eqn:E; [|discriminate].
    destruct (turn k w) as [[[[e0 t'] r'] k']|] eqn:T; [|discriminate].
    destruct (list_set i k' (w_tasks w)) as [tl|] eqn:S; [|discriminate]. injection H as -> <-.
    destruct (turn_tab tr w i k e t' r' k' TI T tl) as [TI' C]. pose proof (list_set_get _ _ _ _ S) as G.
    pose proof (TK i k E) as K.
    assert (MINE : ev_ok tr i e /\ task_ok (tr ++ [(i, e)]) (World t' r' tl) i k').
    { destruct k; cbn in T; try discriminate.
      - destruct K as [K R]. assert (T' : exists r2, Some (VKeep (keep_call retain x), w_route w, r2, TLook x) = Some (e, t', r', k')).
        { unfold keep_call. destruct retain; rewrite <- T; eauto. }
        destruct T' as (r2 & T'). injection T' as <- <- <- <-. cbn. rewrite reads_own, R. split; [eauto|].
        split; auto. exists retain, tr, []. auto.
      - injection T as <- <- <- <-. destruct K as (R & b & u & v & K & KT). split; [cbn; eauto 10|]. cbn.
        assert (L : looked x i (tr ++ [(i, VLook (rc_topic x))]) tr []) by (split; eauto 10).
        exists tr, [], [], (table_paths (rt_run (route_calls tr)) (rc_topic x)). rewrite reads_own, R. cbn.
        split; [exact L|]. split; auto. split; [|constructor]. rewrite <- (proj1 (proj2 TI)).
        pose proof (h_get_matches_ok (w_route w) (rc_topic x)) as M.
        clear - M. induction M as [|p0 a0 ps0 as0 M1 M2 IHM]; constructor; [left; exact M1|exact IHM].
      - destruct todo as [|a r]; [discriminate|]. cbn in T. destruct K as (t1 & t2 & done & ps & L & P & F & D).
        inversion F as [|p ? ps' ? LK F' EQ1 EQ2]; subst.
        assert (IN : In p (table_paths (rt_run (route_calls t1)) (rc_topic x))) by (rewrite P; apply in_app_iff; right; now left).
        pose proof (linked_get _ _ _ _ _ TI LK) as LG. pose proof L as (LT & b & u0 & v0 & LS & LK0).
        destruct (c_filter (mget (ht_mem (w_route w)) a)) as [f|] eqn:CF; injection T as <- <- <- <-; cbn.
        + assert (CT : mget (ht_mem (w_route w)) a = at_path tr p).
          { destruct LG as [LG|[LG _]]; auto. rewrite LG in CF. discriminate. }
          assert (FN : c_filter (mget (ht_mem (w_route w)) a) <> None) by congruence.
          split; [exists x, p, t1, t2; auto|].
          exists t1, (t2 ++ [(i, VRead (mget (ht_mem (w_route w)) a))]), (done ++ [p]), ps'.
          split; [now apply looked_more|]. split; [now rewrite <- app_assoc|]. split.
          * revert F'. clear - TI TI' C LT. induction 1; constructor; auto. eapply linked_step; eauto.
          * rewrite reads_own. apply Forall2_app; [revert D; clear; induction 1; constructor; auto using read_of_more|].
            constructor; [|constructor]. split; auto. exists t2, []. rewrite <- LT. split; auto.
        + split; [|exists VPanic; apply in_app_iff; right; now left]. rewrite LS.
          destruct LG as [LG|(_ & u & v & LG1 & LG2)].
          * exists p, t1, t2, []. rewrite app_nil_r. split; [exact L|]. split; auto.
            rewrite LG in CF. apply empty_path in CF. unfold at_path in CF |- *. rewrite LT, route_calls_app in CF. cbn in CF.
            now rewrite route_calls_app.
          * (* emptied earlier *)
            rewrite LT in LG1. apply app_inv_head in LG1. destruct u as [|y u].
            -- exists p, t1, [], t2. split; [exact L|]. split; [exact IN|exact LG2].
            -- cbn in LG1. injection LG1 as <- LG1. exists p, t1, u, v. rewrite <- LG1. split; [exact L|]. split; auto.
               unfold at_path in LG2 |- *. rewrite route_calls_app in LG2 |- *. exact LG2.
      - destruct K as [K R]. unfold call_route in T. destruct (h_step (w_route w) (Sub f c q)) as [t2 pn]. injection T as <- <- <- <-. cbn.
        split; [eauto|]. destruct pn; [eexists; apply in_app_iff; right; now left|]. destruct want; cbn.
        + exists q, tr, []. auto.
        + intros f0 c0 q0 E0. rewrite K in E0. discriminate.
      - destruct K as (q & u & v & K & KT). destruct TI as (_ & _ & RT). rewrite RT in T.
        destruct (ret_get_matches (ret_run (retain_calls tr)) f) as [l|] eqn:M; injection T as <- <- <- <-; cbn.
        + split; [exists f, c, q, u, v; auto|]. intros. exists tr, l, []. auto.
        + rewrite K. split; auto. exists VPanic. apply in_app_iff. right. now left.
      - destruct K as [K R]. unfold call_route in T. destruct (h_step (w_route w) (Unsub f c)) as [t2 pn]. injection T as <- <- <- <-. cbn.
        split; auto. destruct pn; [eexists; apply in_app_iff; right; now left|]. cbn. intros f0 c0 q0 E0. rewrite K in E0. discriminate. }
    destruct MINE as [EO TO]. split; auto.
    - intros j kj J. cbn in J. rewrite G in J. destruct (Nat.eqb_spec j i) as [->|N].
      + injection J as <-. exact TO.
      + apply task_more with (w := w); auto.
    - intros t1 j ej t2 Q. destruct (snoc_split _ _ _ _ _ Q) as [(_ & -> & Q2)|(v' & _ & Q2)]; [|eauto].
      injection Q2 as -> ->. exact EO.
    - intros j. cbn. rewrite G. destruct (Nat.eqb_spec j i) as [->|N]; [|apply LN].
      rewrite <- (LN i), E. split; discriminate.
  Qed.

  Lemma race_all tr w : races ts tr w -> race_inv tr w.
  Proof. induction 1; [apply race_start|]. eapply race_next; eauto. Qed.

  (** ** Consequences *)

  Lemma table_path_filter h topic p : valid_topic_name topic -> In p (table_paths (rt_run h) topic) ->
    exists f, levels f = p /\ topic_matches f topic.
  Proof.
    intros V I. assert (J : In (cont (root (rt_run h)) p) (rt_get_matches (rt_run h) topic)) by (apply lookup_In; eauto).
    destruct (lookup_has_filter h topic _ V J) as (f & F & _). exists f.
    pose proof (ri_flt _ _ (rinv_run h) _ _ F) as L. split; auto. subst p. apply (in_table_paths _ _ _ V) in I. tauto.
  Qed.

  Lemma at_path_lookup tr topic f : valid_topic_name topic -> topic_matches f topic -> c_filter (at_path tr (levels f)) <> None ->
    In (at_path tr (levels f)) (rt_get_matches (rt_run (route_calls tr)) topic) /\ c_filter (at_path tr (levels f)) = Some f.
  Proof.
    intros V M F. apply lookup_char; auto. split; [reflexivity|]. split; auto.
    destruct (content_is_empty (at_path tr (levels f))) eqn:E; auto. exfalso. apply F.
    apply (ri_clean _ _ (rinv_run (route_calls tr))) in E. unfold at_path. now rewrite E.
  Qed.

  Lemma race_read tr w t1 i ct t2 : races ts tr w -> tr = t1 ++ (i, VRead ct) :: t2 ->
    exists b x, nth_error ts i = Some (TPub b x) /\
      (valid_topic_name (rc_topic x) -> In ct (rt_get_matches (rt_run (route_calls t1)) (rc_topic x))).
  Proof.
    intros R E. pose proof (rc_evs _ _ (race_all _ _ R) _ _ _ _ E) as (x & p & u & v & (_ & b & _ & _ & L & _) & I & -> & F).
    exists b, x. split; auto. intros V. destruct (table_path_filter _ _ _ V I) as (f & <- & M).
    apply (at_path_lookup t1 _ f V M F).
  Qed.

  Lemma race_gave tr w i f c q b x : races ts tr w -> nth_error ts i = Some (TPub b x) -> valid_topic_name (rc_topic x) ->
    gave tr i f c q -> plain f /\ topic_matches f (rc_topic x) /\
    exists u v, tr = u ++ v /\ ~ idle u i /\ current (route_calls u) f c = Some q.
  Proof.
    intros R B V (ct & I & F & C). destruct (in_split _ _ I) as (u & v & E).
    destruct (race_read _ _ _ _ _ _ R E) as (b' & x' & B' & L). rewrite B in B'. injection B' as <- <-. specialize (L V).
    destruct (proj1 (proj1 (route_plain_lemma (route_calls u) _ V) f c q)) as (P1 & P2 & P3); eauto.
    split; auto. split; auto. exists u, ((i, VRead ct) :: v). split; auto. split; auto.
    pose proof (rc_evs _ _ (race_all _ _ R) _ _ _ _ E) as (x' & p & u' & v' & (L1 & _) & _).
    intros ID. apply (ID (VLook (rc_topic x'))). rewrite L1. apply in_app_iff. right. now left.
  Qed.

  Lemma race_published tr w i b x : races ts tr w -> published w i -> nth_error ts i = Some (TPub b x) ->
    exists t1 t2, looked x i tr t1 t2 /\
      Forall2 (read_of i x tr t1) (table_paths (rt_run (route_calls t1)) (rc_topic x)) (reads_by i tr).
  Proof.
    intros R (x' & P) B. pose proof (rc_tasks _ _ (race_all _ _ R) _ _ P) as (t1 & t2 & done & ps & L & TP & F & D).
    inversion F; subst. rewrite app_nil_r in TP. pose proof L as (_ & b' & _ & _ & L' & _). rewrite B in L'. injection L' as <- <-.
    exists t1, t2. rewrite TP. auto.
  Qed.

  Lemma prefix_idle (tr a b' t1 t2 : list (nat * event)) i e : tr = a ++ b' -> idle a i -> tr = t1 ++ (i, e) :: t2 ->
    exists m, t1 = a ++ m /\ b' = m ++ (i, e) :: t2.
  Proof.
    intros -> ID. revert t1. induction a as [|y a IH]; intros t1 E; [exists t1; auto|].
    destruct t1 as [|z t1]; cbn in E; injection E as E1 E2.
    - exfalso. apply (ID e). left. auto.
    - subst z. destruct (IH ltac:(intros e' H; apply (ID e'); now right) t1 E2) as (m & -> & ->). exists m. auto.
  Qed.

  Lemma race_core tr w i x f c t1 t2 : races ts tr w -> valid_topic_name (rc_topic x) -> plain f -> topic_matches f (rc_topic x) ->
    looked x i tr t1 t2 -> Forall2 (read_of i x tr t1) (table_paths (rt_run (route_calls t1)) (rc_topic x)) (reads_by i tr) ->
    (forall u v, t2 = u ++ v -> current (route_calls (t1 ++ u)) f c <> None) -> exists q, gave tr i f c q.
  Proof.
    intros R V PL M (LT & _) F CU. pose proof (rinv_run (route_calls t1)) as IV.
    assert (IN : In (levels f) (table_paths (rt_run (route_calls t1)) (rc_topic x))).
    { apply in_table_paths; auto. split; auto.
      pose proof (ri_clients _ _ IV f c) as G. unfold plain in PL. rewrite PL in G.
      specialize (CU [] t2 eq_refl). rewrite app_nil_r in CU. unfold content_is_empty. fold (C (rt_run (route_calls t1)) f).
      destruct (c_clients (C (rt_run (route_calls t1)) f)); [|reflexivity]. cbn in G. congruence. }
    destruct (Forall2_in_l _ _ _ _ F IN) as (ct & CI & FN & u & v & ET & EC).
    assert (Z : t2 = u ++ (i, VRead ct) :: v).
    { rewrite LT, <- app_assoc in ET. apply app_inv_head in ET. now injection ET. }
    specialize (CU _ _ Z).
    assert (RC : route_calls (t1 ++ (i, VLook (rc_topic x)) :: u) = route_calls (t1 ++ u)) by (rewrite !route_calls_app; reflexivity).
    pose proof (rinv_run (route_calls (t1 ++ (i, VLook (rc_topic x)) :: u))) as IV2.
    pose proof (ri_clients _ _ IV2 f c) as G. unfold plain in PL. rewrite PL, RC in G.
    destruct (current _ f c) as [q|] eqn:Q; [|congruence]. exists q, ct. split; [|split].
    - rewrite ET. apply in_app_iff. right. now left.
    - rewrite EC in FN |- *. apply (at_path_lookup _ _ f V M FN).
    - rewrite EC. unfold at_path. rewrite RC. apply aget_Some_in. exact G.
  Qed.

  Lemma race_no_miss tr w i b x f c a z : races ts tr w -> published w i -> nth_error ts i = Some (TPub b x) ->
    valid_topic_name (rc_topic x) -> plain f -> topic_matches f (rc_topic x) ->
    tr = a ++ z -> idle a i -> (forall u v, z = u ++ v -> current (route_calls (a ++ u)) f c <> None) ->
    exists q, gave tr i f c q.
  Proof.
    intros R P B V PL M E ID CU. destruct (race_published _ _ _ _ _ R P B) as (t1 & t2 & L & F).
    pose proof (proj1 L) as LT. destruct (prefix_idle _ _ _ _ _ _ _ E ID LT) as (m & -> & Z).
    apply (race_core _ _ _ _ _ c _ _ R V PL M L F). intros u v EU. subst t2.
    specialize (CU (m ++ (i, VLook (rc_topic x)) :: u) v). rewrite Z, <- app_assoc in CU. specialize (CU eq_refl).
    rewrite !route_calls_app in CU |- *. cbn in CU. rewrite <- app_assoc. exact CU.
  Qed.
End Run.
