(** Lemmas for C68: every QoS in the routing table is that of a SUBSCRIBE. *)
From Coq Require Import List Bool String NArith Lia.
From Verif Require Import Base BaseLemmas TopicModel TopicSpec RouteModel RouteSpec RouteProofs RouteHistory RouteInv.
Import ListNotations.
Local Open Scope list_scope.

Lemma list_set_in {A} (x : A) : forall l i l' y, list_set i x l = Some l' -> In y l' -> y = x \/ In y l.
Proof.
  induction l as [|z l IH]; intros i l' y E H; [destruct i; discriminate|]. destruct i; cbn in E.
  - injection E as <-. destruct H as [<-|H]; [auto|right; right; auto].
  - destruct (list_set i x l) as [l0|] eqn:F; [|discriminate]. injection E as <-. destruct H as [<-|H]; [right; left; auto|].
    destruct (IH _ _ _ F H); auto. right; right; auto.
Qed.
Lemma swap_remove_in {A} i (l l' : list A) y : swap_remove i l = Some l' -> In y l' -> In y l.
Proof.
  unfold swap_remove. destruct (rev l) as [|x r] eqn:R; [discriminate|]. assert (X : forall z, In z (x :: r) -> In z l) by (intros z Z; rewrite <- R in Z; apply in_rev; auto).
  destruct (Nat.eqb _ _).
  - intros [= <-] H. apply X. right. apply in_rev. exact H.
  - intros E H. destruct (list_set_in _ _ _ _ _ E H) as [->|H']; [apply X; left; auto|]. apply X. right. apply in_rev. exact H'.
Qed.
Lemma in_aset_or {K V} `{Eqb K} (k : K) (v : V) m x : In x (aset k v m) -> x = (k, v) \/ In x m.
Proof.
  induction m as [|[k' v'] m IH]; cbn; [intros [<-|[]]; auto|]. destruct (eqb k k'); cbn; [intros [<-|X]; auto|]. intros [<-|X]; auto. destruct (IH X); auto.
Qed.
Lemma in_adel {K V} `{Eqb K} (k : K) (m : list (K * V)) x : In x (adel k m) -> In x m.
Proof. induction m as [|[k' v'] m IH]; cbn; auto. destruct (eqb k k'); cbn; auto. intros [<-|X]; auto. Qed.

Lemma sh_insert_in s id q x : In x (sh_items (fst (sh_insert s id q))) -> snd x = q \/ In x (sh_items s).
Proof.
  unfold sh_insert. destruct (aget id (sh_index s)) as [idx|].
  - destruct (nth_error _ _) as [[o ?]|]; [|auto]. destruct (list_set _ _ _) as [l|] eqn:E; [|auto]. cbn. intros H. destruct (list_set_in _ _ _ _ _ E H) as [->|]; auto.
  - cbn. intros H. apply in_app_or in H. destruct H as [|[<-|[]]]; auto.
Qed.
Lemma sh_remove_in s id x : In x (sh_items (fst (sh_remove s id))) -> In x (sh_items s).
Proof.
  unfold sh_remove. destruct (aget id (sh_index s)) as [idx|]; [|auto]. destruct (Nat.eqb _ _); [intros []|]. destruct (rev _) as [|[l ?] r]; [auto|].
  destruct (swap_remove _ _) eqn:E; [|auto]. cbn. apply (swap_remove_in _ _ _ _ E).
Qed.

(** All QoS values of a content satisfy [P]. *)
Definition qall (P : qos -> Prop) (c : content) : Prop :=
  (forall x, In x (c_clients c) -> P (snd x)) /\ (forall g s x, In (g, s) (c_groups c) -> In x (sh_items s) -> P (snd x)).

Lemma insert_qall (P : qos -> Prop) c f id q g : P q -> qall P c -> qall P (fst (content_insert c f id q g)).
Proof.
  intros Q (A & B). unfold content_insert. destruct g as [name|].
  - destruct (sh_insert _ id q) as [s' p] eqn:E. split; cbn [fst c_clients c_groups]; [exact A|]. intros g s x H X. apply in_aset_or in H. destruct H as [[= -> ->]|H]; [|eauto].
    replace s' with (fst (sh_insert match aget name (c_groups c) with Some s => s | None => sh_empty end id q)) in X by (rewrite E; reflexivity).
    destruct (sh_insert_in _ _ _ _ X) as [->|X']; auto. destruct (aget name (c_groups c)) as [s0|] eqn:G; [|destruct X']. eapply B; eauto. eapply aget_Some_in; eauto.
  - split; cbn [fst c_clients c_groups]; [|exact B]. intros x H. apply in_aset_or in H. destruct H as [->|]; auto.
Qed.
Lemma remove_qall (P : qos -> Prop) c k id g : qall P c -> qall P (fst (fst (content_remove c k id g))).
Proof.
  intros (A & B). unfold content_remove.
  assert (X : forall c1 p, (match g with
    | Some name =>
        match aget name (c_groups c) with
        | Some s =>
            let '(s', p) := sh_remove s id in
            if p then (Content (c_filter c) (c_clients c) (aset name s' (c_groups c)), true)
            else if sh_is_empty s'
            then (Content (c_filter c) (c_clients c) (adel name (c_groups c)), false)
            else (Content (c_filter c) (c_clients c) (aset name s' (c_groups c)), false)
        | None => (c, false)
        end
    | None => (Content (c_filter c) (adel id (c_clients c)) (c_groups c), false)
    end) = (c1, p) -> qall P c1).
  { intros c1 p. destruct g as [name|]; [|intros [= <- <-]; split; cbn; [intros x H; apply A; eapply in_adel; eauto|exact B]].
    destruct (aget name (c_groups c)) as [s|] eqn:G; [|intros [= <- <-]; split; auto].
    assert (S : forall s' p, sh_remove s id = (s', p) -> forall g0 s0 x, In (g0, s0) (aset name s' (c_groups c)) -> In x (sh_items s0) -> P (snd x)).
    { intros s' p' E g0 s0 x H X. apply in_aset_or in H. destruct H as [[= -> ->]|H]; [|eauto]. replace s' with (fst (sh_remove s id)) in X by (rewrite E; reflexivity).
      apply sh_remove_in in X. eapply B; eauto. eapply aget_Some_in; eauto. }
    destruct (sh_remove s id) as [s' p'] eqn:E. destruct p'; [|destruct (sh_is_empty s')]; intros [= <- <-]; split; cbn; eauto.
    intros g0 s0 x H. eapply B. eapply in_adel; eauto. }
  destruct (match g with Some _ => _ | None => _ end) as [c1 p]. specialize (X _ _ eq_refl). destruct p; [exact X|]. destruct (content_is_empty c1); exact X.
Qed.

Lemma table_qall (P : qos -> Prop) h : (forall f c q, In (Sub f c q) h -> P q) -> forall p, qall P (cont (root (rt_run h)) p).
Proof.
  induction h as [|o h IH] using rev_ind; intros A p.
  - assert (E : cont (root (rt_run [])) p = content_new) by (destruct p; reflexivity). rewrite E. split; [intros ? []|intros ? ? ? []].
  - assert (B : forall f c q, In (Sub f c q) h -> P q) by (intros f c q X; apply (A f c q); apply in_or_app; auto). specialize (IH B).
    rewrite rt_run_snoc. pose proof (rinv_run h) as I. rewrite (rt_step_cont _ _ _ (ri_wf _ _ I) (ri_clean _ _ I)).
    destruct (path_eq_dec _ _); [|apply IH]. destruct o as [f c q|f c]; cbn [op_content].
    + apply insert_qall; auto. apply (A f c q). apply in_or_app. right. left. reflexivity.
    + apply remove_qall; auto.
Qed.
