(** Invariant of the registry, the channels and the tasks that hold or wait for them. *)
From Coq Require Import List Bool NArith String Lia.
From Verif Require Import Base BaseLemmas GlobModel Sess5Model Sess3Model ConnModel RegModel BrokerModel BrokerSpec.
Import ListNotations.
Local Open Scope N_scope.

(** What a task is to a client: waiting for its session ([sent]: the request is in the
    control channel), or holding the receiver ([dropped]: already out of the registry). *)
Inductive role := Waits (sent v5 : bool) (i : string) (c : client_id) | Owns (v5 : bool) (i : string) (c : client_id) (dropped : bool).
Definition role_of (t : task) : role :=
  match t with
  | TSend x c => Waits false (p_v5 x) (p_ident x) c
  | TReply x c => Waits true (p_v5 x) (p_ident x) c
  | TJoin x r => Owns (p_v5 x) (p_ident x) (rc_id r) false
  | TReady a | TOnline a | TEnd a | TDrain a | TOffline a => Owns (a_v5 a) (a_ident a) (a_id a) false
  | TOffDrain a stop => Owns (a_v5 a) (a_ident a) (a_id a) stop
  end.
Definition online_msg (v : bool) (k : N) : ctl := if v then COnline5 k else COnline3 k.
Definition is_online (m : ctl) : bool := match m with COnline5 _ | COnline3 _ => true | _ => false end.
Definition for5 (m : ctl) : bool := match m with CExpired _ | CWill _ => true | _ => false end.
Definition v5only (rl : N -> option role) (c : client_id) : Prop := forall k v i d, rl k = Some (Owns v i c d) -> v = true.
Definition timer_ok (next : client_id) (rl : N -> option role) (i : timer) : Prop :=
  match i with
  | IKeep c _ _ _ => c < next
  | IExpire c _ _ | IWill c _ _ => c < next /\ v5only rl c
  | IPut c m => c < next /\ is_online m = false /\ (for5 m = true -> v5only rl c)
  end.

Record core (r : reg) (n : N) (cv : client_id -> option (list ctl * bool)) (rl : N -> option role) (tms : list timer) : Prop := Core {
  k_idsnd : NoDup (keys (r_ids r));
  k_idnd : NoDup (keys (r_idents r));
  k_inv : forall c i, aget i (r_idents r) = Some c <-> exists o, aget c (r_ids r) = Some (i, o);
  k_cl : forall c, in_list c (r_clients r) = true <-> aget c (r_ids r) <> None;
  k_lt : forall c, aget c (r_ids r) <> None -> c < r_next r;
  k_num : forall k t, rl k = Some t -> k < n;
  k_chan : forall c, cv c <> None <-> c < r_next r;
  k_one : forall k1 k2 v1 v2 i1 i2 c d1 d2, rl k1 = Some (Owns v1 i1 c d1) -> rl k2 = Some (Owns v2 i2 c d2) -> k1 = k2;
  k_own : forall k v i c d, rl k = Some (Owns v i c d) -> c < r_next r;
  k_open : forall c q o, cv c = Some (q, o) -> (o = true <-> exists k v i d, rl k = Some (Owns v i c d));
  k_reg : forall k v i c, rl k = Some (Owns v i c false) -> exists o, aget c (r_ids r) = Some (i, o);
  k_drop : forall k v i c, rl k = Some (Owns v i c true) -> aget c (r_ids r) = None;
  k_wait : forall k s v i c, rl k = Some (Waits s v i c) -> c < r_next r /\ (forall i' o, aget c (r_ids r) = Some (i', o) -> i' = i);
  k_len : forall c q o, cv c = Some (q, o) -> (List.length q <= 1)%nat;
  k_online : forall c q j v, cv c = Some (q, true) -> In (online_msg v j) q -> exists i, rl j = Some (Waits true v i c);
  k_reply : forall k v i c, rl k = Some (Waits true v i c) -> exists o, cv c = Some ([online_msg v k], o);
  k_v5 : forall c q m, cv c = Some (q, true) -> In m q -> for5 m = true -> v5only rl c;
  k_tms : Forall (timer_ok (r_next r) rl) tms
}.

Definition upd {A} (f : N -> option A) (k : N) (v : option A) : N -> option A := fun j => if j =? k then v else f j.
Lemma upd_eq {A} (f : N -> option A) k v : upd f k v k = v. Proof. unfold upd. rewrite N.eqb_refl. reflexivity. Qed.
Lemma upd_ne {A} (f : N -> option A) k v j : j <> k -> upd f k v j = f j.
Proof. intros H. unfold upd. destruct (N.eqb_spec j k); congruence. Qed.
Ltac updc := repeat match goal with
  | H : context[upd _ ?k _ ?j] |- _ => unfold upd in H
  | |- context[upd _ ?k _ ?j] => unfold upd end;
  repeat match goal with
  | H : context[N.eqb ?a ?b] |- _ => destruct (N.eqb_spec a b); subst
  | |- context[N.eqb ?a ?b] => destruct (N.eqb_spec a b); subst
  end; try discriminate; try congruence.

Lemma in_list_iff c l : in_list c l = true <-> In c l.
Proof. unfold in_list. rewrite existsb_exists. split; [intros (x & I & E); apply N.eqb_eq in E; subst; auto|intros I; exists c; rewrite N.eqb_refl; auto]. Qed.
Lemma in_without c d l : In c (without d l) <-> In c l /\ c <> d.
Proof. unfold without. rewrite filter_In. destruct (N.eqb_spec c d); cbn; split; intuition congruence. Qed.

Section Core.
  Variables (r : reg) (n : N) (cv : client_id -> option (list ctl * bool)) (rl : N -> option role) (tms : list timer).
  Hypothesis K : core r n cv rl tms.

  Lemma core_ext n' cv' rl' tms' : n <= n' -> (forall c, cv' c = cv c) -> (forall k, rl' k = rl k) ->
    Forall (timer_ok (r_next r) rl) tms' -> core r n' cv' rl' tms'.
  Proof.
    intros Hn Hc Hr T. destruct K.
    assert (V : forall c, v5only rl c -> v5only rl' c) by (intros c V k v i d H; rewrite Hr in H; eauto).
    constructor; intros; repeat match goal with H : context[cv' _] |- _ => rewrite Hc in H | H : context[rl' _] |- _ => rewrite Hr in H end; rewrite ?Hc; eauto.
    - apply N.lt_le_trans with n; eauto.
    - split.
      + intros O. destruct (proj1 (k_open0 _ _ _ H) O) as (k & v & i & d & E). exists k, v, i, d. rewrite Hr. auto.
      + intros (k & v & i & d & E). rewrite Hr in E. apply (proj2 (k_open0 _ _ _ H)). eauto 6.
    - rewrite Hr. eauto.
    - eapply Forall_impl; [|exact T]. intros [] H; cbn in *; intuition auto.
  Qed.

  Lemma owner_open k v i c d : rl k = Some (Owns v i c d) -> exists q, cv c = Some (q, true).
  Proof.
    intros H. pose proof (k_own _ _ _ _ _ K _ _ _ _ _ H) as L. pose proof (proj2 (k_chan _ _ _ _ _ K c) L) as E.
    destruct (cv c) as [[q o]|] eqn:C; [|congruence]. exists q.
    rewrite (proj2 (k_open _ _ _ _ _ K _ _ _ C)); eauto 6.
  Qed.

  (** A new identifier. *)
  Lemma core_fresh i v : aget i (r_idents r) = None ->
    core (fst (reg_add i r)) (n + 1) (upd cv (r_next r) (Some ([], true))) (upd rl n (Some (Owns v i (r_next r) false))) tms
    /\ snd (reg_add i r) = Fresh (r_next r).
  Proof.
    intros A. unfold reg_add. rewrite A. cbn [fst snd]. split; auto.
    assert (NR : aget (r_next r) (r_ids r) = None).
    { destruct (aget (r_next r) (r_ids r)) eqn:E; auto. pose proof (k_lt _ _ _ _ _ K (r_next r)). rewrite E in H. specialize (H ltac:(discriminate)). lia. }
    assert (NO : forall k v i d, rl k = Some (Owns v i (r_next r) d) -> False).
    { intros k v0 i0 d H. pose proof (k_own _ _ _ _ _ K _ _ _ _ _ H). lia. }
    assert (NK : forall t, rl n = Some t -> False).
    { intros t H. pose proof (k_num _ _ _ _ _ K _ _ H). lia. }
    assert (V5 : forall c, c < r_next r -> v5only rl c -> v5only (upd rl n (Some (Owns v i (r_next r) false))) c).
    { intros c L V k v' i' d' H. updc; [injection H; intros; subst; lia|eauto]. }
    destruct K. constructor; cbn [r_next r_online r_ids r_idents r_clients].
    - apply NoDup_aset; auto.
    - apply NoDup_aset; auto.
    - intros c i'. rewrite !aget_aset. change (@eqb client_id _ c (r_next r)) with (N.eqb c (r_next r)).
      destruct (eqb_spec i' i) as [->|Hi]; destruct (N.eqb_spec c (r_next r)) as [->|Hc].
      + split; eauto.
      + split; [congruence|]. intros (o & E). exfalso. assert (X : aget i (r_idents r) = Some c) by (apply k_inv0; eauto). congruence.
      + split; [|intros (o & E); congruence]. intros E. exfalso. apply k_inv0 in E. destruct E as (o & E). congruence.
      + apply k_inv0.
    - intros c. rewrite aget_aset. change (@eqb client_id _ c (r_next r)) with (N.eqb c (r_next r)).
      cbn [in_list existsb]. destruct (N.eqb_spec c (r_next r)); cbn; [split; [discriminate|auto]|apply k_cl0].
    - intros c. rewrite aget_aset. change (@eqb client_id _ c (r_next r)) with (N.eqb c (r_next r)).
      destruct (N.eqb_spec c (r_next r)); [lia|]. intros H. specialize (k_lt0 _ H). lia.
    - intros k t H. updc; [lia|]. specialize (k_num0 _ _ H). lia.
    - intros c. updc; [split; [lia|discriminate]|]. rewrite k_chan0. lia.
    - intros. updc; try (injection H; intros; subst); try (injection H0; intros; subst); try (exfalso; eauto; fail); eauto.
    - intros. updc; [injection H; intros; subst; lia|]. specialize (k_own0 _ _ _ _ _ H). lia.
    - intros c q o H. unfold upd in H. destruct (N.eqb_spec c (r_next r)) as [->|Hc].
      + injection H; intros; subst. split; auto. intros _. exists n, v, i, false. apply upd_eq.
      + rewrite (k_open0 _ _ _ H). split; intros (k & v' & i' & d' & E).
        * exists k, v', i', d'. rewrite upd_ne; auto. intros ->. eauto.
        * unfold upd in E. destruct (N.eqb_spec k n); [injection E; intros; subst; congruence|eauto 6].
    - intros k v' i' c H. unfold upd in H. destruct (N.eqb_spec k n).
      + injection H; intros; subst. rewrite aget_aset_eq. eauto.
      + destruct (k_reg0 _ _ _ _ H) as (o & E). exists o. rewrite aget_aset_ne; auto. intros ->. congruence.
    - intros k v' i' c H. unfold upd in H. destruct (N.eqb_spec k n); [discriminate|].
      rewrite aget_aset_ne; eauto. intros ->. eauto.
    - intros k s v' i' c H. unfold upd in H. destruct (N.eqb_spec k n); [discriminate|]. destruct (k_wait0 _ _ _ _ _ H) as [L W].
      split; [lia|]. intros i2 o. rewrite aget_aset_ne; eauto. lia.
    - intros c q o H. unfold upd in H. destruct (N.eqb_spec c (r_next r)); [injection H; intros; subst; auto|eauto].
    - intros c q j v' H I. unfold upd in H. destruct (N.eqb_spec c (r_next r)); [injection H; intros; subst; contradiction|].
      destruct (k_online0 _ _ _ _ H I) as (i' & E). exists i'. rewrite upd_ne; auto. intros ->. eauto.
    - intros k v' i' c H. unfold upd in H. destruct (N.eqb_spec k n); [discriminate|]. destruct (k_reply0 _ _ _ _ H) as (o & E). exists o.
      rewrite upd_ne; auto. destruct (k_wait0 _ _ _ _ _ H). lia.
    - intros c q m H I F. unfold upd in H. destruct (N.eqb_spec c (r_next r)); [injection H; intros; subst; contradiction|].
      apply V5; eauto. apply k_chan0. congruence.
    - eapply Forall_impl; [|exact k_tms0]. intros [] H; cbn in *; intuition (try lia); auto.
  Qed.

  (** Changing flags and the count of online clients. *)
  Lemma core_flags r' : r_next r' = r_next r -> r_idents r' = r_idents r -> r_clients r' = r_clients r -> keys (r_ids r') = keys (r_ids r) ->
    (forall c, option_map fst (aget c (r_ids r')) = option_map fst (aget c (r_ids r))) -> core r' n cv rl tms.
  Proof.
    intros N1 I1 C1 KY F. destruct K.
    assert (FS : forall c i, (exists o, aget c (r_ids r') = Some (i, o)) <-> exists o, aget c (r_ids r) = Some (i, o)).
    { intros c i. specialize (F c). destruct (aget c (r_ids r')) as [[a b]|], (aget c (r_ids r)) as [[a' b']|]; cbn in F; try discriminate;
        try (injection F; intros; subst); split; intros (o & E); inversion E; subst; eauto. }
    assert (FN : forall c, aget c (r_ids r') <> None <-> aget c (r_ids r) <> None).
    { intros c. specialize (F c). destruct (aget c (r_ids r')), (aget c (r_ids r)); cbn in F; try discriminate; split; congruence. }
    constructor; rewrite ?N1, ?I1, ?C1, ?KY; auto; intros.
    - rewrite k_inv0. symmetry. apply FS.
    - rewrite k_cl0. symmetry. apply FN.
    - apply k_lt0. apply FN. auto.
    - apply FS. eauto.
    - specialize (k_drop0 _ _ _ _ H). specialize (FN c). destruct (aget c (r_ids r')); auto. exfalso. apply (proj1 FN); [discriminate|assumption].
    - destruct (k_wait0 _ _ _ _ _ H) as [L W]. split; auto. intros i' o E.
      destruct (proj1 (FS c i') (ex_intro _ o E)) as (o' & E'). eauto.
  Qed.

  Lemma add_known i c : aget i (r_idents r) = Some c -> snd (reg_add i r) = Known c /\
    core (fst (reg_add i r)) n cv rl tms.
  Proof.
    intros A. unfold reg_add. rewrite A. cbn [fst snd].
    destruct (proj1 (k_inv _ _ _ _ _ K c i) A) as (o & E). rewrite E. split.
    - rewrite (proj2 (k_cl _ _ _ _ _ K c)); [reflexivity|congruence].
    - apply core_flags; cbn [r_next r_online r_ids r_idents r_clients]; auto.
      + apply keys_aset_in. apply in_keys_aget. rewrite E; eauto.
      + intros d. rewrite aget_aset. change (@eqb client_id _ d c) with (N.eqb d c). destruct (N.eqb_spec d c) as [->|]; auto. rewrite E. reflexivity.
  Qed.

  Lemma core_waiting v i c : aget i (r_idents r) = Some c -> core r (n + 1) cv (upd rl n (Some (Waits false v i c))) tms.
  Proof.
    intros A.
    assert (NK : forall t, rl n = Some t -> False).
    { intros t H. pose proof (k_num _ _ _ _ _ K _ _ H). lia. }
    assert (V5 : forall c', v5only rl c' -> v5only (upd rl n (Some (Waits false v i c))) c').
    { intros c' V k v' i' d' H. updc. eauto. }
    destruct (proj1 (k_inv _ _ _ _ _ K c i) A) as (o & E).
    destruct K. constructor; auto; intros.
    - updc; [lia|]. specialize (k_num0 _ _ H). lia.
    - updc. eauto.
    - updc. eauto.
    - rewrite (k_open0 _ _ _ H). split; intros (k & v' & i' & d' & X).
      + exists k, v', i', d'. rewrite upd_ne; auto. intros ->. eauto.
      + updc; eauto 6.
    - updc. eauto.
    - updc. eauto.
    - unfold upd in H. destruct (N.eqb_spec k n).
      + injection H; intros; subst. split; [apply k_lt0; congruence|]. intros i' o' X. congruence.
      + eauto.
    - destruct (k_online0 _ _ _ _ H H0) as (i' & X). exists i'. rewrite upd_ne; auto. intros ->. eauto.
    - updc. eauto.
    - eauto.
    - eapply Forall_impl; [|exact k_tms0]. intros [] H; cbn in *; intuition auto.
  Qed.

  (** A waiting task is gone or its request is dropped. *)
  Lemma core_unwait k s v i c : rl k = Some (Waits s v i c) -> (s = true -> exists q, cv c = Some (q, false)) ->
    core r n cv (upd rl k None) tms.
  Proof.
    intros W SC.
    assert (V5 : forall c', v5only rl c' -> v5only (upd rl k None) c').
    { intros c' V k' v' i' d' H. updc. eauto. }
    destruct K. constructor; auto; intros.
    - updc. eauto.
    - updc. eauto.
    - updc. eauto.
    - rewrite (k_open0 _ _ _ H). split; intros (k' & v' & i' & d' & X).
      + exists k', v', i', d'. rewrite upd_ne; auto. congruence.
      + updc; eauto 6.
    - updc. eauto.
    - updc. eauto.
    - updc. eauto.
    - destruct (k_online0 _ _ _ _ H H0) as (i' & X). exists i'. rewrite upd_ne; auto. intros ->.
      rewrite X in W. injection W; intros; subst. destruct (SC eq_refl) as (q' & Y). congruence.
    - updc. eauto.
    - eauto.
    - eapply Forall_impl; [|exact k_tms0]. intros [] H; cbn in *; intuition auto.
  Qed.

  (** The request goes into the control channel. *)
  Lemma core_put k v i c : rl k = Some (Waits false v i c) -> cv c = Some ([], true) ->
    core r n (upd cv c (Some ([online_msg v k], true))) (upd rl k (Some (Waits true v i c))) tms.
  Proof.
    intros W CC.
    assert (V5 : forall c', v5only rl c' -> v5only (upd rl k (Some (Waits true v i c))) c').
    { intros c' V k' v' i' d' H. updc. eauto. }
    destruct K. constructor; auto; intros.
    - updc; eauto.
    - unfold upd. destruct (N.eqb_spec c0 c); [subst|apply k_chan0]. split; [intros _|discriminate]. apply k_chan0. congruence.
    - updc. eauto.
    - updc. eauto.
    - assert (X : exists q0, cv c0 = Some (q0, o)). { unfold upd in H. destruct (N.eqb_spec c0 c); [injection H; intros; subst; eauto|eauto]. }
      destruct X as (q0 & X). rewrite (k_open0 _ _ _ X). split; intros (k' & v' & i' & d' & Y).
      + exists k', v', i', d'. rewrite upd_ne; auto. congruence.
      + updc; eauto 6.
    - updc. eauto.
    - updc. eauto.
    - unfold upd in H. destruct (N.eqb_spec k0 k); [injection H; intros; subst|]; eauto.
    - unfold upd in H. destruct (N.eqb_spec c0 c); [injection H; intros; subst; auto|eauto].
    - unfold upd in H. destruct (N.eqb_spec c0 c).
      + injection H; intros; subst. destruct H0 as [E|[]]. assert (v0 = v /\ j = k) as [-> ->] by (destruct v, v0; cbn in E; inversion E; auto).
        exists i. apply upd_eq.
      + destruct (k_online0 _ _ _ _ H H0) as (i' & X). exists i'. rewrite upd_ne; auto. intros ->. congruence.
    - unfold upd in H. destruct (N.eqb_spec k0 k).
      + injection H; intros; subst. exists true. apply upd_eq.
      + destruct (k_reply0 _ _ _ _ H) as (o & X). exists o. rewrite upd_ne; auto. intros ->. rewrite X in CC. inversion CC.
    - apply V5. unfold upd in H. destruct (N.eqb_spec c0 c); [injection H; intros; subst; destruct H0 as [<-|[]]; destruct v; discriminate|eauto].
    - eapply Forall_impl; [|exact k_tms0]. intros [] H; cbn in *; intuition auto.
  Qed.

  (** The owner goes away and its receiver with it. *)
  Lemma core_close k v i c d q : rl k = Some (Owns v i c d) -> cv c = Some (q, true) ->
    core r n (upd cv c (Some (q, false))) (upd rl k None) tms.
  Proof.
    intros W CC.
    assert (V5 : forall c', v5only rl c' -> v5only (upd rl k None) c').
    { intros c' V k' v' i' d' H. updc. eauto. }
    destruct K. constructor; auto; intros.
    - updc. eauto.
    - unfold upd. destruct (N.eqb_spec c0 c); [subst|apply k_chan0]. split; [intros _|discriminate]. apply k_chan0. congruence.
    - updc. eauto.
    - updc. eauto.
    - unfold upd in H. destruct (N.eqb_spec c0 c).
      + injection H; intros; subst. split; [discriminate|]. intros (k' & v' & i' & d' & X). unfold upd in X. destruct (N.eqb_spec k' k); [discriminate|].
        exfalso. apply n0. eauto.
      + rewrite (k_open0 _ _ _ H). split; intros (k' & v' & i' & d' & X).
        * exists k', v', i', d'. rewrite upd_ne; auto. congruence.
        * updc; eauto 6.
    - updc. eauto.
    - updc. eauto.
    - updc. eauto.
    - unfold upd in H. destruct (N.eqb_spec c0 c); [injection H; intros; subst; eauto|eauto].
    - unfold upd in H. destruct (N.eqb_spec c0 c); [discriminate|].
      destruct (k_online0 _ _ _ _ H H0) as (i' & X). exists i'. rewrite upd_ne; auto. congruence.
    - unfold upd in H. destruct (N.eqb_spec k0 k); [discriminate|]. destruct (k_reply0 _ _ _ _ H) as (o & X).
      unfold upd. destruct (N.eqb_spec c0 c); [|eauto]. subst. rewrite CC in X. inversion X; subst. eauto.
    - apply V5. unfold upd in H. destruct (N.eqb_spec c0 c); [discriminate|eauto].
    - eapply Forall_impl; [|exact k_tms0]. intros [] H; cbn in *; intuition auto.
  Qed.

  (** A control message that asks for no session is taken from the channel. *)
  Lemma core_pop c m q o : cv c = Some (m :: q, o) -> is_online m = false -> core r n (upd cv c (Some (q, o))) rl tms.
  Proof.
    intros CC NM. assert (q = []) as ->. { pose proof (k_len _ _ _ _ _ K _ _ _ CC). destruct q; auto. cbn in H. lia. }
    destruct K. constructor; auto; intros.
    - unfold upd. destruct (N.eqb_spec c0 c); [subst|apply k_chan0]. split; [intros _|discriminate]. apply k_chan0. congruence.
    - unfold upd in H. destruct (N.eqb_spec c0 c); [injection H; intros; subst; eauto|eauto].
    - unfold upd in H. destruct (N.eqb_spec c0 c); [injection H; intros; subst; cbn; lia|eauto].
    - unfold upd in H. destruct (N.eqb_spec c0 c); [injection H; intros; subst; contradiction|eauto].
    - destruct (k_reply0 _ _ _ _ H) as (o' & X). exists o'. rewrite upd_ne; auto. intros ->. rewrite CC in X. inversion X; subst. destruct v; discriminate.
    - unfold upd in H. destruct (N.eqb_spec c0 c); [injection H; intros; subst; contradiction|eauto].
  Qed.

  (** A request for the session is answered or refused: the waiting task becomes the owner
      in place of the old one, or ends. *)
  Lemma core_refuse c v j : cv c = Some ([online_msg v j], true) -> core r n (upd cv c (Some ([], true))) (upd rl j None) tms.
  Proof.
    intros CC. destruct (k_online _ _ _ _ _ K _ _ j v CC (or_introl eq_refl)) as (i & W).
    assert (V5 : forall c', v5only rl c' -> v5only (upd rl j None) c').
    { intros c' V k' v' i' d' H. updc. eauto. }
    destruct K. constructor; auto; intros.
    - updc. eauto.
    - unfold upd. destruct (N.eqb_spec c0 c); [subst|apply k_chan0]. split; [intros _|discriminate]. apply k_chan0. congruence.
    - updc. eauto.
    - updc. eauto.
    - assert (X : exists q0, cv c0 = Some (q0, o)). { unfold upd in H. destruct (N.eqb_spec c0 c); [injection H; intros; subst; eauto|eauto]. }
      destruct X as (q0 & X). rewrite (k_open0 _ _ _ X). split; intros (k' & v' & i' & d' & Y).
      + exists k', v', i', d'. rewrite upd_ne; auto. congruence.
      + updc; eauto 6.
    - updc. eauto.
    - updc. eauto.
    - updc. eauto.
    - unfold upd in H. destruct (N.eqb_spec c0 c); [injection H; intros; subst; cbn; lia|eauto].
    - unfold upd in H. destruct (N.eqb_spec c0 c); [injection H; intros; subst; contradiction|].
      destruct (k_online0 _ _ _ _ H H0) as (i' & X). exists i'. rewrite upd_ne; auto. intros ->. rewrite X in W. inversion W; congruence.
    - unfold upd in H. destruct (N.eqb_spec k j); [discriminate|]. destruct (k_reply0 _ _ _ _ H) as (o & X). exists o. rewrite upd_ne; auto.
      intros ->. rewrite CC in X. inversion X. destruct v, v0; cbn in H1; inversion H1; congruence.
    - apply V5. unfold upd in H. destruct (N.eqb_spec c0 c); [injection H; intros; subst; contradiction|eauto].
    - eapply Forall_impl; [|exact k_tms0]. intros [] H; cbn in *; intuition auto.
  Qed.

  Lemma core_hand c v j k i i' : cv c = Some ([online_msg v j], true) -> rl k = Some (Owns v i c false) -> rl j = Some (Waits true v i' c) ->
    i' = i /\ core r n (upd cv c (Some ([], true))) (upd (upd rl k None) j (Some (Owns v i' c false))) tms.
  Proof.
    intros CC W Wj.
    assert (i' = i) as ->. { destruct (k_reg _ _ _ _ _ K _ _ _ _ W) as (o & E). destruct (k_wait _ _ _ _ _ K _ _ _ _ _ Wj) as [_ X]. symmetry. eauto. }
    split; auto. assert (JK : j <> k) by congruence.
    assert (V5 : forall c', v5only rl c' -> v5only (upd (upd rl k None) j (Some (Owns v i c false))) c').
    { intros c' V k' v' i' d' H. unfold upd in H. destruct (N.eqb_spec k' j).
      - injection H; intros; subst. eapply V; eauto.
      - destruct (N.eqb_spec k' k); [discriminate|]. eauto. }
    assert (BACK : forall k' v' i' c' d', upd (upd rl k None) j (Some (Owns v i c false)) k' = Some (Owns v' i' c' d') ->
              (k' = j /\ v' = v /\ i' = i /\ c' = c /\ d' = false) \/ (k' <> j /\ k' <> k /\ c' <> c /\ rl k' = Some (Owns v' i' c' d'))).
    { intros k' v' i' c' d' H. unfold upd in H. destruct (N.eqb_spec k' j); [injection H; intros; subst; auto 6|].
      destruct (N.eqb_spec k' k); [discriminate|]. right. repeat split; auto. intros ->. apply n1. eapply (k_one _ _ _ _ _ K); eauto. }
    assert (BW : forall k' s' v' i' c', upd (upd rl k None) j (Some (Owns v i c false)) k' = Some (Waits s' v' i' c') -> k' <> j /\ rl k' = Some (Waits s' v' i' c')).
    { intros k' s' v' i' c' H. unfold upd in H. destruct (N.eqb_spec k' j); [discriminate|]. destruct (N.eqb_spec k' k); [discriminate|auto]. }
    destruct K. constructor; auto; intros.
    - unfold upd in H. destruct (N.eqb_spec k0 j); [subst; eauto|]. destruct (N.eqb_spec k0 k); [discriminate|eauto].
    - unfold upd. destruct (N.eqb_spec c0 c); [subst|apply k_chan0]. split; [intros _|discriminate]. apply k_chan0. congruence.
    - destruct (BACK _ _ _ _ _ H) as [(->&->&->&->&->)|(?&?&?&?)], (BACK _ _ _ _ _ H0) as [(->&?&?&?&?)|(?&?&?&?)]; try congruence. eauto.
    - destruct (BACK _ _ _ _ _ H) as [(->&->&->&->&->)|(?&?&?&?)]; eauto.
    - unfold upd in H. destruct (N.eqb_spec c0 c).
      + injection H; intros; subst. split; auto. intros _. exists j, v, i, false. apply upd_eq.
      + rewrite (k_open0 _ _ _ H). split; intros (k' & v' & i' & d' & X).
        * exists k', v', i', d'. rewrite !upd_ne; auto; congruence.
        * destruct (BACK _ _ _ _ _ X) as [(->&->&->&->&->)|(?&?&?&?)]; [congruence|eauto 6].
    - destruct (BACK _ _ _ _ _ H) as [(->&->&->&->&_)|(?&?&?&?)]; eauto.
    - destruct (BACK _ _ _ _ _ H) as [(->&->&->&->&X)|(?&?&?&?)]; [discriminate|eauto].
    - destruct (BW _ _ _ _ _ H). eauto.
    - unfold upd in H. destruct (N.eqb_spec c0 c); [injection H; intros; subst; cbn; lia|eauto].
    - unfold upd in H. destruct (N.eqb_spec c0 c); [injection H; intros; subst; contradiction|].
      destruct (k_online0 _ _ _ _ H H0) as (i2 & X). exists i2. rewrite !upd_ne; auto; try congruence.
    - destruct (BW _ _ _ _ _ H) as [NJ X]. destruct (k_reply0 _ _ _ _ X) as (o & Y). exists o. rewrite upd_ne; auto.
      intros ->. rewrite CC in Y. inversion Y. destruct v, v0; cbn in H1; inversion H1; congruence.
    - apply V5. unfold upd in H. destruct (N.eqb_spec c0 c); [injection H; intros; subst; contradiction|eauto].
    - eapply Forall_impl; [|exact k_tms0]. intros [] H; cbn in *; intuition auto.
  Qed.

  (** The client is taken out of the registry. *)
  Lemma core_remove k v i c r' : rl k = Some (Owns v i c false) -> reg_remove c r = Some r' ->
    core r' n cv (upd rl k (Some (Owns v i c true))) tms.
  Proof.
    intros W RR. destruct (k_reg _ _ _ _ _ K _ _ _ _ W) as (o & E). unfold reg_remove in RR. rewrite E in RR.
    destruct (o && _); [discriminate|]. injection RR; intros <-. clear RR.
    assert (ID : aget i (r_idents r) = Some c) by (apply (k_inv _ _ _ _ _ K); eauto).
    assert (V5 : forall c', v5only rl c' -> v5only (upd rl k (Some (Owns v i c true))) c').
    { intros c' V k' v' i' d' H. unfold upd in H. destruct (N.eqb_spec k' k); [injection H; intros; subst|]; eauto. }
    assert (BACK : forall k' v' i' c' d', upd rl k (Some (Owns v i c true)) k' = Some (Owns v' i' c' d') ->
              (k' = k /\ v' = v /\ i' = i /\ c' = c /\ d' = true) \/ (k' <> k /\ c' <> c /\ rl k' = Some (Owns v' i' c' d'))).
    { intros k' v' i' c' d' H. unfold upd in H. destruct (N.eqb_spec k' k); [injection H; intros; subst; auto 6|].
      right. repeat split; auto. intros ->. apply n0. eapply (k_one _ _ _ _ _ K); eauto. }
    assert (GD : forall c', aget c' (adel c (r_ids r)) = if c' =? c then None else aget c' (r_ids r)).
    { intros c'. destruct (N.eqb_spec c' c) as [->|]; [apply aget_adel_eq, (k_idsnd _ _ _ _ _ K)|apply aget_adel_ne; auto]. }
    destruct K. constructor; cbn [r_next r_online r_ids r_idents r_clients]; auto; intros.
    - apply NoDup_adel; auto.
    - apply NoDup_adel; auto.
    - rewrite GD. destruct (N.eqb_spec c0 c) as [->|Hc].
      + split; [|intros (? & ?); discriminate]. intros X. exfalso. destruct (eqb_spec i0 i) as [->|Hi].
        * rewrite aget_adel_eq in X; [discriminate|auto].
        * rewrite aget_adel_ne in X by auto. apply k_inv0 in X. destruct X as (o' & X). congruence.
      + destruct (eqb_spec i0 i) as [->|Hi].
        * rewrite aget_adel_eq by auto. split; [discriminate|]. intros (o' & X). exfalso.
          assert (Y : aget i (r_idents r) = Some c0) by (apply k_inv0; eauto). congruence.
        * rewrite aget_adel_ne by auto. apply k_inv0.
    - rewrite GD, in_list_iff, in_without, <- in_list_iff, k_cl0. destruct (N.eqb_spec c0 c); split; intuition congruence.
    - rewrite GD in H. destruct (N.eqb_spec c0 c); [congruence|auto].
    - unfold upd in H. destruct (N.eqb_spec k0 k); [subst; eauto|eauto].
    - destruct (BACK _ _ _ _ _ H) as [(->&->&->&->&->)|(?&?&?)], (BACK _ _ _ _ _ H0) as [(->&?&?&?&?)|(?&?&?)]; try congruence. eauto.
    - destruct (BACK _ _ _ _ _ H) as [(->&->&->&->&->)|(?&?&?)]; eauto.
    - rewrite (k_open0 _ _ _ H). split; intros (k' & v' & i' & d' & X).
      + destruct (N.eq_dec k' k) as [->|].
        * exists k, v, i, true. rewrite upd_eq. rewrite X in W. inversion W; subst. reflexivity.
        * exists k', v', i', d'. rewrite upd_ne; auto.
      + destruct (BACK _ _ _ _ _ X) as [(->&->&->&->&->)|(?&?&?)]; eauto 6.
    - destruct (BACK _ _ _ _ _ H) as [(->&->&->&->&X)|(?&?&?)]; [discriminate|]. rewrite GD. destruct (N.eqb_spec c0 c); [congruence|eauto].
    - destruct (BACK _ _ _ _ _ H) as [(->&->&->&->&X)|(?&?&?)]; rewrite GD; [rewrite N.eqb_refl; auto|]. destruct (N.eqb_spec c0 c); [congruence|eauto].
    - unfold upd in H. destruct (N.eqb_spec k0 k); [discriminate|]. destruct (k_wait0 _ _ _ _ _ H) as [L X]. split; auto.
      intros i' o'. rewrite GD. destruct (N.eqb_spec c0 c); [discriminate|eauto].
    - destruct (k_online0 _ _ _ _ H H0) as (i2 & X). exists i2. rewrite upd_ne; auto; congruence.
    - unfold upd in H. destruct (N.eqb_spec k0 k); [discriminate|]. eauto.
    - eauto.
    - eapply Forall_impl; [|exact k_tms0]. intros [] H; cbn in *; intuition auto.
  Qed.
  Lemma core_remove_dropped k v i c r' : rl k = Some (Owns v i c true) -> reg_remove c r = Some r' -> core r' n cv rl tms.
  Proof.
    intros W RR. pose proof (k_drop _ _ _ _ _ K _ _ _ _ W) as E. unfold reg_remove in RR. rewrite E in RR. injection RR; intros <-.
    assert (NC : ~ In c (r_clients r)). { intros I. apply in_list_iff in I. apply (k_cl _ _ _ _ _ K) in I. congruence. }
    assert (WO : without c (r_clients r) = r_clients r).
    { unfold without. clear -NC. induction (r_clients r) as [|x l IH]; auto. cbn. destruct (N.eqb_spec x c); cbn; [exfalso; apply NC; left; auto|]. f_equal. apply IH. intros I. apply NC. right; auto. }
    rewrite WO. apply core_flags; auto.
  Qed.
  Lemma core_offline c r' : reg_offline c r = Some r' -> core r' n cv rl tms.
  Proof.
    unfold reg_offline. destruct (_ =? 0); [discriminate|]. intros H. injection H; intros <-. apply core_flags; auto; cbn [r_next r_online r_ids r_idents r_clients].
    - destruct (aget c (r_ids r)) as [[i o]|] eqn:E; auto. apply keys_aset_in. apply in_keys_aget. rewrite E; eauto.
    - intros d. destruct (aget c (r_ids r)) as [[i o]|] eqn:E; auto. rewrite aget_aset. change (@eqb client_id _ d c) with (N.eqb d c).
      destruct (N.eqb_spec d c) as [->|]; auto. rewrite E. reflexivity.
  Qed.

  (** A timer's message goes into the control channel. *)
  Lemma core_post c m tms' : cv c = Some ([], true) -> is_online m = false -> (for5 m = true -> v5only rl c) ->
    Forall (timer_ok (r_next r) rl) tms' -> core r n (upd cv c (Some ([m], true))) rl tms'.
  Proof.
    intros CC NM V T. destruct K. constructor; auto; intros.
    - unfold upd. destruct (N.eqb_spec c0 c); [subst|apply k_chan0]. split; [intros _|discriminate]. apply k_chan0. congruence.
    - unfold upd in H. destruct (N.eqb_spec c0 c); [injection H; intros; subst; eauto|eauto].
    - unfold upd in H. destruct (N.eqb_spec c0 c); [injection H; intros; subst; cbn; lia|eauto].
    - unfold upd in H. destruct (N.eqb_spec c0 c); [injection H; intros; subst|eauto]. destruct H0 as [->|[]]. destruct v; discriminate.
    - destruct (k_reply0 _ _ _ _ H) as (o' & X). exists o'. rewrite upd_ne; auto. intros ->. rewrite CC in X. inversion X.
    - unfold upd in H. destruct (N.eqb_spec c0 c); [injection H; intros; subst|eauto]. destruct H0 as [<-|[]]. auto.
  Qed.
End Core.

Lemma core_new : core reg_new 0 (fun _ => None) (fun _ => None) [].
Proof.
  constructor; cbn [reg_new r_next r_online r_ids r_idents r_clients keys map aget in_list existsb]; try (intros; discriminate); try (intros; congruence).
  - constructor.
  - constructor.
  - intros c i. split; [discriminate|]. intros (o & E). discriminate.
  - intros c. split; [discriminate|congruence].
  - intros c. split; [congruence|lia].
  - constructor.
Qed.
