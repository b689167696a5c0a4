(** Runs of the broker: identifiers and ids, served and dead entries. *)
From Coq Require Import List Bool NArith String Lia.
From Verif Require Import Base BaseLemmas TopicModel MsgModel OutModel RouteModel RetainModel GlobModel Sess5Model Sess3Model ConnModel RegModel BrokerModel
  BrokerSpec FrameProofs CoreProofs BrokerInv TaskMove StepProofs RunProofs.
Import ListNotations.
Local Open Scope N_scope.

Lemma known_iff b i c : inv b -> known b i c <-> exists o, aget c (r_ids (b_reg b)) = Some (i, o).
Proof. intros [K _ _ _]. apply (k_inv _ _ _ _ _ K). Qed.
Lemma known_lt b i c : inv b -> known b i c -> c < r_next (b_reg b).
Proof. intros I H. apply known_iff in H; auto. destruct H as (o & H). eapply (k_lt _ _ _ _ _ (i_core _ I)). rewrite H. discriminate. Qed.
Lemma known_inj b i j c : inv b -> known b i c -> known b j c -> i = j.
Proof. intros I H1 H2. apply known_iff in H1; auto. apply known_iff in H2; auto. destruct H1 as (o & H1), H2 as (o' & H2). congruence. Qed.

(** ** The registry operations *)
Lemma reg_add_next i r : r_next r <= r_next (fst (reg_add i r)).
Proof. unfold reg_add. destruct (aget i (r_idents r)); cbn; lia. Qed.
Lemma reg_add_known i r j c : aget j (r_idents (fst (reg_add i r))) = Some c ->
  aget j (r_idents r) = Some c \/ (j = i /\ aget i (r_idents r) = None /\ c = r_next r).
Proof.
  unfold reg_add. destruct (aget i (r_idents r)) eqn:E; cbn; auto. rewrite aget_aset. destruct (eqb_spec j i) as [->|]; auto.
  intros H; injection H; intros; subst. auto.
Qed.
Lemma reg_add_keeps i r j c : aget j (r_idents r) = Some c -> aget j (r_idents (fst (reg_add i r))) = Some c.
Proof.
  unfold reg_add. destruct (aget i (r_idents r)) eqn:E; cbn; auto. rewrite aget_aset. destruct (eqb_spec j i) as [->|]; auto. congruence.
Qed.
Lemma reg_remove_next c r r' : reg_remove c r = Some r' -> r_next r' = r_next r.
Proof. unfold reg_remove. destruct (aget c (r_ids r)) as [[i o]|]; [destruct (_ && _); [discriminate|]|]; intros H; inversion H; reflexivity. Qed.
Lemma reg_offline_next c r r' : reg_offline c r = Some r' -> r_next r' = r_next r /\ r_idents r' = r_idents r /\ r_clients r' = r_clients r.
Proof. unfold reg_offline. destruct (_ =? _); [discriminate|]. intros H; inversion H; auto. Qed.
Lemma reg_remove_known c r r' j d : NoDup (keys (r_idents r)) -> reg_remove c r = Some r' -> aget j (r_idents r') = Some d -> aget j (r_idents r) = Some d.
Proof.
  intros ND. unfold reg_remove. destruct (aget c (r_ids r)) as [[i o]|]; [destruct (_ && _); [discriminate|]|]; intros H; inversion H; subst; cbn; auto.
  rewrite aget_adel by auto. destruct (eqb j i); [discriminate|auto].
Qed.
Lemma reg_remove_keeps c r r' j d : NoDup (keys (r_idents r)) -> reg_remove c r = Some r' -> aget j (r_idents r) = Some d ->
  (forall o, aget c (r_ids r) <> Some (j, o)) -> aget j (r_idents r') = Some d.
Proof.
  intros ND. unfold reg_remove. destruct (aget c (r_ids r)) as [[i o]|]; [destruct (_ && _); [discriminate|]|]; intros H; inversion H; subst; cbn; auto.
  intros A B. rewrite aget_adel by auto. destruct (eqb_spec j i) as [->|]; auto. exfalso. eapply B; eauto.
Qed.
Lemma reg_remove_gone c r r' i : NoDup (keys (r_idents r)) -> (forall c i, aget i (r_idents r) = Some c <-> exists o, aget c (r_ids r) = Some (i, o)) ->
  reg_remove c r = Some r' -> aget i (r_idents r') <> Some c.
Proof.
  intros ND INV. unfold reg_remove. destruct (aget c (r_ids r)) as [[i0 o]|] eqn:E; [destruct (_ && _); [discriminate|]|]; intros H; inversion H; subst; cbn.
  - rewrite aget_adel by auto. destruct (eqb_spec i i0) as [->|NE]; [discriminate|]. intros A. apply INV in A. destruct A as (o' & A). congruence.
  - intros A. apply INV in A. destruct A as (o' & A). congruence.
Qed.

(** What a step does to the registry. *)
Inductive rmove (b : broker) (e : bev) (b' : broker) : Prop :=
| rm_same : b_reg b' = b_reg b -> rmove b e b'
| rm_add x : connecting b e x -> b_reg b' = fst (reg_add (p_ident x) (b_reg b)) -> rmove b e b'
| rm_off k a : e = EDone k -> aget k (b_tasks b) = Some (TDrain a) -> a_ends a = false -> reg_offline (a_id a) (b_reg b) = Some (b_reg b') -> rmove b e b'
| rm_end k a : e = EDone k -> aget k (b_tasks b) = Some (TDrain a) -> a_ends a = true -> reg_remove (a_id a) (b_reg b) = Some (b_reg b') -> rmove b e b'
| rm_expired k a t : e = EControl k -> aget k (b_tasks b) = Some (TOffline a) -> a_v5 a = true -> a_ctime a = Some t ->
    cv b (a_id a) = Some ([CExpired t], true) -> reg_remove (a_id a) (b_reg b) = Some (b_reg b') -> rmove b e b'
| rm_again k a : e = EDone k -> aget k (b_tasks b) = Some (TOffDrain a true) -> reg_remove (a_id a) (b_reg b) = Some (b_reg b') -> rmove b e b'.
Lemma smove_rmove b e b' : smove b e b' -> rmove b e b'.
Proof.
  intros []; try (apply rm_same; assumption); try (apply rm_same; subst; reflexivity).
  - eapply rm_add; eauto.
  - match goal with H : _ \/ _ |- _ => rename H into HX end. destruct HX as [[_ E]|(a & E & [[T A]|T] & R & G)]; [apply rm_same; auto|subst; eapply rm_end; eauto|subst; eapply rm_again; eauto].
  - eapply rm_off; eauto.
  - match goal with H : _ \/ _ |- _ => rename H into HX end. destruct HX as [E|(-> & V & (t & -> & T) & G)]; [apply rm_same; auto|eapply rm_expired; eauto].
Qed.

Lemma akept_facts a a' : akept a a' -> a_ident a' = a_ident a /\ a_v5 a' = a_v5 a /\ a_id a' = a_id a /\ a_ctime a' = a_ctime a /\ a_conn a' = a_conn a.
Proof. destruct a, a'; cbn; try contradiction; intros (?&?&?&?&?); repeat split; auto. Qed.
Lemma aspent_facts a a' : aspent a a' -> a_ident a' = a_ident a /\ a_v5 a' = a_v5 a /\ a_id a' = a_id a /\ a_ctime a' = a_ctime a /\ a_conn a' = a_conn a.
Proof. destruct a, a'; cbn; try contradiction; intros (?&?&?&?&?); repeat split; auto. Qed.

Section Runs.
  Variables (hash5 : wpub5 -> N) (hash3 : wpub3 -> N) (pick : draw -> broker -> string -> string -> N).
  Notation bstep := (bstep hash5 hash3 pick).
  Notation brun := (brun hash5 hash3 pick).
  Notation bgo := (bgo hash5 hash3 pick).

  Lemma step_rmove e b b' out : good b -> bstep e b = BOk b' out -> rmove b e b'.
  Proof. intros [I P] S. eapply smove_rmove, step_smove; eauto. Qed.

  Lemma step_next e b b' out : good b -> bstep e b = BOk b' out -> r_next (b_reg b) <= r_next (b_reg b').
  Proof.
    intros G S. destruct (step_rmove _ _ _ _ G S).
    - rewrite H. lia.
    - rewrite H0. apply reg_add_next.
    - apply reg_offline_next in H2. lia.
    - apply reg_remove_next in H2. lia.
    - apply reg_remove_next in H4. lia.
    - apply reg_remove_next in H1. lia.
  Qed.
  Lemma step_known_back e b b' out i c : good b -> bstep e b = BOk b' out -> c < r_next (b_reg b) -> known b' i c -> known b i c.
  Proof.
    intros G S L H. pose proof (k_idnd _ _ _ _ _ (i_core _ (proj1 G))) as ND. unfold known in *. destruct (step_rmove _ _ _ _ G S).
    - congruence.
    - rewrite H1 in H. apply reg_add_known in H. destruct H as [|(_ & _ & H)]; auto. subst. lia.
    - apply reg_offline_next in H3. destruct H3 as (_ & E & _). congruence.
    - eapply reg_remove_known; eauto.
    - eapply reg_remove_known; eauto.
    - eapply reg_remove_known; eauto.
  Qed.
  Lemma go_next b h b' : good b -> bgo b h b' -> r_next (b_reg b) <= r_next (b_reg b').
  Proof.
    intros G R. induction R; [lia|]. specialize (IHR G). pose proof (step_next _ _ _ _ (go_good _ _ _ _ _ _ G R) H). lia.
  Qed.
  Lemma go_known_back b h b' i c : good b -> bgo b h b' -> c < r_next (b_reg b) -> known b' i c -> known b i c.
  Proof.
    intros G R L. induction R; auto. intros K. apply IHR; auto. pose proof (go_next _ _ _ G R).
    eapply step_known_back; [|exact H| |exact K]; [exact (go_good _ _ _ _ _ _ G R)|lia].
  Qed.

  (** An id once given belongs to its identifier, and never comes back. *)
  Lemma id_stays b h b' i j c : good b -> bgo b h b' -> known b i c -> known b' j c -> i = j.
  Proof.
    intros G R A B. eapply known_inj; [apply G|exact A|]. eapply go_known_back; eauto. eapply known_lt; [apply G|eauto].
  Qed.
  Lemma id_gone b1 h1 b2 h2 b3 i c : good b1 -> bgo b1 h1 b2 -> bgo b2 h2 b3 -> known b1 i c -> (forall j, ~ known b2 j c) -> forall j, ~ known b3 j c.
  Proof.
    intros G R1 R2 A N0 j B. apply (N0 j). eapply go_known_back; [|exact R2| |exact B].
    - eapply go_good; eauto.
    - pose proof (go_next _ _ _ G R1). pose proof (known_lt _ _ _ (proj1 G) A). lia.
  Qed.

  Lemma connect_no_panic b x t0 : good b -> add_client t0 x b <> BPanic.
  Proof.
    intros [I _]. unfold add_client, reg_add. destruct (aget (p_ident x) (r_idents (b_reg b))) as [c|] eqn:E; [|discriminate].
    assert (IL : in_list c (r_clients (b_reg b)) = true).
    { apply (k_cl _ _ _ _ _ (i_core _ I)). destruct (proj1 (known_iff b (p_ident x) c I) E) as (o & ->). discriminate. }
    rewrite IL. discriminate.
  Qed.

  (** ** Owners *)
  (** A task that serves the channel of [c]. *)
  Definition serves (t : task) (i : string) (c : client_id) : Prop := exists v d, role_of t = Owns v i c d.
  Lemma open_served b c q : inv b -> cv b c = Some (q, true) -> exists k t i, aget k (b_tasks b) = Some t /\ serves t i c.
  Proof.
    intros I H. destruct (proj1 (k_open _ _ _ _ _ (i_core _ I) _ _ _ H) eq_refl) as (k & v & i & d & E).
    unfold rl in E. destruct (aget k (b_tasks b)) as [t|] eqn:A; [|discriminate]. injection E as E. exists k, t, i. split; auto. exists v, d. auto.
  Qed.

  (** A dead entry stays dead. *)
  Definition dead (b : broker) (i : string) (c : client_id) : Prop := known b i c /\ exists q, cv b c = Some (q, false).
  Lemma dead_not_served b i c k t j : inv b -> dead b i c -> aget k (b_tasks b) = Some t -> ~ serves t j c.
  Proof.
    intros I (K & q & C) A (v & d & R).
    destruct (owner_open _ _ _ _ _ (i_core _ I) k v j c d) as (q' & C'); [rewrite (rl_of _ _ _ A), R; auto|]. congruence.
  Qed.
  Lemma owns_serves t c a : (t = TDrain a \/ t = TOffline a \/ exists s, t = TOffDrain a s) -> a_id a = c -> exists i, serves t i c.
  Proof. intros [->|[->|(s & ->)]] <-; eexists; do 2 eexists; reflexivity. Qed.
  Lemma dead_step e b b' out i c : good b -> bstep e b = BOk b' out -> dead b i c -> dead b' i c.
  Proof.
    intros G S D. pose proof dead_not_served as NS. destruct D as (K & q & C). assert (D : dead b i c) by (split; eauto).
    assert (NR : forall k a t r, aget k (b_tasks b) = Some t -> (t = TDrain a \/ t = TOffline a \/ exists s, t = TOffDrain a s) ->
      reg_remove (a_id a) (b_reg b) = Some r -> aget i (r_idents r) = Some c).
    { intros k a t r A T R. eapply reg_remove_keeps; eauto.
      - apply (k_idnd _ _ _ _ _ (i_core _ (proj1 G))).
      - intros o E. destruct (proj1 (known_iff _ _ _ (proj1 G)) K) as (o' & E').
        assert (a_id a = c). { eapply eq_sym. pose proof (proj2 (known_iff b i (a_id a) (proj1 G)) (ex_intro _ _ E)) as K2. unfold known in *. congruence. }
        destruct (owns_serves t c a T H) as (j & SV). eapply NS; eauto. apply G. }
    split.
    - pose proof (step_rmove _ _ _ _ G S) as M. unfold known in *. destruct M.
      + congruence.
      + rewrite H0. apply reg_add_keeps. auto.
      + apply reg_offline_next in H2. destruct H2 as (_ & E & _). congruence.
      + eapply NR; eauto.
      + eapply NR; eauto.
      + eapply NR; eauto 6.
    - destruct (step_smove _ _ _ _ _ _ _ (proj1 G) (proj2 G) S).
      + rewrite H1. eauto.
      + subst. eauto.
      + rewrite H2. destruct (aget _ _); eauto. unfold upd. destruct (N.eqb_spec c (r_next (b_reg b))); eauto. pose proof (known_lt _ _ _ (proj1 G) K). lia.
      + rewrite H4. unfold upd. destruct (N.eqb_spec c c0); eauto. subst. congruence.
      + rewrite H2. eauto.
      + rewrite H4. unfold upd. destruct (N.eqb_spec c c0); eauto.
      + rewrite H6. eauto.
      + rewrite H6. eauto.
      + rewrite H4. eauto.
      + rewrite H3. eauto.
      + rewrite H4. unfold upd. destruct (N.eqb_spec c (a_id a)); eauto. subst. congruence.
      + destruct i0.
        * destruct H5 as (_ & E & _). rewrite E. eauto.
        * destruct H5 as (_ & E & _). rewrite E. eauto.
        * destruct H5 as (_ & E & _). rewrite E. eauto.
        * destruct H5 as (_ & [(_ & E)|(E1 & E2)]); [rewrite E; eauto|]. rewrite E2. unfold upd. destruct (N.eqb_spec c c0); eauto. subst. congruence.
  Qed.
  Lemma dead_go b h b' i c : good b -> bgo b h b' -> dead b i c -> dead b' i c.
  Proof.
    intros G R D. induction R as [|b0 h b e b' out R IH S]; auto. eapply dead_step; [exact (go_good _ _ _ _ _ _ G R)|exact S|]. auto.
  Qed.
  Lemma sess_known b k t a : inv b -> aget k (b_tasks b) = Some t -> t_sess t = Some a -> (forall a, t <> TOffDrain a true) -> known b (a_ident a) (a_id a).
  Proof.
    intros I A T N0. apply known_iff; auto. assert (R : exists v, role_of t = Owns v (a_ident a) (a_id a) false).
    { destruct t as [| | | | | | | |a0 []]; cbn in T; try discriminate; injection T; intros; subst; try (exfalso; eapply N0; reflexivity); eexists; reflexivity. }
    destruct R as (v & R). eapply (k_reg _ _ _ _ _ (i_core _ I) k). rewrite (rl_of _ _ _ A), R. reflexivity.
  Qed.
  Lemma dead_nobody b i c k t a : inv b -> dead b i c -> aget k (b_tasks b) = Some t -> t_sess t = Some a -> (forall a, t <> TOffDrain a true) -> a_ident a <> i.
  Proof.
    intros I D A T N0 E. pose proof (sess_known _ _ _ _ I A T N0) as K. rewrite E in K. destruct D as (K' & CV).
    assert (EC : a_id a = c) by (unfold known in *; congruence). apply (dead_not_served b i c k t (a_ident a)); auto.
    - split; auto.
    - rewrite <- EC. destruct t; cbn in T; try discriminate; injection T; intros; subst; do 2 eexists; cbn; try reflexivity.
  Qed.

  (** Connections of one identifier exclude each other. *)
  Lemma one_session b k1 k2 t1 t2 a1 a2 : inv b -> aget k1 (b_tasks b) = Some t1 -> aget k2 (b_tasks b) = Some t2 -> t_sess t1 = Some a1 -> t_sess t2 = Some a2 ->
    (forall a, t1 <> TOffDrain a true) -> (forall a, t2 <> TOffDrain a true) -> a_ident a1 = a_ident a2 -> k1 = k2.
  Proof.
    intros I A1 A2 T1 T2 N1 N2 E. pose proof (sess_known _ _ _ _ I A1 T1 N1) as K1. pose proof (sess_known _ _ _ _ I A2 T2 N2) as K2.
    assert (a_id a1 = a_id a2) by (unfold known in *; congruence).
    assert (R1 : exists v d, role_of t1 = Owns v (a_ident a1) (a_id a1) d).
    { destruct t1; cbn in T1; try discriminate; injection T1; intros; subst; do 2 eexists; reflexivity. }
    assert (R2 : exists v d, role_of t2 = Owns v (a_ident a2) (a_id a2) d).
    { destruct t2; cbn in T2; try discriminate; injection T2; intros; subst; do 2 eexists; reflexivity. }
    destruct R1 as (v1 & d1 & R1), R2 as (v2 & d2 & R2).
    eapply (k_one _ _ _ _ _ (i_core _ I) k1 k2 v1 v2 _ _ (a_id a1) d1 d2); [rewrite (rl_of _ _ _ A1), R1|rewrite (rl_of _ _ _ A2), R2, H]; reflexivity.
  Qed.

  (** ** Served unless somebody gave up *)
  Lemma served_or_dead b i c : inv b -> known b i c -> dead b i c \/ exists k t, aget k (b_tasks b) = Some t /\ serves t i c.
  Proof.
    intros I K. pose proof (known_lt _ _ _ I K) as L. apply (k_chan _ _ _ _ _ (i_core _ I)) in L. destruct (cv b c) as [[q []]|] eqn:C; [|left; split; eauto|congruence].
    right. destruct (open_served _ _ _ I C) as (k & t & j & A & SV). exists k, t. split; auto. pose proof SV as (v & d & R).
    assert (j = i); [|subst; auto]. destruct d.
    - pose proof (k_drop _ _ _ _ _ (i_core _ I) k v j c) as D. rewrite (rl_of _ _ _ A), R in D. apply known_iff in K; auto. destruct K as (o & K). rewrite D in K; auto. discriminate.
    - destruct (k_reg _ _ _ _ _ (i_core _ I) k v j c) as (o & E); [rewrite (rl_of _ _ _ A), R; auto|]. apply known_iff in K; auto. destruct K as (o' & K). congruence.
  Qed.
  (** A receiver dropped while the entry stays is seen from outside. *)
  Lemma give_seen e b b' out i c q q' : good b -> bstep e b = BOk b' out -> cv b c = Some (q, true) -> cv b' c = Some (q', false) -> known b' i c -> gave_up i (Past b e out).
  Proof.
    intros G S C C' K. pose proof (step_smove _ _ _ _ _ _ _ (proj1 G) (proj2 G) S) as M.
    assert (X : exists k t v j d, aget k (b_tasks b) = Some t /\ role_of t = Owns v j c d /\
      (((exists x r, t = TJoin x r) \/ (exists a, t = TReady a \/ t = TEnd a)) /\ b_reg b' = b_reg b \/
      (exists a, e = EDone k /\ (t = TDrain a /\ a_ends a = true \/ t = TOffDrain a true) /\ a_id a = c /\ reg_remove (a_id a) (b_reg b) = Some (b_reg b')))).
    { assert (ND : forall q0, cv b' c <> Some (q0, true)) by (intros; congruence).
      assert (NS : cv b' c <> cv b c) by congruence.
      destruct M; try (exfalso; apply NS; auto; fail).
      - exfalso. subst. apply NS. reflexivity.
      - exfalso. rewrite H2 in NS. destruct (aget _ _); [congruence|]. unfold upd in NS. destruct (N.eqb_spec c (r_next (b_reg b))); [|congruence].
        subst. assert (X : cv b (r_next (b_reg b)) <> None) by congruence. apply (k_chan _ _ _ _ _ (i_core _ (proj1 G))) in X. lia.
      - exfalso. revert C'. rewrite H4. unfold upd. destruct (c =? c0); congruence.
      - match goal with H : forall d, cv b' d = upd _ _ _ _ |- _ => rewrite H in NS; unfold upd in NS end. destruct (N.eqb_spec c c0); [|congruence]. subst. do 5 eexists. split; [|split]; eauto.
      - exfalso. revert C'. rewrite H4. unfold upd. destruct (c =? a_id a); congruence.
      - exfalso. destruct i0.
        + destruct H5 as (_ & E & _). congruence.
        + destruct H5 as (_ & E & _). congruence.
        + destruct H5 as (_ & E & _). congruence.
        + destruct H5 as (_ & [(_ & E)|(E1 & E2)]); [congruence|]. revert C'. rewrite E2. unfold upd. destruct (c =? c0); congruence. }
    destruct X as (k & t & v & j & d & A & R & [(T & RG)|(a & E & T & AI & RR)]).
    2:{ exfalso. subst c. eapply reg_remove_gone; [| |exact RR|exact K]; [apply (k_idnd _ _ _ _ _ (i_core _ (proj1 G)))|apply (k_inv _ _ _ _ _ (i_core _ (proj1 G)))]. }
    assert (DF : d = false) by (destruct T as [(x & r & ->)|(a & [->| ->])]; inversion R; auto). subst d.
    assert (j = i).
    { destruct (k_reg _ _ _ _ _ (i_core _ (proj1 G)) k v j c) as (o & E); [rewrite (rl_of _ _ _ A), R; auto|].
      rewrite RG in K || unfold known in K; unfold known in K; rewrite RG in K. apply (k_inv _ _ _ _ _ (i_core _ (proj1 G))) in K. destruct K as (o' & K). congruence. }
    subst j. exists k, t. cbn [w_out w_b]. split; [|split; [auto|destruct T as [(x & r & ->)|(a & [->| ->])]; inversion R; reflexivity]].
    pose proof (step_move _ _ _ _ _ _ _ (proj1 G) S k) as M2. pose proof (good_step _ _ _ _ _ _ _ G S) as G'.
    assert (NO : forall t', aget k (b_tasks b') = Some t' -> forall v' d', role_of t' <> Owns v' i c d').
    { intros t' A' v' d' R'. destruct (owner_open _ _ _ _ _ (i_core _ (proj1 G')) k v' i c d') as (q2 & C2); [rewrite (rl_of _ _ _ A'), R'; auto|]. congruence. }
    rewrite A in M2. destruct (aget k (b_tasks b')) as [t'|] eqn:A'.
    - exfalso. specialize (NO t' eq_refl). destruct T as [(x & r & ->)|(a & [->| ->])]; inversion M2; subst; try (eapply NO; eauto; fail).
      + pose proof (proj2 G _ _ A) as PO. destruct (joined_facts _ _ _ _ _ _ PO ltac:(eassumption)) as (J1 & J2 & J3 & _). inversion R; subst. eapply NO. cbn. rewrite J1, J2, J3. reflexivity.
      + match goal with H : akept _ _ |- _ => destruct (akept_facts _ _ H) as (J1 & J2 & J3 & _) end. inversion R; subst. eapply NO. cbn. rewrite J1, J2, J3. reflexivity.
      + match goal with H : aspent _ _ |- _ => destruct (aspent_facts _ _ H) as (J1 & J2 & J3 & _) end. inversion R; subst. eapply NO. cbn. rewrite J1, J2, J3. reflexivity.
    - destruct T as [(x & r & ->)|(a & [->| ->])]; inversion M2; subst; auto; match goal with H : (if ?o then _ else _) = _ |- _ => destruct o; discriminate end.
  Qed.
  Lemma run_served c h b i cid : brun c h b -> known b i cid -> (forall p, In p h -> ~ gave_up i p) -> exists k t, aget k (b_tasks b) = Some t /\ in_charge t i /\ serves t i cid.
  Proof.
    intros R K NG. destruct (served_or_dead b i cid (proj1 (run_good _ _ _ _ _ _ R)) K) as [D|(k & t & A & v & d & RO)].
    2:{ exists k, t. split; [auto|split; [|exists v, d; auto]]. pose proof (proj1 (run_good _ _ _ _ _ _ R)) as I.
        destruct d; [|destruct t as [| | | | | | | |a0 []]; inversion RO; reflexivity].
        pose proof (k_drop _ _ _ _ _ (i_core _ I) k v i cid) as D. rewrite (rl_of _ _ _ A), RO in D. apply known_iff in K; auto. destruct K as (o & K). rewrite D in K; auto. discriminate. }
    exfalso. clear K.
    induction R as [|h b e b' out R IH S]; [destruct D as (K & _); discriminate|].
    pose proof (run_good _ _ _ _ _ _ R) as G. destruct D as (K & q & C).
    destruct (N.lt_ge_cases cid (r_next (b_reg b))) as [L|L].
    - pose proof (step_known_back _ _ _ _ _ _ G S L K) as K0. destruct (served_or_dead b i cid (proj1 G) K0) as [D|(k & t & A & v & d & RO)].
      + apply IH; auto. intros p I. apply NG. right. auto.
      + destruct (owner_open _ _ _ _ _ (i_core _ (proj1 G)) k v i cid d) as (q0 & C0); [rewrite (rl_of _ _ _ A), RO; auto|].
        apply (NG (Past b e out)); [left; auto|]. eapply give_seen; eauto.
    - assert (C0 : cv b cid = None).
      { destruct (cv b cid) eqn:E; auto. assert (X : cv b cid <> None) by congruence. apply (k_chan _ _ _ _ _ (i_core _ (proj1 G))) in X. lia. }
      destruct (step_smove _ _ _ _ _ _ _ (proj1 G) (proj2 G) S).
      + congruence.
      + subst. unfold cv in *. cbn in C. congruence.
      + rewrite H2 in C. destruct (aget _ _); [congruence|]. unfold upd in C. destruct (cid =? _); congruence.
      + rewrite H4 in C. unfold upd in C. destruct (cid =? c0); congruence.
      + congruence.
      + rewrite H4 in C. unfold upd in C. destruct (N.eqb_spec cid c0); congruence.
      + congruence.
      + congruence.
      + congruence.
      + congruence.
      + rewrite H4 in C. unfold upd in C. destruct (cid =? a_id a); congruence.
      + destruct i0.
        * destruct H5 as (_ & E & _). congruence.
        * destruct H5 as (_ & E & _). congruence.
        * destruct H5 as (_ & E & _). congruence.
        * destruct H5 as (_ & [(_ & E)|(E1 & E2)]); [congruence|]. rewrite E2 in C. unfold upd in C. destruct (cid =? c0); congruence.
  Qed.
End Runs.
