(** Runs of the broker: the gauge of online clients. *)
From Coq Require Import List Bool NArith Arith String Lia.
From Verif Require Import Base BaseLemmas TopicModel MsgModel OutModel RouteModel RetainModel GlobModel Sess5Model Sess3Model ConnModel RegModel BrokerModel
  BrokerSpec FrameProofs CoreProofs BrokerInv TaskMove StepProofs RunProofs RegProofs.
Import ListNotations.

(** ** Sums *)
Fixpoint nsum (n : nat) (f : N -> nat) : nat := match n with O => 0 | S n => nsum n f + f (N.of_nat n) end.
Lemma nsum_le n f g : (forall k, (k < N.of_nat n)%N -> f k <= g k) -> nsum n f <= nsum n g.
Proof. induction n as [|n IH]; cbn; intros H; auto. pose proof (H (N.of_nat n) ltac:(lia)). pose proof (IH ltac:(intros; apply H; lia)). lia. Qed.
Lemma nsum_eq n f g : (forall k, (k < N.of_nat n)%N -> f k = g k) -> nsum n f = nsum n g.
Proof. intros H. apply Nat.le_antisymm; apply nsum_le; intros; rewrite H; auto. Qed.
Lemma nsum_lt n f g j : (forall k, (k < N.of_nat n)%N -> f k <= g k) -> (j < N.of_nat n)%N -> f j < g j -> nsum n f < nsum n g.
Proof.
  induction n as [|n IH]; cbn; intros H L E; [lia|]. pose proof (H (N.of_nat n) ltac:(lia)).
  destruct (N.eq_dec j (N.of_nat n)) as [->|NE].
  - pose proof (nsum_le n f g ltac:(intros; apply H; lia)). lia.
  - pose proof (IH ltac:(intros; apply H; lia) ltac:(lia) E). lia.
Qed.
Lemma nsum_ge n f j : (j < N.of_nat n)%N -> f j <= nsum n f.
Proof. induction n as [|n IH]; cbn; intros L; [lia|]. destruct (N.eq_dec j (N.of_nat n)) as [->|NE]; [lia|]. pose proof (IH ltac:(lia)). lia. Qed.
Lemma nsum_ge2 n f i j : (i < N.of_nat n)%N -> (j < N.of_nat n)%N -> i <> j -> f i + f j <= nsum n f.
Proof.
  induction n as [|n IH]; cbn; intros A B NE; [lia|].
  destruct (N.eq_dec i (N.of_nat n)) as [->|NI]; destruct (N.eq_dec j (N.of_nat n)) as [->|NJ]; try congruence.
  - pose proof (nsum_ge n f j ltac:(lia)). lia.
  - pose proof (nsum_ge n f i ltac:(lia)). lia.
  - pose proof (IH ltac:(lia) ltac:(lia) NE). lia.
Qed.
(** All but one place. *)
Lemma nsum_but n f g j : (j < N.of_nat n)%N -> (forall k, k <> j -> f k = g k) -> nsum n f + g j = nsum n g + f j.
Proof.
  induction n as [|n IH]; cbn; intros L H; [lia|]. destruct (N.eq_dec j (N.of_nat n)) as [->|NE].
  - rewrite (nsum_eq n f g) by (intros; apply H; lia). lia.
  - rewrite (H (N.of_nat n)) by lia. pose proof (IH ltac:(lia) H). lia.
Qed.
Lemma nsum_0 n f : (forall k, f k = 0) -> nsum n f = 0.
Proof. intros H. induction n as [|n IH]; cbn; auto. rewrite IH, H. auto. Qed.

(** A sum over an association list. *)
Definition lsum {K V} (w : K -> V -> nat) (l : list (K * V)) : nat := list_sum (map (fun e => w (fst e) (snd e)) l).
Lemma lsum_le {K V} (w w' : K -> V -> nat) l : (forall k v, In (k, v) l -> w k v <= w' k v) -> lsum w l <= lsum w' l.
Proof.
  unfold lsum. induction l as [|[k v] l IH]; intros H; auto. change (w k v + list_sum (map (fun e => w (fst e) (snd e)) l) <= w' k v + list_sum (map (fun e => w' (fst e) (snd e)) l)).
  pose proof (H k v (or_introl eq_refl)). pose proof (IH ltac:(intros; apply H; right; auto)). lia.
Qed.
Lemma lsum_eq {K V} (w w' : K -> V -> nat) l : (forall k v, In (k, v) l -> w k v = w' k v) -> lsum w l = lsum w' l.
Proof. intros H. apply Nat.le_antisymm; apply lsum_le; intros; rewrite H; auto. Qed.
Lemma lsum_cons {K V} (w : K -> V -> nat) k v l : lsum w ((k, v) :: l) = w k v + lsum w l. Proof. reflexivity. Qed.
Lemma lsum_aset {V} (w : N -> V -> nat) c v (l : list (N * V)) :
  lsum w (aset c v l) + match aget c l with Some v0 => w c v0 | None => 0 end = lsum w l + w c v.
Proof.
  induction l as [|[d x] l IH]; [cbn; lia|]. cbn [aset aget]. change (@eqb N _ c d) with (N.eqb c d). change (@eqb N _ d c) with (N.eqb d c).
  rewrite ?(N.eqb_sym d c). destruct (N.eqb_spec c d) as [->|NE]; rewrite !lsum_cons; lia.
Qed.
Lemma lsum_adel {V} (w : N -> V -> nat) c (l : list (N * V)) : NoDup (keys l) ->
  lsum w (adel c l) + match aget c l with Some v0 => w c v0 | None => 0 end = lsum w l.
Proof.
  induction l as [|[d x] l IH]; [cbn; lia|]. intros ND. inversion ND; subst. cbn [adel aget]. change (@eqb N _ c d) with (N.eqb c d).
  destruct (N.eqb_spec c d) as [->|NE]; rewrite !lsum_cons; [lia|]. specialize (IH ltac:(assumption)). lia.
Qed.

(** ** Who counts for a client: connections that were announced and did not go offline. *)
Definition acts (c : client_id) (t : task) : bool :=
  match t with
  | TSend _ d | TReply _ d => N.eqb d c
  | TJoin _ r => N.eqb (rc_id r) c
  | TReady a | TOnline a | TEnd a | TDrain a => N.eqb (a_id a) c
  | TOffline _ | TOffDrain _ _ => false
  end.
Definition ind (b : broker) (c : client_id) (k : N) : nat := match aget k (b_tasks b) with Some t => Nat.b2n (acts c t) | None => 0 end.
Definition act (b : broker) (c : client_id) : nat := nsum (N.to_nat (b_conns b)) (ind b c).
Definition load (b : broker) : nat := lsum (fun c v => Nat.max (Nat.b2n (snd v)) (act b c)) (r_ids (b_reg b)).

Lemma ind_le b c k : ind b c k <= 1.
Proof. unfold ind. destruct (aget k (b_tasks b)) as [t|]; auto. destruct (acts c t); auto. Qed.
Lemma ind_1 b c k : ind b c k = 1 <-> exists t, aget k (b_tasks b) = Some t /\ acts c t = true.
Proof.
  unfold ind. destruct (aget k (b_tasks b)) as [t|].
  - split; [intros H; exists t; destruct (acts c t); auto; discriminate|intros (t' & E & A); injection E; intros; subst; rewrite A; auto].
  - split; [discriminate|intros (t & E & _); discriminate].
Qed.
Lemma given_id b on a r : given b on a r -> rc_id r = a_id a.
Proof.
  destruct a as [s|s]; cbn.
  - intros ->. reflexivity.
  - destruct on; [intros ->; reflexivity|]. intros (ch & _ & ->). cbn. apply v3_take_facts.
Qed.

Section Runs.
  Variables (hash5 : wpub5 -> N) (hash3 : wpub3 -> N) (pick : draw -> broker -> string -> string -> N).
  Notation bstep := (bstep hash5 hash3 pick).
  Notation brun := (brun hash5 hash3 pick).
  Notation bgo := (bgo hash5 hash3 pick).

  (** Only a new connection adds. *)
  Lemma ind_step e b b' out c j : good b -> bstep e b = BOk b' out -> (j < b_conns b)%N ->
    ind b' c j = ind b c j \/
    ind b c j = 1 /\ ind b' c j = 0 /\
    (In (OClosed j) out \/ (exists a, e = EDone j /\ aget j (b_tasks b) = Some (TDrain a) /\ a_id a = c) \/
     exists a i, e = EControl j /\ aget j (b_tasks b) = Some (TOnline a) /\ a_id a = c /\ head_ctl b c (online_msg (a_v5 a) i)).
  Proof.
    intros G S L. pose proof (step_move _ _ _ _ _ _ _ (proj1 G) S j) as M.
    unfold ind. pose proof (proj2 G j) as PO.
    assert (LOST : forall t : task, Nat.b2n (acts c t) = 1 -> acts c t = true) by (intros t; destruct (acts c t); auto; discriminate).
    inversion M; subst; try lia; auto;
      repeat match goal with H : Some _ = aget _ _ |- _ => rewrite <- H in * | H : None = aget _ _ |- _ => rewrite <- H in * end; cbn [acts].
    all: try (match goal with H : akept _ _ |- _ => destruct (akept_facts _ _ H) as (_ & _ & -> & _) end; auto).
    all: try (match goal with H : aspent _ _ |- _ => destruct (aspent_facts _ _ H) as (_ & _ & -> & _) end; auto).
    all: try (match goal with |- context[acts ?d ?t] => destruct (acts d t) eqn:AC; auto; right; auto; fail end).
    - match goal with H : given _ _ _ _ |- _ => rewrite (given_id _ _ _ _ H) end. auto.
    - destruct (joined_facts _ _ _ _ _ _ (PO _ eq_refl) ltac:(eassumption)) as (_ & _ & -> & _). auto.
    - cbn [a_id]. match goal with H : s_id _ = _ |- _ => rewrite H end. auto.
    - cbn [a_id]. match goal with H : z_id _ = _ |- _ => rewrite H end. auto.
    - destruct on; cbn [acts]; auto. destruct (N.eqb_spec (a_id a) c) as [E|]; auto. right. cbn. repeat split; auto. right. right. exists a, i. rewrite E in *. auto.
    - destruct (N.eqb (a_id a) c) eqn:E; auto.
    - destruct (N.eqb_spec (a_id a) c) as [E|]; auto. right. cbn. repeat split; auto. right. left. exists a. auto.
    - destruct (N.eqb_spec (a_id a) c) as [E|]; auto. right. cbn. repeat split; auto. right. left. exists a. auto.
  Qed.

  Lemma ind_le_step e b b' out c j : good b -> bstep e b = BOk b' out -> (j < b_conns b)%N -> ind b' c j <= ind b c j.
  Proof. intros G S L. destruct (ind_step _ _ _ _ c j G S L) as [E|(A & B & _)]; lia. Qed.
  Lemma ind_out b c k : good b -> (b_conns b <= k)%N -> ind b c k = 0.
  Proof. intros G L. unfold ind. destruct (aget k (b_tasks b)) as [t|] eqn:A; auto. pose proof (task_num _ _ _ G A). lia. Qed.
  (** A new connection counts for the client it found. *)
  Definition for_client (b : broker) (x : pre) : client_id := match aget (p_ident x) (r_idents (b_reg b)) with Some c => c | None => r_next (b_reg b) end.
  Lemma act_connect e b b' out x c : good b -> bstep e b = BOk b' out -> connecting b e x -> act b' c = act b c + Nat.b2n (N.eqb (for_client b x) c).
  Proof.
    intros G S CX. pose proof (step_conns _ _ _ _ _ _ _ S) as C.
    assert (C1 : b_conns b' = (b_conns b + 1)%N) by (destruct CX as [(?&?&?&?&E&_)|(?&?&?&E&_)]; subst e; exact C).
    unfold act. rewrite C1. replace (N.to_nat (b_conns b + 1)) with (Datatypes.S (N.to_nat (b_conns b))) by lia. cbn [nsum].
    rewrite (nsum_eq _ (ind b' c) (ind b c)).
    - f_equal. rewrite N2Nat.id. pose proof (step_move _ _ _ _ _ _ _ (proj1 G) S (b_conns b)) as M.
      assert (N0 : aget (b_conns b) (b_tasks b) = None).
      { destruct (aget (b_conns b) (b_tasks b)) as [t|] eqn:A; auto. pose proof (task_num _ _ _ G A). lia. }
      assert (TT : aget (b_conns b) (b_tasks b') = Some (match aget (p_ident x) (r_idents (b_reg b)) with Some c => TSend x c | None => TJoin x (RNew (r_next (b_reg b))) end)).
      { clear M. destruct CX as [(t0&uuid&p&data&E&LE&X)|(t0&uuid&p&E&LE&X)]; subst e; cbn [BrokerModel.bstep] in S;
          (destruct (N.ltb_spec (b_now b) t0); [lia|]); rewrite <- X in S; unfold add_client, reg_add in S;
          destruct (aget (p_ident x) (r_idents (b_reg b))) as [d|].
        - destruct (in_list _ _); [|discriminate]. injection S; intros; subst b'. cbn. rewrite aget_N, N.eqb_refl. auto.
        - injection S; intros; subst b'. cbn. rewrite aget_N, N.eqb_refl. auto.
        - destruct (in_list _ _); [|discriminate]. injection S; intros; subst b'. cbn. rewrite aget_N, N.eqb_refl. auto.
        - injection S; intros; subst b'. cbn. rewrite aget_N, N.eqb_refl. auto. }
      unfold ind, for_client. rewrite TT. destruct (aget (p_ident x) (r_idents (b_reg b))); reflexivity.
    - intros k L. destruct (ind_step _ _ _ _ c k G S ltac:(lia)) as [E|(_ & _ & [I|[(a & E & _)|(a & i & E & _)]])]; auto; exfalso.
      + destruct CX as [(t0&uuid&p&data&E&LE&X)|(t0&uuid&p&E&LE&X)]; subst e; cbn [BrokerModel.bstep] in S;
          (destruct (N.ltb_spec (b_now b) t0); [lia|]); unfold add_client in S; destruct (reg_add _ _) as [r []]; inversion S; subst; destruct I.
      + destruct CX as [(?&?&?&?&?&_)|(?&?&?&?&_)]; congruence.
      + destruct CX as [(?&?&?&?&?&_)|(?&?&?&?&_)]; congruence.
  Qed.
  Lemma act_other e b b' out c : good b -> bstep e b = BOk b' out -> (forall x, ~ connecting b e x) -> b_conns b' = b_conns b /\ act b' c <= act b c.
  Proof.
    intros G S NC. pose proof (step_conns _ _ _ _ _ _ _ S) as C.
    assert (C1 : b_conns b' = b_conns b).
    { destruct e; cbn in C; try lia; exfalso; cbn [BrokerModel.bstep] in S; destruct (N.ltb_spec (b_now b) t0); try discriminate.
      - apply (NC (B5 (connect_conn5 (b_cfg b) uuid t0 p) data)). left. eauto 10.
      - apply (NC (B3 (connect_sess3 (b_cfg b) uuid t0 p))). right. eauto 10. }
    split; auto. unfold act. rewrite C1. apply nsum_le. intros k L. eapply ind_le_step; eauto. lia.
  Qed.

  Lemma lsum_act b b' l : (forall c, act b' c <= act b c) ->
    lsum (fun c (v : string * bool) => Nat.max (Nat.b2n (snd v)) (act b' c)) l <= lsum (fun c v => Nat.max (Nat.b2n (snd v)) (act b c)) l.
  Proof. intros H. apply lsum_le. intros c v _. pose proof (H c). lia. Qed.

  (** The gauge never lags behind. *)
  Lemma load_step e b b' out : good b -> bstep e b = BOk b' out -> load b <= N.to_nat (r_online (b_reg b)) -> load b' <= N.to_nat (r_online (b_reg b')).
  Proof.
    intros G S IH. pose proof (i_core _ (proj1 G)) as K. pose proof (k_idsnd _ _ _ _ _ K) as ND.
    assert (W : forall b0 l c v, lsum (fun c v => Nat.max (Nat.b2n (snd v)) (act b0 c)) (aset c v l) +
        match aget c l with Some v0 => Nat.max (Nat.b2n (snd v0)) (act b0 c) | None => 0 end =
        lsum (fun c v => Nat.max (Nat.b2n (snd v)) (act b0 c)) l + Nat.max (Nat.b2n (@snd string bool v)) (act b0 c)) by (intros; apply (lsum_aset (fun c v => Nat.max (Nat.b2n (snd v)) (act b0 c)))).
    assert (RM : forall a, reg_remove (a_id a) (b_reg b) = Some (b_reg b') -> (forall c, act b' c <= act b c) -> load b' <= N.to_nat (r_online (b_reg b'))).
    { intros a RR LE. unfold reg_remove in RR. unfold load in *. pose proof (lsum_act b b' (r_ids (b_reg b)) LE) as X.
      destruct (aget (a_id a) (r_ids (b_reg b))) as [[i o]|] eqn:E.
      - destruct (o && _)%bool eqn:O; [discriminate|]. injection RR as RR. rewrite <- RR. cbn [r_ids r_online].
        pose proof (lsum_adel (fun c (v : string * bool) => Nat.max (Nat.b2n (snd v)) (act b' c)) (a_id a) (r_ids (b_reg b)) ND) as Y.
        change client_id with N in *. rewrite E in Y. cbn [snd] in Y. destruct o; cbn [Nat.b2n] in Y; lia.
      - injection RR as RR. rewrite <- RR. cbn [r_ids r_online]. lia. }
    destruct (step_rmove _ _ _ _ _ _ _ G S) as [E|x CX E|k a -> A EN RO|k a -> A EN RR|k a t -> A V T C RR|k a -> A RR].
    - assert (NC : forall x, ~ connecting b e x).
      { intros x CX. assert (E1 : b_reg b' = fst (reg_add (p_ident x) (b_reg b))).
        { clear E. destruct CX as [(t0&uuid&p&data&E&LE&X)|(t0&uuid&p&E&LE&X)]; subst e; cbn [BrokerModel.bstep] in S;
          (destruct (N.ltb_spec (b_now b) t0); [lia|]); rewrite <- X in S; unfold add_client in S; destruct (reg_add _ _) as [r []]; inversion S; subst; reflexivity. }
        rewrite E1 in E. apply (f_equal r_online) in E. unfold reg_add in E. destruct (aget _ _); cbn in E; lia. }
      unfold load in *. rewrite E. pose proof (lsum_act b b' (r_ids (b_reg b)) (fun c => proj2 (act_other _ _ _ _ c G S NC))). lia.
    - unfold load in *. rewrite E. unfold reg_add.
      assert (AC : forall c, act b' c = act b c + Nat.b2n (N.eqb (for_client b x) c)) by (intros; eapply act_connect; eauto).
      assert (LS : forall l : list (client_id * (string * bool)), ~ In (for_client b x) (keys l) ->
        lsum (fun c (v : string * bool) => Nat.max (Nat.b2n (snd v)) (act b' c)) l = lsum (fun c v => Nat.max (Nat.b2n (snd v)) (act b c)) l).
      { intros l NI. apply lsum_eq. intros c v I. rewrite AC. destruct (N.eqb_spec (for_client b x) c) as [EQ|]; [|cbn; lia]. exfalso. apply NI. rewrite EQ. apply (in_map fst) in I. auto. }
      unfold for_client in *. destruct (aget (p_ident x) (r_idents (b_reg b))) as [c|] eqn:ID; cbn [fst r_ids r_online].
      + apply (k_inv _ _ _ _ _ K) in ID. destruct ID as (o & ID). rewrite ID.
        pose proof (lsum_adel (fun c (v : string * bool) => Nat.max (Nat.b2n (snd v)) (act b' c)) c (r_ids (b_reg b)) ND) as Y.
        pose proof (lsum_adel (fun c (v : string * bool) => Nat.max (Nat.b2n (snd v)) (act b c)) c (r_ids (b_reg b)) ND) as Z.
        pose proof (W b' (r_ids (b_reg b)) c (p_ident x, true)) as X. change client_id with N in *. rewrite ID in X, Y, Z. cbn [snd Nat.b2n] in X, Y, Z.
        rewrite LS in Y. 2:{ intros I. apply in_keys_aget in I. destruct I as (v & I). rewrite aget_adel_eq in I by auto. discriminate. }
        rewrite (AC c), N.eqb_refl in X, Y. cbn [Nat.b2n] in X, Y. destruct o; cbn [Nat.b2n] in *; lia.
      + assert (NI : aget (r_next (b_reg b)) (r_ids (b_reg b)) = None).
        { destruct (aget (r_next (b_reg b)) (r_ids (b_reg b))) eqn:X; auto. pose proof (k_lt _ _ _ _ _ K (r_next (b_reg b))) as Y. rewrite X in Y. specialize (Y ltac:(discriminate)). lia. }
        pose proof (W b' (r_ids (b_reg b)) (r_next (b_reg b)) (p_ident x, true)) as X. change client_id with N in *. rewrite NI in X. cbn [snd Nat.b2n] in X.
        rewrite (LS (r_ids (b_reg b)) (proj1 (aget_None_notin _ _) NI)) in X. rewrite (AC (r_next (b_reg b))), N.eqb_refl in X. cbn [Nat.b2n] in X.
        assert (A0 : act b (r_next (b_reg b)) = 0).
        { unfold act. apply nsum_0. intros j. unfold ind. destruct (aget j (b_tasks b)) as [t|] eqn:TJ; auto. destruct (acts (r_next (b_reg b)) t) eqn:AT; auto. exfalso.
          pose proof (rl_of _ _ _ TJ) as RL.
          destruct t; cbn in AT, RL; try discriminate; apply N.eqb_eq in AT; subst;
            first [pose proof (proj1 (k_wait _ _ _ _ _ K _ _ _ _ _ RL)); lia|pose proof (k_own _ _ _ _ _ K _ _ _ _ _ RL); lia]. }
        lia.
    - assert (NC : forall x, ~ connecting b (EDone k) x) by (intros x [(?&?&?&?&?&_)|(?&?&?&?&_)]; discriminate).
      assert (LE := fun c => act_other _ _ _ _ c G S NC).
      assert (LT : act b' (a_id a) < act b (a_id a)).
      { unfold act. rewrite (proj1 (LE 0%N)). apply nsum_lt with k.
        - intros j L. eapply ind_le_step; eauto. lia.
        - pose proof (task_num _ _ _ G A). lia.
        - pose proof (step_move _ _ _ _ _ _ _ (proj1 G) S k) as M. rewrite A in M. unfold ind. rewrite A. cbn [acts]. rewrite N.eqb_refl. cbn.
          assert (T : aget k (b_tasks b') = Some (TOffline (a_offline a))).
          { clear M. cbn [BrokerModel.bstep] in S. unfold do_done in S. rewrite A, EN, RO in S. destruct (a_bcast a); [|discriminate].
            destruct a; inversion S; subst; cbn; rewrite aget_N, N.eqb_refl; auto. }
          rewrite T. cbn. lia. }
      unfold load in *. pose proof (lsum_act b b' (r_ids (b_reg b)) (fun c => proj2 (LE c))) as X. unfold reg_offline in RO. destruct (N.eqb_spec (r_online (b_reg b)) 0); [discriminate|].
      injection RO as RO. rewrite <- RO. cbn [r_ids r_online].
      destruct (k_reg _ _ _ _ _ K k (a_v5 a) (a_ident a) (a_id a)) as (o & ID); [rewrite (rl_of _ _ _ A); reflexivity|]. rewrite ID.
      pose proof (W b' (r_ids (b_reg b)) (a_id a) (a_ident a, false)) as Y.
      pose proof (lsum_adel (fun c (v : string * bool) => Nat.max (Nat.b2n (snd v)) (act b' c)) (a_id a) (r_ids (b_reg b)) ND) as Z1.
      pose proof (lsum_adel (fun c (v : string * bool) => Nat.max (Nat.b2n (snd v)) (act b c)) (a_id a) (r_ids (b_reg b)) ND) as Z2.
      pose proof (lsum_act b b' (adel (a_id a) (r_ids (b_reg b))) (fun c => proj2 (LE c))) as X2.
      change client_id with N in *. rewrite ID in Y, Z1, Z2. cbn [snd Nat.b2n] in Y, Z1, Z2. lia.
    - apply (RM a); auto. intros c. eapply act_other; eauto. intros x [(?&?&?&?&?&_)|(?&?&?&?&_)]; discriminate.
    - apply (RM a); auto. intros c. eapply act_other; eauto. intros x [(?&?&?&?&?&_)|(?&?&?&?&_)]; discriminate.
    - apply (RM a); auto. intros c. eapply act_other; eauto. intros x [(?&?&?&?&?&_)|(?&?&?&?&_)]; discriminate.
  Qed.
  Lemma run_load c h b : brun c h b -> load b <= N.to_nat (r_online (b_reg b)).
  Proof. induction 1; [cbn; auto|]. eapply load_step; eauto. eapply run_good; eauto. Qed.

  (** Connected clients. *)
  Definition own_id (kt : N * task) : client_id := match t_sess (snd kt) with Some a => a_id a | None => 0%N end.
  Definition linked (b : broker) : list client_id := map own_id (filter (fun kt => t_connected (snd kt)) (b_tasks b)).
  Lemma connected_owns t : t_connected t = true -> exists a, t_sess t = Some a /\ role_of t = Owns (a_v5 a) (a_ident a) (a_id a) false /\ acts (a_id a) t = true.
  Proof. destruct t; cbn; try discriminate; intros _; exists a; rewrite N.eqb_refl; auto. Qed.
  Lemma linked_nodup b : inv b -> NoDup (linked b).
  Proof.
    intros [K ND _ _]. unfold linked.
    assert (X : forall l, NoDup (keys l) -> (forall kt, In kt l -> In kt (b_tasks b)) -> NoDup (map own_id (filter (fun kt => t_connected (snd kt)) l))).
    { induction l as [|[k t] l IH]; cbn; intros N0 IN; [constructor|]. inversion N0; subst.
      specialize (IH ltac:(assumption) ltac:(auto)). destruct (t_connected t) eqn:C; auto. cbn. constructor; auto.
      intros I. apply in_map_iff in I. destruct I as ([k' t'] & E & I). apply filter_In in I. destruct I as (I & C'). cbn in C'.
      destruct (connected_owns _ C) as (a & S & R & _). destruct (connected_owns _ C') as (a' & S' & R' & _). unfold own_id in E. cbn in E. rewrite S, S' in E.
      assert (k = k').
      { eapply (k_one _ _ _ _ _ K k k' _ _ _ _ (a_id a)); [|rewrite <- E].
        - rewrite (rl_of b k t), R; [reflexivity|]. apply in_aget; auto.
        - rewrite (rl_of b k' t'), R'; [reflexivity|]. apply in_aget; auto. }
      subst k'. apply H1. change k with (fst (k, t')). apply in_map. auto. }
    apply X; auto.
  Qed.
  Lemma active_pos b c k t : good b -> aget k (b_tasks b) = Some t -> acts c t = true -> 1 <= act b c.
  Proof.
    intros G A AC. unfold act. assert (E : ind b c k = 1) by (apply ind_1; eauto). rewrite <- E. apply nsum_ge. pose proof (task_num _ _ _ G A). lia.
  Qed.
  Lemma lsum_pos b (l : list (client_id * (string * bool))) :
    List.length (filter (fun e => 1 <=? act b (fst e)) l) <= lsum (fun c v => Nat.max (Nat.b2n (snd v)) (act b c)) l.
  Proof.
    induction l as [|[c v] l IH]; auto. rewrite lsum_cons. cbn [filter fst]. destruct (Nat.leb_spec 1 (act b c)); cbn [List.length]; lia.
  Qed.
  Lemma count_le_load b : good b -> connected_count b <= load b.
  Proof.
    intros G. unfold connected_count. rewrite <- (map_length own_id). fold (linked b).
    eapply Nat.le_trans; [|apply lsum_pos]. rewrite <- (map_length fst).
    apply NoDup_incl_length; [apply linked_nodup, G|]. intros c I. unfold linked in I. apply in_map_iff in I. destruct I as ([k t] & E & I). apply filter_In in I.
    destruct I as (I & C). destruct (connected_owns _ C) as (a & S & R & AC). unfold own_id in E. cbn in *. rewrite S in E. subst c.
    pose proof (in_aget _ _ _ (i_tnd _ (proj1 G)) I) as A.
    destruct (k_reg _ _ _ _ _ (i_core _ (proj1 G)) k (a_v5 a) (a_ident a) (a_id a)) as (o & ID); [rewrite (rl_of _ _ _ A), R; auto|].
    apply aget_Some_in in ID. apply in_map_iff. exists (a_id a, (a_ident a, o)). split; auto. apply filter_In. split; auto. cbn [fst].
    pose proof (active_pos _ _ _ _ G A AC). destruct (act b (a_id a)); [lia|auto].
  Qed.
  Lemma run_count c h b : brun c h b -> (N.of_nat (connected_count b) <= r_online (b_reg b))%N.
  Proof. intros R. pose proof (run_load _ _ _ R). pose proof (count_le_load _ (run_good _ _ _ _ _ _ R)). lia. Qed.

  (** The assertions of the decrements hold. *)
  Lemma load_entry b c i o : good b -> aget c (r_ids (b_reg b)) = Some (i, o) -> Nat.max (Nat.b2n o) (act b c) <= load b.
  Proof.
    intros G E. unfold load. pose proof (lsum_adel (fun c (v : string * bool) => Nat.max (Nat.b2n (snd v)) (act b c)) c (r_ids (b_reg b)) (k_idsnd _ _ _ _ _ (i_core _ (proj1 G)))) as Y.
    change client_id with N in *. rewrite E in Y. cbn [snd] in Y. lia.
  Qed.
  Lemma remove_ok c h b d : brun c h b -> reg_remove d (b_reg b) <> None.
  Proof.
    intros R. unfold reg_remove. destruct (aget d (r_ids (b_reg b))) as [[i o]|] eqn:E; [|discriminate].
    pose proof (load_entry _ _ _ _ (run_good _ _ _ _ _ _ R) E). pose proof (run_load _ _ _ R). destruct o; cbn [andb]; [|discriminate].
    destruct (N.eqb_spec (r_online (b_reg b)) 0) as [Z|]; [|discriminate]. rewrite Z in *. change (N.to_nat 0) with 0 in *. cbn [Nat.b2n] in *. lia.
  Qed.
  Lemma offline_ok c h b k a : brun c h b -> aget k (b_tasks b) = Some (TDrain a) -> reg_offline (a_id a) (b_reg b) <> None.
  Proof.
    intros R A. unfold reg_offline. destruct (k_reg _ _ _ _ _ (i_core _ (proj1 (run_good _ _ _ _ _ _ R))) k (a_v5 a) (a_ident a) (a_id a)) as (o & E); [rewrite (rl_of _ _ _ A); reflexivity|].
    pose proof (load_entry _ _ _ _ (run_good _ _ _ _ _ _ R) E). pose proof (run_load _ _ _ R).
    assert (1 <= act b (a_id a)) by (eapply active_pos; eauto using run_good; cbn; apply N.eqb_refl).
    destruct (N.eqb_spec (r_online (b_reg b)) 0) as [Z|]; [|discriminate]. rewrite Z in *. change (N.to_nat 0) with 0 in *. cbn [Nat.b2n] in *. lia.
  Qed.

  (** ** Runs in which connections of one identifier do not overlap *)
  Definition exact_gauge (b : broker) : Prop :=
    (forall c i o, aget c (r_ids (b_reg b)) = Some (i, o) -> act b c = Nat.b2n o) /\ load b = N.to_nat (r_online (b_reg b)).

  Lemma acts_ident b k t c i o : good b -> aget k (b_tasks b) = Some t -> acts c t = true -> aget c (r_ids (b_reg b)) = Some (i, o) -> t_ident t = i /\ t_offline t = false.
  Proof.
    intros G A AC E. pose proof (i_core _ (proj1 G)) as K. pose proof (rl_of _ _ _ A) as RL.
    destruct t; cbn in AC, RL; try discriminate; apply N.eqb_eq in AC; subst; split; auto; cbn [t_ident];
      first [symmetry; exact (proj2 (k_wait _ _ _ _ _ K _ _ _ _ _ RL) _ _ E)|destruct (k_reg _ _ _ _ _ K _ _ _ _ RL) as (o' & E'); congruence].
  Qed.
  Lemma idle_act b c i o : good b -> aget c (r_ids (b_reg b)) = Some (i, o) -> (forall k t, aget k (b_tasks b) = Some t -> t_ident t = i -> t_offline t = true) -> act b c = 0.
  Proof.
    intros G E H. unfold act. apply nsum_0. intros k. unfold ind. destruct (aget k (b_tasks b)) as [t|] eqn:A; auto. destruct (acts c t) eqn:AC; auto. exfalso.
    destruct (acts_ident _ _ _ _ _ _ G A AC E) as (TI & TO). pose proof (H _ _ A TI). congruence.
  Qed.
  Lemma done_reg k a b b' out : bstep (EDone k) b = BOk b' out -> aget k (b_tasks b) = Some (TDrain a) ->
    if a_ends a then reg_remove (a_id a) (b_reg b) = Some (b_reg b') /\ aget k (b_tasks b') = aget k (adel k (b_tasks b))
    else reg_offline (a_id a) (b_reg b) = Some (b_reg b') /\ aget k (b_tasks b') = Some (TOffline (a_offline a)).
  Proof.
    intros S A. cbn [BrokerModel.bstep] in S. unfold do_done in S. rewrite A in S. destruct (a_bcast a); [|discriminate]. destruct (a_ends a).
    - destruct (remove_client a b) as [b1|] eqn:RC; [|discriminate]. inversion S; subst. destruct (close_same (a_id a) (end_task k b1)) as (-> & _). cbn. split; [apply remove_reg; auto|].
      rewrite tasks_close. cbn. destruct (remove_tasks _ _ _ RC) as (-> & _). auto.
    - destruct (reg_offline (a_id a) (b_reg b)) as [r|]; [|discriminate]. destruct a; inversion S; subst; cbn; rewrite aget_N, N.eqb_refl; auto.
  Qed.
  Lemma exact_step e b b' out : good b -> calm (Past b e out) -> bstep e b = BOk b' out -> exact_gauge b -> exact_gauge b'.
  Proof.
    intros G [NC QC] S [EX LD]. cbn [w_out w_e w_b] in NC, QC. pose proof (i_core _ (proj1 G)) as K. pose proof (k_idsnd _ _ _ _ _ K) as ND.
    assert (LS : forall b0 (l : list (client_id * (string * bool))), (forall c i o, In (c, (i, o)) l -> act b0 c = Nat.b2n o) ->
      lsum (fun c (v : string * bool) => Nat.max (Nat.b2n (snd v)) (act b0 c)) l = lsum (fun _ v => Nat.b2n (snd v)) l).
    { intros b0 l H. apply lsum_eq. intros c [i o] I. rewrite (H _ _ _ I). cbn. lia. }
    assert (LD2 : lsum (fun _ v => Nat.b2n (snd v)) (r_ids (b_reg b)) = N.to_nat (r_online (b_reg b))).
    { rewrite <- LD. unfold load. symmetry. apply LS. intros c i o I. eapply EX. apply in_aget; eauto. }
    assert (FIN : (forall c i o, aget c (r_ids (b_reg b')) = Some (i, o) -> act b' c = Nat.b2n o) ->
      lsum (fun _ v => Nat.b2n (snd v)) (r_ids (b_reg b')) = N.to_nat (r_online (b_reg b')) -> exact_gauge b').
    { intros H1 H2. split; auto. rewrite <- H2. unfold load. apply LS. intros c i o I. eapply H1. apply in_aget; eauto.
      apply (k_idsnd _ _ _ _ _ (i_core _ (proj1 (good_step _ _ _ _ _ _ _ G S)))). }
    assert (HD : forall c j, (j < b_conns b)%N -> (exists o i, aget c (r_ids (b_reg b)) = Some (i, o)) ->
      ind b' c j = ind b c j \/ ind b c j = 1 /\ ind b' c j = 0 /\ exists a, e = EDone j /\ aget j (b_tasks b) = Some (TDrain a) /\ a_id a = c).
    { intros c j L (o & i0 & E). destruct (ind_step _ _ _ _ c j G S L) as [X|(X1 & X2 & [X|[X|(a & i & -> & A & AI & (ch & q & CH & Q))]])]; auto.
      - exfalso. eapply NC; eauto.
      - exfalso. assert (RO : role_of (TOnline a) = Owns (a_v5 a) (a_ident a) c false) by (cbn; rewrite AI; auto).
        destruct (owner_open _ _ _ _ _ K j (a_v5 a) (a_ident a) c false) as (q' & CV); [rewrite (rl_of _ _ _ A), RO; auto|].
        assert (IQ : In (online_msg (a_v5 a) i) q'). { unfold cv in CV. rewrite CH in CV. cbn in CV. injection CV; intros; subst. rewrite Q. left. auto. }
        destruct (k_online _ _ _ _ _ K _ _ _ _ CV IQ) as (i' & W). unfold rl in W. destruct (aget i (b_tasks b)) as [t|] eqn:TI; [|discriminate]. injection W as W.
        assert (AT : acts c t = true) by (destruct t; cbn in W; inversion W; subst; cbn; apply N.eqb_refl).
        assert (i <> j) by (intros ->; rewrite A in TI; injection TI; intros; subst; discriminate).
        assert (I2 : ind b c i = 1) by (apply ind_1; eauto).
        pose proof (nsum_ge2 (N.to_nat (b_conns b)) (ind b c) i j) as GE. pose proof (task_num _ _ _ G TI). unfold act in *.
        specialize (GE ltac:(lia) ltac:(lia) ltac:(auto)). pose proof (EX _ _ _ E) as X. unfold act in X. destruct o; cbn in X; lia. }
    assert (DEC : (exists k a, e = EDone k /\ aget k (b_tasks b) = Some (TDrain a)) \/ ~ (exists k a, e = EDone k /\ aget k (b_tasks b) = Some (TDrain a))).
    { destruct e; try (right; intros (k' & a' & X & _); discriminate). destruct (aget k (b_tasks b)) as [[]|] eqn:A; try (right; intros (k' & a' & X & Y); injection X; intros; subst; congruence).
      left. eauto. }
    destruct DEC as [(k & a & -> & A)|ND0].
    - pose proof (done_reg _ _ _ _ _ S A) as DR. pose proof (step_conns _ _ _ _ _ _ _ S) as C1. cbn in C1. rewrite N.add_0_r in C1.
      destruct (k_reg _ _ _ _ _ K k (a_v5 a) (a_ident a) (a_id a)) as (o & ID); [rewrite (rl_of _ _ _ A); reflexivity|].
      assert (O1 : o = true).
      { pose proof (EX _ _ _ ID). assert (1 <= act b (a_id a)) by (eapply active_pos; eauto; cbn; apply N.eqb_refl). destruct o; auto. cbn in *. lia. }
      subst o. assert (OTH : forall c i o, c <> a_id a -> aget c (r_ids (b_reg b)) = Some (i, o) -> act b' c = act b c).
      { intros c i o NE E. unfold act. rewrite C1. apply nsum_eq. intros j L. destruct (HD c j ltac:(lia) ltac:(eauto)) as [|(_ & _ & a' & EE & A' & I')]; auto. injection EE as <-. rewrite A in A'. injection A' as <-. congruence. }
      destruct (a_ends a).
      + destruct DR as [RR _]. unfold reg_remove in RR. rewrite ID in RR. destruct (N.eqb_spec (r_online (b_reg b)) 0) as [|NZ]; [discriminate|]. cbn [andb] in RR. injection RR as RR.
        apply FIN; rewrite <- RR; cbn [r_ids r_online].
        * intros c i o E. change client_id with N in *. rewrite adel_N in E by auto. destruct (N.eqb_spec c (a_id a)) as [|NE]; [discriminate|]. rewrite (OTH _ _ _ NE E). eauto.
        * pose proof (lsum_adel (fun _ (v : string * bool) => Nat.b2n (snd v)) (a_id a) (r_ids (b_reg b)) ND) as Y. change client_id with N in *. rewrite ID in Y. cbn [snd Nat.b2n] in Y. lia.
      + destruct DR as [RO TK]. unfold reg_offline in RO. rewrite ID in RO. destruct (N.eqb_spec (r_online (b_reg b)) 0) as [|NZ]; [discriminate|]. injection RO as RO.
        assert (AS : act b' (a_id a) = 0).
        { pose proof (EX _ _ _ ID) as X. cbn in X. unfold act in *. rewrite C1.
          pose proof (nsum_lt (N.to_nat (b_conns b)) (ind b' (a_id a)) (ind b (a_id a)) k) as LT. pose proof (task_num _ _ _ G A).
          assert (ind b (a_id a) k = 1) by (apply ind_1; exists (TDrain a); cbn; rewrite N.eqb_refl; auto).
          assert (ind b' (a_id a) k = 0) by (unfold ind; rewrite TK; reflexivity).
          specialize (LT ltac:(intros; eapply ind_le_step; eauto; lia) ltac:(lia) ltac:(lia)). lia. }
        apply FIN; rewrite <- RO; cbn [r_ids r_online].
        * intros c i o E. change client_id with N in *. rewrite aget_N in E. destruct (N.eqb_spec c (a_id a)) as [->|NE].
          -- injection E; intros; subst. auto.
          -- rewrite (OTH _ _ _ NE E). eauto.
        * pose proof (lsum_aset (fun _ (v : string * bool) => Nat.b2n (snd v)) (a_id a) (a_ident a, false) (r_ids (b_reg b))) as Y. change client_id with N in *. rewrite ID in Y. cbn [snd Nat.b2n] in Y. lia.
    - assert (ONE : forall c i o, aget c (r_ids (b_reg b)) = Some (i, o) -> (forall x, ~ connecting b e x) -> act b' c = act b c).
      { intros c i o E NX. unfold act. rewrite (proj1 (act_other _ _ _ _ c G S NX)). apply nsum_eq. intros j L. destruct (HD c j ltac:(lia) ltac:(eauto)) as [|(_ & _ & a' & EE & A' & I')]; auto. exfalso. eauto. }
      assert (RMX : forall a, (forall x, ~ connecting b e x) -> reg_remove (a_id a) (b_reg b) = Some (b_reg b') -> exact_gauge b').
      { intros a NX RR. unfold reg_remove in RR. destruct (aget (a_id a) (r_ids (b_reg b))) as [[i0 o0]|] eqn:ID.
        - destruct (o0 && _)%bool eqn:O; [discriminate|]. injection RR as RR. apply FIN; rewrite <- RR; cbn [r_ids r_online].
          + intros c i o E. change client_id with N in *. rewrite adel_N in E by auto. destruct (N.eqb_spec c (a_id a)) as [|NE]; [discriminate|]. rewrite (ONE _ _ _ E NX). eauto.
          + pose proof (lsum_adel (fun _ (v : string * bool) => Nat.b2n (snd v)) (a_id a) (r_ids (b_reg b)) ND) as Y. change client_id with N in *. rewrite ID in Y. cbn [snd] in Y.
            destruct o0; cbn [Nat.b2n] in Y; lia.
        - injection RR as RR. apply FIN; rewrite <- RR; cbn [r_ids r_online]; auto. intros c i o E. rewrite (ONE _ _ _ E NX). eauto. }
      destruct (step_rmove _ _ _ _ _ _ _ G S) as [E|x CX E|k a -> A EN RO|k a -> A EN RR|k a t -> A V T C RR|k a -> A RR].
      + assert (NX : forall x, ~ connecting b e x).
        { intros x CX. assert (E1 : b_reg b' = fst (reg_add (p_ident x) (b_reg b))).
          { clear E. destruct CX as [(t0&uuid&p&data&E&LE&X)|(t0&uuid&p&E&LE&X)]; subst e; cbn [BrokerModel.bstep] in S;
            (destruct (N.ltb_spec (b_now b) t0); [lia|]); rewrite <- X in S; unfold add_client in S; destruct (reg_add _ _) as [r []]; inversion S; subst; reflexivity. }
          rewrite E1 in E. apply (f_equal r_online) in E. unfold reg_add in E. destruct (aget _ _); cbn in E; lia. }
        apply FIN; rewrite E; auto. intros c i o EE. rewrite (ONE _ _ _ EE NX). eauto.
      + assert (AC : forall c, act b' c = act b c + Nat.b2n (N.eqb (for_client b x) c)) by (intros; eapply act_connect; eauto).
        pose proof (connecting_asks _ _ _ CX) as AX. unfold for_client in AC. unfold reg_add in E.
        destruct (aget (p_ident x) (r_idents (b_reg b))) as [c|] eqn:ID; cbn [fst] in E.
        * apply (k_inv _ _ _ _ _ K) in ID. destruct ID as (o & ID). rewrite ID in E.
          pose proof (idle_act _ _ _ _ G ID (fun k t => QC _ k t AX)) as Z. pose proof (EX _ _ _ ID) as Z2. rewrite Z in Z2. destruct o; [discriminate|].
          apply FIN; rewrite E; cbn [r_ids r_online].
          -- intros d i o EE. change client_id with N in *. rewrite aget_N in EE. rewrite AC. destruct (N.eqb_spec d c) as [->|NE].
             ++ injection EE; intros; subst. rewrite Z, N.eqb_refl. auto.
             ++ rewrite (proj2 (N.eqb_neq c d)) by auto. cbn. rewrite Nat.add_0_r. eauto.
          -- pose proof (lsum_aset (fun _ (v : string * bool) => Nat.b2n (snd v)) c (p_ident x, true) (r_ids (b_reg b))) as Y. change client_id with N in *. rewrite ID in Y. cbn [snd Nat.b2n] in Y. lia.
        * assert (NI : aget (r_next (b_reg b)) (r_ids (b_reg b)) = None).
          { destruct (aget (r_next (b_reg b)) (r_ids (b_reg b))) eqn:X; auto. pose proof (k_lt _ _ _ _ _ K (r_next (b_reg b))) as Y. rewrite X in Y. specialize (Y ltac:(discriminate)). lia. }
          assert (A0 : act b (r_next (b_reg b)) = 0).
          { unfold act. apply nsum_0. intros j. unfold ind. destruct (aget j (b_tasks b)) as [t|] eqn:TJ; auto. destruct (acts (r_next (b_reg b)) t) eqn:AT; auto. exfalso.
            pose proof (rl_of _ _ _ TJ) as RL.
            destruct t; cbn in AT, RL; try discriminate; apply N.eqb_eq in AT; subst;
              first [pose proof (proj1 (k_wait _ _ _ _ _ K _ _ _ _ _ RL)); lia|pose proof (k_own _ _ _ _ _ K _ _ _ _ _ RL); lia]. }
          apply FIN; rewrite E; cbn [r_ids r_online].
          -- intros d i o EE. change client_id with N in *. rewrite aget_N in EE. rewrite AC. destruct (N.eqb_spec d (r_next (b_reg b))) as [->|NE].
             ++ injection EE; intros; subst. rewrite A0, N.eqb_refl. auto.
             ++ rewrite (proj2 (N.eqb_neq (r_next (b_reg b)) d)) by auto. cbn. rewrite Nat.add_0_r. eauto.
          -- pose proof (lsum_aset (fun _ (v : string * bool) => Nat.b2n (snd v)) (r_next (b_reg b)) (p_ident x, true) (r_ids (b_reg b))) as Y. change client_id with N in *. rewrite NI in Y. cbn [snd Nat.b2n] in Y. lia.
      + exfalso. eauto.
      + exfalso. eauto.
      + apply (RMX a); auto. intros x [(?&?&?&?&?&_)|(?&?&?&?&_)]; discriminate.
      + apply (RMX a); auto. intros x [(?&?&?&?&?&_)|(?&?&?&?&_)]; discriminate.
  Qed.
  Lemma run_exact c h b : brun c h b -> (forall p, In p h -> calm p) -> exact_gauge b.
  Proof.
    induction 1 as [|h b e b' out R IH S]; intros H; [split; [discriminate|reflexivity]|].
    eapply exact_step; [eapply run_good; eauto|apply H; left; reflexivity|exact S|]. apply IH. intros p I. apply H. right. auto.
  Qed.
  (** Every client of the gauge is connected, when nobody is connecting. *)
  Lemma exact_count b : good b -> exact_gauge b -> (forall k t, aget k (b_tasks b) = Some t -> t_connecting t = false) -> connected_count b = N.to_nat (r_online (b_reg b)).
  Proof.
    intros G [EX LD] NP. apply Nat.le_antisymm.
    - rewrite <- LD. apply count_le_load. auto.
    - rewrite <- LD. unfold connected_count. rewrite <- (map_length own_id). fold (linked b).
      transitivity (List.length (map fst (filter (fun e : client_id * (string * bool) => snd (snd e)) (r_ids (b_reg b))))).
      + rewrite map_length. unfold load.
        assert (X : forall l, (forall c i o, In (c, (i, o)) l -> act b c = Nat.b2n o) ->
          lsum (fun c (v : string * bool) => Nat.max (Nat.b2n (snd v)) (act b c)) l <= List.length (filter (fun e => snd (snd e)) l)).
        { induction l as [|[c [i o]] l IH]; intros H; auto. rewrite lsum_cons. cbn [filter snd]. pose proof (H c i o (or_introl eq_refl)). pose proof (IH ltac:(intros; eapply H; right; eauto)).
          cbn [snd]. destruct o; cbn [List.length Nat.b2n] in *; lia. }
        apply X. intros c i o I. eapply EX. apply in_aget; eauto. apply (k_idsnd _ _ _ _ _ (i_core _ (proj1 G))).
      + apply NoDup_incl_length.
        * pose proof (k_idsnd _ _ _ _ _ (i_core _ (proj1 G))) as ND. unfold keys in ND. revert ND. generalize (r_ids (b_reg b)). induction l as [|[c [i o]] l IH]; cbn; intros ND; [constructor|].
          inversion ND; subst. destruct o; cbn; auto. constructor; auto. intros I. apply H1. apply in_map_iff in I. destruct I as (e & E & I). apply filter_In in I. apply in_map_iff. exists e. tauto.
        * intros c I. apply in_map_iff in I. destruct I as ([c' [i o]] & E & I). cbn in E. subst c'. apply filter_In in I. destruct I as (I & O). cbn in O. subst o.
          assert (A1 : act b c = 1). { eapply (EX c i true). apply in_aget; eauto. apply (k_idsnd _ _ _ _ _ (i_core _ (proj1 G))). }
          assert (EXK : exists k, ind b c k = 1).
          { unfold act in A1. revert A1. generalize (N.to_nat (b_conns b)). induction n as [|n IHn]; cbn; [discriminate|]. intros H. pose proof (ind_le b c (N.of_nat n)).
            destruct (Nat.eq_dec (ind b c (N.of_nat n)) 1); [eauto|]. apply IHn. lia. }
          destruct EXK as (k & EK). apply ind_1 in EK. destruct EK as (t & A & AC). unfold linked. apply in_map_iff. exists (k, t).
          pose proof (NP _ _ A) as NPT. destruct t; cbn in AC, NPT; try discriminate; apply N.eqb_eq in AC; (split; [unfold own_id; cbn; auto|]); apply filter_In; split; auto; apply aget_Some_in; auto.
  Qed.
End Runs.
