(** The table with pointers refines the table of RouteModel, and what happens to
    a pointer while the table changes. *)
From Coq Require Import List Bool String Ascii NArith Arith Lia Permutation.
From Verif Require Import Base BaseLemmas TopicModel TopicSpec TopicProofs MsgModel RouteModel RouteSpec
  RouteProofs RouteHistory RouteInv RetainModel RaceModel.
Import ListNotations.
Local Open Scope N_scope.

(** ** Trees with pointers as trees *)

Fixpoint abs (m : mem) (n : hnode) : rnode :=
  match n with HNode a ks => RNode (mget m a) (map (fun kn => (fst kn, abs m (snd kn))) ks) end.
Definition absk (m : mem) (ks : list (string * hnode)) := map (fun kn => (fst kn, abs m (snd kn))) ks.

Fixpoint ptrs (n : hnode) : list addr :=
  match n with HNode a ks => a :: flat_map (fun kn => ptrs (snd kn)) ks end.
Definition pk (ks : list (string * hnode)) : list addr := flat_map (fun kn => ptrs (snd kn)) ks.

Fixpoint ptr_at (n : hnode) (p : list string) : option addr :=
  match p with
  | [] => Some (h_ptr n)
  | k :: p' => match aget k (h_kids n) with Some c => ptr_at c p' | None => None end
  end.

Lemma hnode_ind' (P : hnode -> Prop) :
  (forall a ks, (forall k c, In (k, c) ks -> P c) -> P (HNode a ks)) -> forall n, P n.
Proof.
  intros H. fix IH 1. intros [a ks]. apply H. induction ks as [|[k c] r IHk]; [intros ? ? []|].
  intros k' c' [E|E]; [injection E as _ <-; apply IH|]. eapply IHk; eauto.
Qed.

Lemma abs_eq m a ks : abs m (HNode a ks) = RNode (mget m a) (absk m ks). Proof. reflexivity. Qed.
Lemma abs_eta m n : abs m n = RNode (mget m (h_ptr n)) (absk m (h_kids n)). Proof. destruct n; reflexivity. Qed.
Lemma ptrs_eta n : ptrs n = h_ptr n :: pk (h_kids n). Proof. destruct n; reflexivity. Qed.
Lemma abs_content m n : r_content (abs m n) = mget m (h_ptr n). Proof. destruct n; reflexivity. Qed.
Lemma abs_kids m n : r_kids (abs m n) = absk m (h_kids n). Proof. destruct n; reflexivity. Qed.

Lemma aget_absk m k ks : aget k (absk m ks) = option_map (abs m) (aget k ks).
Proof. induction ks as [|[j c] r IH]; cbn; auto. destruct (eqb_spec k j) as [->|N]; [now rewrite String.eqb_refl|]. rewrite (proj2 (String.eqb_neq k j) N). auto. Qed.
Lemma adel_absk m k ks : absk m (adel k ks) = adel k (absk m ks).
Proof. induction ks as [|[j c] r IH]; cbn; auto. destruct (String.eqb k j); cbn; auto. now f_equal. Qed.
Lemma aset_absk m k c ks : absk m (aset k c ks) = aset k (abs m c) (absk m ks).
Proof. induction ks as [|[j d] r IH]; cbn; auto. destruct (String.eqb k j); cbn; auto. now f_equal. Qed.
Lemma is_nil_absk m ks : is_nil (absk m ks) = is_nil ks. Proof. destruct ks; reflexivity. Qed.
Lemma keys_absk m ks : keys (absk m ks) = keys ks.
Proof. unfold keys, absk. rewrite map_map. reflexivity. Qed.

Lemma abs_ext m m' : forall n, (forall a, In a (ptrs n) -> mget m' a = mget m a) -> abs m' n = abs m n.
Proof.
  induction n as [a ks IH] using hnode_ind'. intros H. cbn. f_equal; [apply H; now left|].
  apply map_ext_in. intros [k c] I. cbn. f_equal. apply (IH k c I). intros b B. apply H. right.
  apply in_flat_map. exists (k, c). auto.
Qed.

Lemma absk_ext m m' ks : (forall a, In a (pk ks) -> mget m' a = mget m a) -> absk m' ks = absk m ks.
Proof.
  intros H. apply map_ext_in. intros [k c] I. cbn. f_equal. apply abs_ext. intros a A. apply H.
  apply in_flat_map. exists (k, c). auto.
Qed.

Lemma aset_same_rest {V} k (v : V) (l l' : list (string * V)) : adel k l = adel k l' -> keys l = keys l' ->
  aset k v l = aset k v l'.
Proof.
  revert l'. induction l as [|[j c] r IH]; intros [|[j' c'] r']; cbn; auto; try discriminate.
  intros A B. injection B as E B. subst j'. destruct (String.eqb k j) eqn:Q.
  - now subst.
  - injection A as -> A. now rewrite (IH _ A B).
Qed.

Lemma pk_get k c ks : aget k ks = Some c -> Permutation (pk ks) (ptrs c ++ pk (adel k ks)).
Proof.
  induction ks as [|[j d] r IH]; cbn; [discriminate|]. destruct (String.eqb k j).
  - intros E. injection E as ->. reflexivity.
  - intros E. cbn. rewrite (IH E). rewrite !app_assoc. apply Permutation_app_tail, Permutation_app_comm.
Qed.
Lemma pk_set k c ks : Permutation (pk (aset k c ks)) (ptrs c ++ pk (adel k ks)).
Proof.
  induction ks as [|[j d] r IH]; cbn; [reflexivity|]. destruct (String.eqb k j); cbn; [reflexivity|].
  rewrite IH. rewrite !app_assoc. apply Permutation_app_tail, Permutation_app_comm.
Qed.
Lemma adel_none {V} k (ks : list (string * V)) : aget k ks = None -> adel k ks = ks.
Proof. intros E. apply adel_notin. now apply aget_None_notin. Qed.

Lemma ptr_at_in : forall p n a, ptr_at n p = Some a -> In a (ptrs n).
Proof.
  induction p as [|k p IH]; intros n a; rewrite ptrs_eta; cbn; [intros E; injection E as ->; now left|].
  destruct (aget k (h_kids n)) as [c|] eqn:E; [|discriminate]. intros H. right.
  apply (Permutation_in a (Permutation_sym (pk_get _ _ _ E))). apply in_app_iff. left. eauto.
Qed.

Lemma cont_abs m : forall p n, cont (abs m n) p = match ptr_at n p with Some a => mget m a | None => content_new end.
Proof.
  induction p as [|k p IH]; intros n; [apply abs_content|].
  cbn [cont ptr_at]. rewrite abs_kids, aget_absk. destruct (aget k (h_kids n)); cbn; auto.
Qed.

Lemma mget_mset m a c b : mget (mset m a c) b = if N.eqb b a then c else mget m b.
Proof. unfold mget, mset. cbn. rewrite aget_aset. cbn. destruct (N.eqb_spec b a); auto. Qed.

Definition hok (m : mem) (n : hnode) : Prop := NoDup (ptrs n) /\ forall a, In a (ptrs n) -> a < m_next m.

Lemma nodup_parts (A : Type) (a b : list A) : NoDup (a ++ b) ->
  NoDup a /\ NoDup b /\ forall x, In x a -> ~ In x b.
Proof.
  induction a as [|x a IH]; cbn; intros H; [repeat split; auto; constructor|]. inversion H as [|? ? N D]; subst.
  destruct (IH D) as (A1 & A2 & A3). repeat split; auto.
  - constructor; auto. intros I. apply N, in_app_iff. auto.
  - intros y [<-|Y]; auto. intros I. apply N, in_app_iff. auto.
Qed.
Lemma nodup_join (A : Type) (a b : list A) : NoDup a -> NoDup b -> (forall x, In x a -> ~ In x b) -> NoDup (a ++ b).
Proof.
  induction 1 as [|x a N D IH]; cbn; intros B H; auto. constructor.
  - intros I. apply in_app_iff in I as [I|I]; [auto|]. refine (H x _ I). now left.
  - apply IH; [exact B|]. intros y Y. apply H. now right.
Qed.

(** ** Insertion *)

Lemma insert_ok rest flt id q g : forall n m, hok m n ->
  let r := h_insert rest flt id q g n m in
  let n' := fst (fst r) in let m' := snd (fst r) in
  let s := node_insert rest flt id q g (abs m n) in
  h_ptr n' = h_ptr n /\ abs m' n' = fst s /\ snd r = snd s /\ NoDup (ptrs n') /\ m_next m <= m_next m' /\
  (forall a, In a (ptrs n') -> In a (ptrs n) \/ m_next m <= a < m_next m') /\
  (forall a, a < m_next m -> ~ In a (ptrs n) -> mget m' a = mget m a) /\
  (forall p a, ptr_at n p = Some a -> ptr_at n' p = Some a).
Proof.
  induction rest as [|item rest IH]; intros n m [ND LT]; cbn [h_insert node_insert].
  - rewrite abs_content. destruct (content_insert (mget m (h_ptr n)) flt id q g) as [c' pn]. cbn.
    repeat split; auto; try lia.
    + rewrite (abs_eta (mset m (h_ptr n) c') n), mget_mset, N.eqb_refl, abs_kids. f_equal.
      apply absk_ext. intros a A. rewrite mget_mset. rewrite ptrs_eta in ND. inversion ND; subst.
      destruct (N.eqb_spec a (h_ptr n)); auto. congruence.
    + intros a A N. rewrite mget_mset. destruct (N.eqb_spec a (h_ptr n)) as [->|]; auto.
      exfalso. apply N. rewrite ptrs_eta. now left.
  - rewrite abs_kids, aget_absk, abs_content.
    pose proof ND as ND0. rewrite ptrs_eta in ND. inversion ND as [|? ? NP NK]; subst.
    assert (E : exists child m1, h_entry item (h_kids n) m = (child, m1) /\ hok m1 child /\
      m_next m <= m_next m1 /\ abs m1 child = match aget item (h_kids n) with Some c => abs m c | None => rnode_new end /\
      (forall a, In a (ptrs child) -> (In a (pk (h_kids n)) /\ ~ In a (pk (adel item (h_kids n)))) \/ m_next m <= a < m_next m1) /\
      (forall a, a < m_next m -> mget m1 a = mget m a) /\
      (forall p a, match aget item (h_kids n) with Some c => ptr_at c p | None => None end = Some a -> ptr_at child p = Some a)).
    { unfold h_entry. destruct (aget item (h_kids n)) as [c|] eqn:E.
      - exists c, m. pose proof (pk_get _ _ _ E) as P. pose proof (Permutation_NoDup P NK) as Q.
        apply nodup_parts in Q as (Q1 & Q2 & Q3).
        split; [reflexivity|]. split; [split; [exact Q1|]|]. 2: split; [lia|]. 2: split; [reflexivity|]. 2: split; [|split; auto].
        + intros a A. apply LT. rewrite ptrs_eta. right. apply (Permutation_in a (Permutation_sym P)), in_app_iff. auto.
        + intros a A. left. split; auto. apply (Permutation_in a (Permutation_sym P)), in_app_iff. auto.
      - exists (HNode (m_next m) []), (Mem (aset (m_next m) content_new (m_cells m)) (m_next m + 1)).
        unfold hnode_new. cbn [m_next].
        split; [reflexivity|]. split; [split|]. 3: split; [lia|]. 3: split. 4: split; [|split]. all: cbn -[N.add].
        + repeat constructor; auto.
        + intros a [<-|[]]. lia.
        + unfold mget. cbn. rewrite aget_aset. cbn. rewrite N.eqb_refl. reflexivity.
        + intros a [<-|[]]. right. lia.
        + intros a A. unfold mget. cbn. rewrite aget_aset. cbn. destruct (N.eqb_spec a (m_next m)); auto. lia.
        + discriminate. }
    destruct E as (child & m1 & -> & OK1 & LE & AB & PC & FR1 & PA).
    specialize (IH child m1 OK1). cbn zeta in IH. rewrite AB in IH.
    replace (match option_map (abs m) (aget item (h_kids n)) with Some m0 => m0 | None => rnode_new end)
      with (match aget item (h_kids n) with Some c => abs m c | None => rnode_new end)
      by (destruct (aget item (h_kids n)); reflexivity).
    destruct (h_insert rest flt id q g child m1) as [[child' m2] pn].
    destruct (node_insert rest flt id q g _) as [sc sp]. cbn in IH |- *.
    destruct IH as (I1 & I2 & I3 & I4 & I5 & I6 & I7 & I8).
    assert (OUT : forall a, a < m_next m -> ~ In a (ptrs child) -> mget m2 a = mget m a).
    { intros a A N. rewrite I7; auto. lia. }
    assert (REST : forall a, In a (pk (adel item (h_kids n))) -> a < m_next m /\ ~ In a (ptrs child)).
    { intros a A. assert (In a (pk (h_kids n))).
      { destruct (aget item (h_kids n)) as [c|] eqn:E.
        - apply (Permutation_in a (Permutation_sym (pk_get _ _ _ E))), in_app_iff. auto.
        - rewrite (adel_none _ _ E) in A. auto. }
      assert (a < m_next m) by (apply LT; rewrite ptrs_eta; now right). split; auto.
      intros C. destruct (PC a C) as [[_ B]|B]; [auto|lia]. }
    assert (HP : h_ptr n < m_next m /\ ~ In (h_ptr n) (ptrs child)).
    { assert (h_ptr n < m_next m) by (apply LT; rewrite ptrs_eta; now left). split; auto.
      intros C. destruct (PC _ C) as [[B _]|B]; [auto|lia]. }
    split; [exact I1 || reflexivity|]. split; [|split; [exact I3|split; [|split; [|split; [|split]]]]].
    + fold (absk m2 (aset item child' (h_kids n))). rewrite (OUT _ (proj1 HP) (proj2 HP)). f_equal.
      rewrite aset_absk, I2. apply aset_same_rest; [|now rewrite !keys_absk].
      rewrite <- !adel_absk. apply absk_ext. intros a A. apply OUT; apply REST; auto.
    + fold (pk (aset item child' (h_kids n))). constructor.
      * intros A. apply (Permutation_in _ (pk_set _ _ _)), in_app_iff in A as [A|A].
        -- destruct (I6 _ A) as [B|B]; [tauto|lia].
        -- apply NP. destruct (aget item (h_kids n)) as [c|] eqn:E.
           ++ apply (Permutation_in _ (Permutation_sym (pk_get _ _ _ E))), in_app_iff. auto.
           ++ rewrite (adel_none _ _ E) in A. auto.
      * apply (Permutation_NoDup (Permutation_sym (pk_set _ _ _))). apply nodup_join; auto.
        -- destruct (aget item (h_kids n)) as [c|] eqn:E.
           ++ apply (Permutation_NoDup (pk_get _ _ _ E)), nodup_parts in NK. tauto.
           ++ now rewrite (adel_none _ _ E).
        -- intros a A B. destruct (REST a B). destruct (I6 a A); [auto|lia].
    + lia.
    + fold (pk (aset item child' (h_kids n))). intros a [<-|A]; [left; rewrite ptrs_eta; now left|].
      apply (Permutation_in _ (pk_set _ _ _)), in_app_iff in A as [A|A].
      * destruct (I6 _ A) as [B|B]; [|right; lia]. destruct (PC _ B) as [[C _]|C]; [|right; lia].
        left. rewrite ptrs_eta. now right.
      * left. rewrite ptrs_eta. right. destruct (aget item (h_kids n)) as [c|] eqn:E.
        -- apply (Permutation_in _ (Permutation_sym (pk_get _ _ _ E))), in_app_iff. auto.
        -- rewrite (adel_none _ _ E) in A. auto.
    + intros a A N. apply OUT; auto. intros C. destruct (PC a C) as [[B _]|B]; [|lia].
      apply N. rewrite ptrs_eta. now right.
    + intros [|k p] a; cbn; auto. rewrite aget_aset. destruct (eqb_spec k item) as [->|NE]; auto.
Qed.

(** ** Removal *)

Lemma remove_ok rest id g : forall n m, hok m n -> kids_wf (abs m n) -> clean (abs m n) ->
  let r := h_remove rest id g n m in
  let n' := fst (fst (fst r)) in let m' := snd (fst (fst r)) in
  let s := node_remove rest id g (abs m n) in
  h_ptr n' = h_ptr n /\ abs m' n' = fst (fst s) /\ snd (fst r) = snd (fst s) /\ snd r = snd s /\
  NoDup (ptrs n') /\ m_next m' = m_next m /\ incl (ptrs n') (ptrs n) /\
  (forall a, ~ In a (ptrs n) -> mget m' a = mget m a) /\
  (forall p a, ptr_at n p = Some a -> ptr_at n' p = Some a \/
     (ptr_at n' p = None /\ ~ In a (ptrs n') /\ mget m' a = content_new)).
Proof.
  induction rest as [|item rest IH]; intros n m [ND LT] WF CL; cbn [h_remove node_remove].
  - rewrite abs_content, abs_kids, is_nil_absk.
    destruct (content_remove (mget m (h_ptr n)) (is_nil (h_kids n)) id g) as [[c' rm] pn]. cbn.
    repeat split; auto using incl_refl.
    + rewrite (abs_eta (mset m (h_ptr n) c') n), mget_mset, N.eqb_refl. f_equal.
      apply absk_ext. intros a A. rewrite mget_mset. rewrite ptrs_eta in ND. inversion ND; subst.
      destruct (N.eqb_spec a (h_ptr n)); auto. congruence.
    + intros a N. rewrite mget_mset. destruct (N.eqb_spec a (h_ptr n)) as [->|]; auto.
      exfalso. apply N. rewrite ptrs_eta. now left.
  - rewrite abs_kids, aget_absk, abs_content.
    pose proof ND as ND0. rewrite ptrs_eta in ND. inversion ND as [|? ? NP NK]; subst.
    destruct (aget item (h_kids n)) as [c|] eqn:E; cbn [option_map].
    2: { cbn. repeat split; auto using incl_refl. }
    pose proof (pk_get _ _ _ E) as P. pose proof (Permutation_NoDup P NK) as Q. apply nodup_parts in Q as (Q1 & Q2 & Q3).
    assert (INC : forall a, In a (ptrs c) -> In a (pk (h_kids n))).
    { intros a A. apply (Permutation_in a (Permutation_sym P)), in_app_iff. auto. }
    assert (IND : forall a, In a (pk (adel item (h_kids n))) -> In a (pk (h_kids n))).
    { intros a A. apply (Permutation_in a (Permutation_sym P)), in_app_iff. auto. }
    assert (OKc : hok m c).
    { split; auto. intros a A. apply LT. rewrite ptrs_eta. right. auto. }
    assert (KN : NoDup (keys (h_kids n))).
    { rewrite abs_eta in WF. inversion WF as [? ? K _]; subst. now rewrite keys_absk in K. }
    assert (WFc : kids_wf (abs m c)).
    { rewrite abs_eta in WF. inversion WF as [? ? _ K]; subst. apply (K item). now rewrite aget_absk, E. }
    assert (CLc : clean (abs m c)).
    { intros p. specialize (CL (item :: p)). cbn in CL. rewrite abs_kids, aget_absk, E in CL. exact CL. }
    specialize (IH c m OKc WFc CLc). cbn zeta in IH.
    pose proof (proj1 (proj2 (node_remove_spec rest id g (abs m c) WFc CLc))) as NEW.
    destruct (h_remove rest id g c m) as [[[c' m1] rm] pn].
    destruct (node_remove rest id g (abs m c)) as [[sc srm] sp]. cbn in IH, NEW |- *.
    destruct IH as (I1 & I2 & I3 & I4 & I5 & I6 & I7 & I8 & I9). subst srm sp.
    assert (HP : mget m1 (h_ptr n) = mget m (h_ptr n)) by (apply I8; auto).
    assert (RST : absk m1 (adel item (h_kids n)) = absk m (adel item (h_kids n))).
    { apply absk_ext. intros a A. apply I8. intros B. exact (Q3 _ B A). }
    destruct rm; cbn.
    + rewrite HP. fold (absk m1 (adel item (h_kids n))). rewrite RST, adel_absk.
      repeat split; auto.
      * rewrite <- adel_absk, is_nil_absk. reflexivity.
      * fold (pk (adel item (h_kids n))). constructor; auto.
      * intros a [<-|A]; rewrite ptrs_eta; [now left|right; auto].
      * intros a A. apply I8. intros B. apply A. rewrite ptrs_eta. right. auto.
      * intros [|k p] a; cbn; auto. rewrite aget_adel by auto. destruct (eqb_spec k item) as [->|NE]; auto.
        rewrite E. intros H. right. split; auto. pose proof (ptr_at_in _ _ _ H) as IN. split.
        -- fold (pk (adel item (h_kids n))). intros [<-|B]; [auto|]. exact (Q3 _ IN B).
        -- destruct (I9 _ _ H) as [B|(_ & _ & B)]; auto.
           pose proof (cont_abs m1 p c') as CA. rewrite B in CA. rewrite <- CA, I2. apply NEW; auto.
    + repeat split; auto.
      * rewrite HP. fold (absk m1 (aset item c' (h_kids n))). f_equal. rewrite aset_absk, I2.
        apply aset_same_rest; [|now rewrite !keys_absk]. rewrite <- !adel_absk. exact RST.
      * fold (pk (aset item c' (h_kids n))). constructor.
        -- intros A. apply (Permutation_in _ (pk_set _ _ _)), in_app_iff in A as [A|A]; auto.
        -- apply (Permutation_NoDup (Permutation_sym (pk_set _ _ _))). apply nodup_join; auto.
      * fold (pk (aset item c' (h_kids n))). intros a [<-|A]; rewrite ptrs_eta; [now left|right].
        apply (Permutation_in _ (pk_set _ _ _)), in_app_iff in A as [A|A]; auto.
      * intros a A. apply I8. intros B. apply A. rewrite ptrs_eta. right. auto.
      * intros [|k p] a; cbn; auto. rewrite aget_aset. destruct (eqb_spec k item) as [->|NE]; auto.
        rewrite E. intros H. destruct (I9 _ _ H) as [B|(B1 & B2 & B3)]; auto. right. repeat split; auto.
        fold (pk (aset item c' (h_kids n))). pose proof (ptr_at_in _ _ _ H) as IN.
        intros [<-|B]; [auto|]. apply (Permutation_in _ (pk_set _ _ _)), in_app_iff in B as [B|B]; auto.
        exact (Q3 _ IN B).
Qed.

(** ** The table *)

Definition hroot (t : htable) : hnode := HNode 0 (ht_kids t).
Definition atable (t : htable) : route_table := absk (ht_mem t) (ht_kids t).

Record tab_ok (t : htable) : Prop := {
  to_ok : hok (ht_mem t) (hroot t);
  to_root : mget (ht_mem t) 0 = content_new
}.

Lemma abs_hroot t : tab_ok t -> abs (ht_mem t) (hroot t) = root (atable t).
Proof. intros T. cbn. rewrite (to_root _ T). reflexivity. Qed.

Lemma root_inj t t' : root t = root t' -> t = t'. Proof. intros H. now injection H. Qed.

Lemma h_step_ok t o : tab_ok t -> kids_wf (root (atable t)) -> clean (root (atable t)) ->
  let t' := fst (h_step t o) in
  tab_ok t' /\ atable t' = fst (rt_step (atable t) o) /\ snd (h_step t o) = snd (rt_step (atable t) o) /\
  (forall p a, ptr_at (hroot t) p = Some a -> ptr_at (hroot t') p = Some a \/
     (ptr_at (hroot t') p = None /\ ~ In a (ptrs (hroot t')) /\ mget (ht_mem t') a = content_new)) /\
  (forall a, a < m_next (ht_mem t) -> ~ In a (ptrs (hroot t)) -> ~ In a (ptrs (hroot t')) /\ mget (ht_mem t') a = mget (ht_mem t) a) /\
  m_next (ht_mem t) <= m_next (ht_mem t').
Proof.
  intros T WF CL.
  assert (SUB : forall flt id q g,
    let t' := fst (h_subscribe_shared t flt id q g) in let s := subscribe_shared (atable t) flt id q g in
    tab_ok t' /\ atable t' = fst s /\ snd (h_subscribe_shared t flt id q g) = snd s /\
    (forall p a, ptr_at (hroot t) p = Some a -> ptr_at (hroot t') p = Some a) /\
    (forall a, a < m_next (ht_mem t) -> ~ In a (ptrs (hroot t)) -> ~ In a (ptrs (hroot t')) /\ mget (ht_mem t') a = mget (ht_mem t) a) /\
    m_next (ht_mem t) <= m_next (ht_mem t')).
  { intros flt id q g. pose proof (insert_ok (levels flt) flt id q g (hroot t) (ht_mem t) (to_ok _ T)) as H.
    cbn zeta in H. rewrite (abs_hroot _ T) in H.
    destruct (subscribe_shared_root (atable t) flt id q g) as [S1 S2]. rewrite <- S1, <- S2 in H. cbn zeta.
    assert (R : exists m', h_insert (levels flt) flt id q g (hroot t) (ht_mem t) =
       (hroot (fst (h_subscribe_shared t flt id q g)), m', snd (h_subscribe_shared t flt id q g)) /\
       m' = ht_mem (fst (h_subscribe_shared t flt id q g))).
    { unfold h_subscribe_shared. destruct (levels flt) as [|item rest] eqn:E; [now apply levels_not_nil in E|].
      cbn. destruct (h_entry item (ht_kids t) (ht_mem t)) as [child m1].
      destruct (h_insert rest flt id q g child m1) as [[child' m2] pn]. exists m2. split; reflexivity. }
    destruct R as (m' & R & ->). rewrite R in H. cbn in H.
    set (t' := fst (h_subscribe_shared t flt id q g)) in *.
    destruct H as (H1 & H2 & H3 & H4 & H5 & H6 & H7 & H8).
    assert (RT : mget (ht_mem t') 0 = content_new).
    { now injection H2 as H2 _. }
    split; [|split; [|split; [|split; [|split]]]]; auto.
    - split; auto. split; auto. intros a A. destruct (H6 a A) as [B|B]; [|lia].
      pose proof (proj2 (to_ok _ T) a B). lia.
    - apply root_inj. rewrite <- H2. unfold root. f_equal. symmetry. exact RT.
    - intros a A N. split; auto. intros B. destruct (H6 a B) as [C|C]; [auto|lia]. }
  assert (DEL : forall flt id g,
    let t' := fst (h_unsubscribe_shared t flt id g) in let s := unsubscribe_shared (atable t) flt id g in
    tab_ok t' /\ atable t' = fst s /\ snd (h_unsubscribe_shared t flt id g) = snd s /\
    (forall p a, ptr_at (hroot t) p = Some a -> ptr_at (hroot t') p = Some a \/
       (ptr_at (hroot t') p = None /\ ~ In a (ptrs (hroot t')) /\ mget (ht_mem t') a = content_new)) /\
    (forall a, a < m_next (ht_mem t) -> ~ In a (ptrs (hroot t)) -> ~ In a (ptrs (hroot t')) /\ mget (ht_mem t') a = mget (ht_mem t) a) /\
    m_next (ht_mem t) <= m_next (ht_mem t')).
  { intros flt id g. pose proof WF as WF'. pose proof CL as CL'. rewrite <- (abs_hroot _ T) in WF', CL'.
    pose proof (remove_ok (levels flt) id g (hroot t) (ht_mem t) (to_ok _ T) WF' CL') as H.
    cbn zeta in H. rewrite (abs_hroot _ T) in H.
    destruct (unsubscribe_shared_root (atable t) flt id g) as [S1 S2]. rewrite <- S1, <- S2 in H. cbn zeta.
    assert (R : exists m' rm, h_remove (levels flt) id g (hroot t) (ht_mem t) =
       (hroot (fst (h_unsubscribe_shared t flt id g)), m', rm, snd (h_unsubscribe_shared t flt id g)) /\
       m' = ht_mem (fst (h_unsubscribe_shared t flt id g))).
    { unfold h_unsubscribe_shared. destruct (levels flt) as [|item rest] eqn:E; [now apply levels_not_nil in E|].
      cbn. destruct (aget item (ht_kids t)) as [child|]; [|exists (ht_mem t), false; split; destruct t; reflexivity].
      destruct (h_remove rest id g child (ht_mem t)) as [[[child' m1] rm] pn].
      destruct rm; do 2 eexists; split; reflexivity. }
    destruct R as (m' & rm & R & ->). rewrite R in H. cbn in H.
    set (t' := fst (h_unsubscribe_shared t flt id g)) in *.
    destruct H as (H1 & H2 & H3 & H4 & H5 & H6 & H7 & H8 & H9).
    assert (RT : mget (ht_mem t') 0 = content_new) by (now injection H2 as H2 _).
    split; [|split; [|split; [exact H4|split; [exact H9|split]]]].
    - split; auto. split; auto. intros a A. rewrite H6. apply (proj2 (to_ok _ T)). apply H7, A.
    - apply root_inj. rewrite <- H2. unfold root. f_equal. symmetry. exact RT.
    - intros a A N. split; [|apply H8; exact N]. intros B. apply N, H7, B.
    - rewrite H6. lia. }
  destruct o as [f id q|f id]; cbn [h_step rt_step]; unfold rt_subscribe, rt_unsubscribe; destruct (shared_info f) as [[g i]|].
  - destruct (SUB i id q (Some g)) as (A1 & A2 & A3 & A4 & A5 & A6). repeat (split; auto).
  - destruct (SUB f id q None) as (A1 & A2 & A3 & A4 & A5 & A6). repeat (split; auto).
  - exact (DEL i id (Some g)).
  - exact (DEL f id None).
Qed.

(** ** Lookup *)

Lemma h_node_matches_ok m topic : forall prev n,
  Forall2 (fun p a => ptr_at n p = Some a) (match_paths prev topic (abs m n)) (h_node_matches m prev topic n).
Proof.
  assert (NE : forall n, Forall2 (fun p a => ptr_at n p = Some a)
     (if content_is_empty (r_content (abs m n)) then [] else [[]]) (h_nonempty m n)).
  { intros n. rewrite abs_content. unfold h_nonempty. destruct (content_is_empty (mget m (h_ptr n))); constructor; auto. }
  induction topic as [|item rest IH]; intros prev n; cbn [match_paths h_node_matches].
  - destruct (String.eqb prev MATCH_ALL); [apply NE|]. apply Forall2_app; [apply NE|].
    rewrite abs_kids, aget_absk. unfold MATCH_ALL. destruct (aget "#"%string (h_kids n)) as [k|] eqn:E; cbn [option_map]; [|constructor].
    rewrite abs_content. unfold h_nonempty. destruct (content_is_empty (mget m (h_ptr k))); constructor; auto.
    cbn. now rewrite E.
  - destruct (String.eqb prev MATCH_ALL); [apply NE|].
    assert (IT : forall it, Forall2 (fun p a => ptr_at n p = Some a)
       match aget it (r_kids (abs m n)) with Some k => map (cons it) (match_paths it rest k) | None => [] end
       match aget it (h_kids n) with Some k => h_node_matches m it rest k | None => [] end).
    { intros it. rewrite abs_kids, aget_absk. destruct (aget it (h_kids n)) as [k|] eqn:E; cbn [option_map]; [|constructor].
      specialize (IH it k). induction IH; cbn; constructor; auto. cbn. now rewrite E. }
    cbn [flat_map]. rewrite !app_nil_r. repeat apply Forall2_app; auto.
Qed.

Lemma h_get_matches_ok t topic :
  Forall2 (fun p a => ptr_at (hroot t) p = Some a) (table_paths (atable t) topic) (h_get_matches t topic).
Proof.
  unfold table_paths, h_get_matches. destruct (levels topic) as [|item rest]; [constructor|].
  assert (IT : forall it, Forall2 (fun p a => ptr_at (hroot t) p = Some a)
       match aget it (atable t) with Some k => map (cons it) (match_paths it rest k) | None => [] end
       match aget it (ht_kids t) with Some k => h_node_matches (ht_mem t) it rest k | None => [] end).
  { intros it. unfold atable. rewrite aget_absk. destruct (aget it (ht_kids t)) as [k|] eqn:E; cbn [option_map]; [|constructor].
    pose proof (h_node_matches_ok (ht_mem t) rest it k) as H. induction H; cbn; constructor; auto. cbn. now rewrite E. }
  cbn zeta. apply Forall2_app; auto. destruct (starts_with_dollar topic); [constructor|]. apply Forall2_app; auto.
Qed.
