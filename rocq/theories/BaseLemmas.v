(** Facts about association lists. *)
From Coq Require Import List Bool Arith NArith Lia String Ascii Permutation.
From Verif Require Import Base.
Import ListNotations.

Section AList.
  Context {K V : Type} `{Eqb K}.
  Implicit Types (m : list (K * V)) (k : K) (v : V).

  Lemma aget_aset_eq k v m : aget k (aset k v m) = Some v.
  Proof.
    induction m as [|[k' v'] r IH]; cbn; [now rewrite eqb_refl|].
    destruct (eqb_spec k k'); cbn; [now rewrite eqb_refl|].
    destruct (eqb_spec k k'); congruence.
  Qed.

  Lemma aget_aset_ne k k' v m : k <> k' -> aget k (aset k' v m) = aget k m.
  Proof.
    intros Hne. induction m as [|[k2 v2] r IH]; cbn.
    - destruct (eqb_spec k k'); congruence.
    - destruct (eqb_spec k' k2) as [E|E]; cbn.
      + subst. destruct (eqb_spec k k2); congruence.
      + destruct (eqb_spec k k2); congruence.
  Qed.

  Lemma aget_aset k k' v m : aget k (aset k' v m) = if eqb k k' then Some v else aget k m.
  Proof. destruct (eqb_spec k k'); subst; [apply aget_aset_eq | now apply aget_aset_ne]. Qed.

  Lemma aget_None_notin k m : aget k m = None <-> ~ In k (keys m).
  Proof.
    induction m as [|[k' v'] r IH]; cbn; [tauto|].
    destruct (eqb_spec k k') as [E|E].
    - subst. split; [congruence | tauto].
    - rewrite IH. split; [intros Hn [?|?]; congruence || tauto | tauto].
  Qed.

  Lemma aget_Some_in k v m : aget k m = Some v -> In (k, v) m.
  Proof.
    induction m as [|[k' v'] r IH]; cbn; [congruence|].
    destruct (eqb_spec k k'); intros E; [left; congruence | right; auto].
  Qed.

  Lemma in_aget k v m : NoDup (keys m) -> In (k, v) m -> aget k m = Some v.
  Proof.
    induction m as [|[k' v'] r IH]; cbn; [tauto|]. intros Hnd [E|Hin].
    - inversion E; subst. now rewrite eqb_refl.
    - inversion Hnd; subst. destruct (eqb_spec k k'); subst.
      + exfalso. match goal with Hn : ~ In _ _ |- _ => apply Hn end. unfold keys. apply in_map_iff. exists (k', v); auto.
      + auto.
  Qed.

  Lemma in_iff_aget k v m : NoDup (keys m) -> (In (k, v) m <-> aget k m = Some v).
  Proof. intros Hnd; split; [now apply in_aget | apply aget_Some_in]. Qed.

  Lemma in_keys_aget k m : In k (keys m) <-> exists v, aget k m = Some v.
  Proof.
    split.
    - intros Hin. destruct (aget k m) eqn:E; [eauto|]. apply aget_None_notin in E. tauto.
    - intros [v E]. apply aget_Some_in in E. unfold keys. apply in_map_iff. now exists (k, v).
  Qed.

  Lemma keys_aset_in k v m : In k (keys m) -> keys (aset k v m) = keys m.
  Proof.
    induction m as [|[k' v'] r IH]; cbn; [tauto|]. intros Hin.
    destruct (eqb_spec k k'); cbn; [congruence|].
    f_equal. apply IH. destruct Hin; congruence || auto.
  Qed.

  Lemma keys_aset_notin k v m : ~ In k (keys m) -> keys (aset k v m) = keys m ++ [k].
  Proof.
    induction m as [|[k' v'] r IH]; cbn; auto. intros Hin.
    destruct (eqb_spec k k'); cbn; [subst; tauto|].
    f_equal. apply IH. tauto.
  Qed.

  Lemma aset_notin k v m : ~ In k (keys m) -> aset k v m = m ++ [(k, v)].
  Proof.
    induction m as [|[k' v'] r IH]; cbn; auto. intros Hin.
    destruct (eqb_spec k k'); cbn; [subst; tauto|].
    f_equal. apply IH. tauto.
  Qed.

  Lemma NoDup_aset k v m : NoDup (keys m) -> NoDup (keys (aset k v m)).
  Proof.
    intros Hnd. destruct (aget k m) eqn:E.
    - rewrite keys_aset_in; auto. apply in_keys_aget; eauto.
    - apply aget_None_notin in E. rewrite keys_aset_notin by auto.
      apply NoDup_rev in Hnd. apply NoDup_rev in Hnd.
      rewrite rev_involutive in Hnd.
      apply (Permutation_NoDup (l := k :: keys m)).
      + apply Permutation_cons_append.
      + constructor; auto.
  Qed.

  Lemma in_keys_aset k k' v m : In k (keys (aset k' v m)) <-> k = k' \/ In k (keys m).
  Proof.
    rewrite !in_keys_aget. split.
    - intros [w E]. destruct (eqb_spec k k'); [auto|]. rewrite aget_aset_ne in E by auto. eauto.
    - intros [->|[w E]].
      + rewrite aget_aset_eq; eauto.
      + rewrite aget_aset. destruct (eqb k k'); eauto.
  Qed.

  Lemma aget_adel_ne k k' m : k <> k' -> aget k (adel k' m) = aget k m.
  Proof.
    intros Hne. induction m as [|[k2 v2] r IH]; cbn; auto.
    destruct (eqb_spec k' k2); cbn.
    - subst. destruct (eqb_spec k k2); congruence.
    - destruct (eqb_spec k k2); congruence.
  Qed.

  Lemma aget_adel_eq k m : NoDup (keys m) -> aget k (adel k m) = None.
  Proof.
    induction m as [|[k2 v2] r IH]; cbn; auto. intros Hnd. inversion Hnd; subst.
    destruct (eqb_spec k k2); cbn.
    - subst. now apply aget_None_notin.
    - destruct (eqb_spec k k2); [congruence|auto].
  Qed.

  Lemma aget_adel k k' m : NoDup (keys m) ->
    aget k (adel k' m) = if eqb k k' then None else aget k m.
  Proof.
    intros Hnd. destruct (eqb_spec k k'); subst; [now apply aget_adel_eq | now apply aget_adel_ne].
  Qed.

  Lemma in_keys_adel_sub k k' m : In k (keys (adel k' m)) -> In k (keys m).
  Proof.
    induction m as [|[k2 v2] r IH]; cbn; auto.
    destruct (eqb_spec k' k2); cbn; tauto.
  Qed.

  Lemma NoDup_adel k m : NoDup (keys m) -> NoDup (keys (adel k m)).
  Proof.
    induction m as [|[k2 v2] r IH]; cbn; auto. intros Hnd. inversion Hnd; subst.
    destruct (eqb_spec k k2); cbn; auto.
    constructor; auto. intros Hin. apply in_keys_adel_sub in Hin. auto.
  Qed.

  Lemma in_adel_sub p k m : In p (adel k m) -> In p m.
  Proof.
    induction m as [|[k2 v2] r IH]; cbn; auto.
    destruct (eqb_spec k k2); cbn; tauto.
  Qed.

  Lemma in_keys_adel k k' m : NoDup (keys m) ->
    (In k (keys (adel k' m)) <-> k <> k' /\ In k (keys m)).
  Proof.
    intros Hnd. rewrite !in_keys_aget. rewrite aget_adel by auto.
    destruct (eqb_spec k k'); subst; firstorder congruence.
  Qed.

  Lemma adel_notin k m : ~ In k (keys m) -> adel k m = m.
  Proof.
    induction m as [|[k2 v2] r IH]; cbn; auto. intros Hn.
    destruct (eqb_spec k k2); [subst; tauto|]. f_equal. apply IH. tauto.
  Qed.

  Lemma is_nil_true {A} (l : list A) : is_nil l = true <-> l = [].
  Proof. destruct l; cbn; split; congruence. Qed.
  Lemma is_nil_false {A} (l : list A) : is_nil l = false <-> l <> [].
  Proof. destruct l; cbn; split; congruence. Qed.

  Lemma aset_not_nil k v m : aset k v m <> [].
  Proof. destruct m as [|[k' v'] r]; cbn; [congruence|]. destruct (eqb k k'); congruence. Qed.

  Lemma aget_nil_all m : (forall k, aget k m = None) -> m = [].
  Proof.
    destruct m as [|[k v] r]; auto. intros Hall. specialize (Hall k). cbn in Hall.
    now rewrite eqb_refl in Hall.
  Qed.
End AList.

Lemma qos_min_l a b : (qos_num (qos_min a b) <= qos_num a)%N.
Proof. destruct a, b; cbn; lia. Qed.
Lemma qos_min_r a b : (qos_num (qos_min a b) <= qos_num b)%N.
Proof. destruct a, b; cbn; lia. Qed.
Lemma qos_eqb_spec a b : reflect (a = b) (qos_eqb a b).
Proof. destruct a, b; cbn; constructor; congruence. Qed.
