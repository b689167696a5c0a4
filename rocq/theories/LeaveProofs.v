(** Proofs for LeaveProps. *)
From Coq Require Import List Bool Arith NArith String Lia.
From Verif Require Import Base BaseLemmas TopicModel TopicSpec TopicProofs RouteModel RouteSpec RouteProofs RouteHistory RouteInv OutProofs.
Import ListNotations.
Local Open Scope N_scope.
Local Open Scope list_scope.

(** ** The members of a group are its subscribers *)
Lemma leave_in c l x : NoDup l -> In x (leave c l) -> In x l /\ x <> c.
Proof.
  intros ND. unfold leave. destruct (existsb (N.eqb c) l) eqn:E.
  2:{ intros I. split; auto. intros ->. assert (existsb (N.eqb c) l = true) by (apply existsb_exists; exists c; split; [auto|apply N.eqb_refl]). congruence. }
  destruct (rev l) as [|z r] eqn:R; [intros []|]. assert (L : l = rev r ++ [z]) by (rewrite <- (rev_involutive l), R; reflexivity). subst l.
  pose proof (NoDup_remove_2 _ _ _ ND) as NZ. rewrite app_nil_r in NZ. destruct (N.eqb_spec c z) as [->|NE].
  - intros I. split; [apply in_or_app; auto|]. intros ->. contradiction.
  - intros I. apply in_map_iff in I. destruct I as (y & <- & I). destruct (N.eqb_spec y c) as [->|]; [split; [apply in_or_app; right; left; auto|congruence]|]. split; [apply in_or_app; auto|auto].
Qed.
Lemma nodup_map_inj {A B} (f : A -> B) l : NoDup l -> (forall x y, In x l -> In y l -> f x = f y -> x = y) -> NoDup (map f l).
Proof.
  induction 1 as [|x l NI ND IH]; cbn; intros I; constructor.
  - intros J. apply in_map_iff in J. destruct J as (y & E & J). apply NI. rewrite <- (I y x); auto.
  - apply IH. intros; apply I; auto.
Qed.
Lemma leave_nodup c l : NoDup l -> NoDup (leave c l).
Proof.
  intros ND. unfold leave. destruct (existsb (N.eqb c) l); auto. destruct (rev l) as [|z r] eqn:R; [constructor|]. assert (L : l = rev r ++ [z]) by (rewrite <- (rev_involutive l), R; reflexivity). subst l.
  pose proof (NoDup_remove_2 _ _ _ ND) as NZ. pose proof (NoDup_remove_1 _ _ _ ND) as N1. rewrite app_nil_r in NZ, N1. destruct (N.eqb c z); auto.
  apply nodup_map_inj; auto. intros x y I J. destruct (N.eqb_spec x c), (N.eqb_spec y c); intros E; subst; auto; contradiction.
Qed.
Lemma members_current h f : NoDup (members h f) /\ forall c, In c (members h f) -> current h f c <> None.
Proof.
  induction h as [|o h IH] using rev_ind; [split; [constructor|intros c []]|]. destruct IH as (ND & H). rewrite members_snoc. destruct o as [g d q|g d].
  - destruct (String.eqb_spec g f) as [->|NE].
    + destruct (existsb (N.eqb d) (members h f)) eqn:E.
      * split; auto. intros c I. rewrite current_snoc, String.eqb_refl. cbn [andb]. destruct (N.eqb d c); [discriminate|auto].
      * split.
        { apply NoDup_snoc; auto. intros I. assert (existsb (N.eqb d) (members h f) = true) by (apply existsb_exists; exists d; split; [auto|apply N.eqb_refl]). congruence. }
        intros c I. rewrite current_snoc, String.eqb_refl. cbn [andb]. destruct (N.eqb_spec d c) as [->|NE]; [discriminate|]. apply in_app_or in I. destruct I as [I|[I|[]]]; [auto|contradiction].
    + split; auto. intros c I. rewrite current_snoc. destruct (String.eqb_spec g f); [contradiction|]. cbn. auto.
  - destruct (String.eqb_spec g f) as [->|NE].
    + split; [apply leave_nodup; auto|]. intros c I. apply leave_in in I; auto. destruct I as (I & NE). rewrite current_snoc, String.eqb_refl. cbn [andb]. destruct (N.eqb_spec d c); [congruence|auto].
    + split; auto. intros c I. rewrite current_snoc. destruct (String.eqb_spec g f); [contradiction|]. cbn. auto.
Qed.

(** Nobody was taken out of a share group. *)
Definition never (ops : list rop) : Prop := forall h1 f d h2, ops = h1 ++ Unsub f d :: h2 -> ~ plain f -> current h1 f d = None.
Lemma never_safe ops : never ops -> ~ last_member_leaves ops.
Proof.
  intros N (h1 & f & c & h2 & l & E & NP & M & _). apply (proj2 (members_current h1 f) c); [rewrite M; apply in_or_app; right; left; auto|]. exact (N _ _ _ _ E NP).
Qed.

(** ** One leave does no harm *)
Lemma remove_fine s id : sh_ok s -> sh_exact s -> snd (sh_remove s id) = false.
Proof.
  intros OK EX. unfold sh_remove. destruct (aget id (sh_index s)) as [idx|] eqn:E; [|reflexivity]. destruct (EX _ _ E) as (q & NE).
  destruct (Nat.eqb_spec (List.length (sh_items s)) 1) as [|L1]; [reflexivity|]. assert (LT : (idx < List.length (sh_items s))%nat) by (apply nth_error_Some; congruence).
  unfold swap_remove. destruct (rev (sh_items s)) as [|[z zq] r] eqn:R.
  - assert (sh_items s = []) by (rewrite <- (rev_involutive (sh_items s)), R; reflexivity). rewrite H in LT. cbn in LT. lia.
  - assert (L : List.length (sh_items s) = Datatypes.S (List.length (rev r))) by (rewrite <- (rev_length (sh_items s)), R, rev_length; reflexivity).
    destruct (Nat.eqb_spec idx (List.length (sh_items s) - 1)); [reflexivity|].
    assert (X : forall A (x : A) l i, (i < List.length l)%nat -> list_set i x l <> None).
    { intros A x l. induction l as [|y l IH]; intros [|i] I; cbn in I; try lia; cbn; [discriminate|]. specialize (IH i ltac:(lia)). destruct (list_set i x l); [discriminate|contradiction]. }
    specialize (X _ (z, zq) (rev r) idx ltac:(lia)). destruct (list_set idx (z, zq) (rev r)); [reflexivity|contradiction].
Qed.
Lemma group_ok h f g i : shared_info f = Some (g, i) -> sh_ok (sh_of (rt_run h) g i).
Proof.
  intros Hs. unfold sh_of. destruct (aget g (c_groups (C (rt_run h) i))) as [s|] eqn:E; [|apply sh_ok_empty]. apply (ri_groups _ _ (rinv_run h) _ _ _ _ Hs E).
Qed.
Definition exact_at (h : list rop) (f : string) : Prop := forall g i, shared_info f = Some (g, i) -> sh_exact (sh_of (rt_run h) g i).

Lemma unsub_fine h f c : exact_at h f -> snd (rt_step (rt_run h) (Unsub f c)) = false.
Proof.
  intros EX. rewrite rt_step_panic. cbn zeta. cbn [op_filter]. unfold target. destruct (shared_info f) as [[g i]|] eqn:Es; cbn [fst snd].
  - pose proof (remove_fine _ c (group_ok h f g i Es) (EX _ _ Es)) as D0. unfold sh_of, C in D0. unfold content_remove.
    destruct (aget g (c_groups (cont (root (rt_run h)) (levels i)))) as [s|].
    + destruct (sh_remove s c) as [s' pn]. cbn in D0. subst pn.
      destruct (sh_is_empty s'); match goal with |- snd (if content_is_empty ?x then _ else _) = _ => destruct (content_is_empty x) end; reflexivity.
    + match goal with |- snd (if content_is_empty ?x then _ else _) = _ => destruct (content_is_empty x) end; reflexivity.
  - unfold content_remove. match goal with |- snd (if content_is_empty ?x then _ else _) = _ => destruct (content_is_empty x) end; reflexivity.
Qed.

Lemma other_exact h o f : op_filter o <> f -> exact_at h f -> exact_at (h ++ [o]) f.
Proof.
  intros NE EX g i Hs. specialize (EX g i Hs). pose proof (rinv_run h) as I. rewrite rt_run_snoc. unfold sh_of, C. rewrite (rt_step_cont (rt_run h) o (levels i)) by apply I.
  destruct (path_eq_dec (levels i) (levels (fst (target (op_filter o))))) as [Ep|Ep]; [|exact EX].
  rewrite <- Ep. apply levels_inj in Ep.
  assert (Htgt : snd (target (op_filter o)) <> Some g).
  { intros Eg. apply NE. apply target_inj. unfold target at 2. rewrite Hs. destruct (target (op_filter o)); cbn in *; congruence. }
  fold (C (rt_run h) i). destruct o as [f' id q|f' id]; cbn [op_content op_filter] in *.
  - rewrite ci_groups. destruct (snd (target f')) as [name|] eqn:Et; [|exact EX]. destruct (String.eqb_spec g name) as [->|]; [congruence|exact EX].
  - rewrite cr_groups by apply (ri_gnd _ _ I). destruct (snd (target f')) as [name|] eqn:Et; [|exact EX]. destruct (String.eqb_spec g name) as [->|]; [congruence|exact EX].
Qed.
Lemma safe_exact h f : ~ last_member_leaves h -> exact_at h f.
Proof. intros S g i Hs. exact (proj1 (proj1 (rexact_run h S) f g i Hs)). Qed.
