(** Proofs about the routing table. *)
From Coq Require Import List Bool String Ascii NArith Arith Lia Permutation.
From Verif Require Import Base BaseLemmas TopicModel TopicSpec TopicProofs RouteModel RouteSpec.
Import ListNotations.

(* ------------------------------------------------------------------ *)
(** * Tree structure *)

Fixpoint node_at (p : list string) (n : rnode) : option rnode :=
  match p with
  | [] => Some n
  | k :: p' => match aget k (r_kids n) with Some m => node_at p' m | None => None end
  end.

Definition child (n : rnode) (k : string) : rnode :=
  match aget k (r_kids n) with Some m => m | None => rnode_new end.

Fixpoint cont (n : rnode) (p : list string) : content :=
  match p with
  | [] => r_content n
  | k :: p' => match aget k (r_kids n) with Some m => cont m p' | None => content_new end
  end.

Lemma path_eq_dec : forall a b : list string, {a = b} + {a <> b}.
Proof. exact (list_eq_dec string_dec). Qed.
Ltac pdec := repeat match goal with
  | |- context [path_eq_dec ?a ?b] => destruct (path_eq_dec a b); try congruence
  end.

Lemma cont_new p : cont rnode_new p = content_new.
Proof. destruct p; reflexivity. Qed.

Lemma cont_cons n k p : cont n (k :: p) = cont (child n k) p.
Proof. unfold child. cbn. destruct (aget k (r_kids n)); auto. symmetry. apply cont_new. Qed.

Lemma cont_node_at n p : cont n p = match node_at p n with Some m => r_content m | None => content_new end.
Proof.
  revert n. induction p as [|k p IH]; intros n; cbn; auto.
  destruct (aget k (r_kids n)); auto.
Qed.

Inductive kids_wf : rnode -> Prop :=
| kw c ks : NoDup (keys ks) -> (forall k m, aget k ks = Some m -> kids_wf m) -> kids_wf (RNode c ks).

Definition clean (n : rnode) : Prop :=
  forall p, content_is_empty (cont n p) = true -> cont n p = content_new.

Definition has_content (n : rnode) : Prop := exists p, content_is_empty (cont n p) = false.

Inductive tidy : rnode -> Prop :=
| td c ks : (forall k m, aget k ks = Some m -> has_content m /\ tidy m) -> tidy (RNode c ks).

Lemma kids_wf_new : kids_wf rnode_new.
Proof. constructor; [constructor | cbn; congruence]. Qed.
Lemma clean_new : clean rnode_new.
Proof. intros p _. apply cont_new. Qed.
Lemma tidy_new : tidy rnode_new.
Proof. constructor. cbn; congruence. Qed.

Lemma kids_wf_child n k : kids_wf n -> kids_wf (child n k).
Proof.
  intros H. unfold child. destruct H as [c ks Hnd Hk]. cbn.
  destruct (aget k ks) eqn:E; [eauto | apply kids_wf_new].
Qed.
Lemma clean_child n k : clean n -> clean (child n k).
Proof. intros H p. rewrite <- cont_cons. apply H. Qed.
Lemma tidy_child n k : tidy n -> tidy (child n k).
Proof.
  intros H. unfold child. destruct H as [c ks Hk]. cbn.
  destruct (aget k ks) eqn:E; [eapply Hk; eauto | apply tidy_new].
Qed.

(* ------------------------------------------------------------------ *)
(** * Insertion *)

Definition ci c flt id q g := fst (content_insert c flt id q g).

Lemma ci_nonempty c flt id q g : content_is_empty (ci c flt id q g) = false.
Proof.
  unfold ci, content_insert, content_is_empty. destruct g as [name|]; cbn.
  - destruct (sh_insert _ id q) as [s' pn]. cbn.
    apply andb_false_iff; right. apply is_nil_false. apply aset_not_nil.
  - apply andb_false_iff; left. apply is_nil_false. apply aset_not_nil.
Qed.

Lemma node_insert_cont rest flt id q g : forall n p,
  cont (fst (node_insert rest flt id q g n)) p =
  if path_eq_dec p rest then ci (cont n rest) flt id q g else cont n p.
Proof.
  induction rest as [|item rest IH]; intros n p; cbn [node_insert].
  - destruct (content_insert (r_content n) flt id q g) as [c' pn] eqn:E. cbn.
    destruct p as [|k p]; cbn; pdec.
    unfold ci. rewrite E. reflexivity.
  - specialize (IH (child n item)). unfold child in IH.
    destruct (node_insert rest flt id q g _) as [child' pn]. cbn in *.
    destruct p as [|k p]; [cbn; pdec; reflexivity|]. cbn.
    rewrite aget_aset. destruct (eqb_spec k item) as [->|Hne].
    + rewrite IH. destruct (path_eq_dec p rest) as [->|Hp].
      * destruct (path_eq_dec (item :: rest) (item :: rest)); [|congruence].
        f_equal. destruct (aget item (r_kids n)); auto. apply cont_new.
      * destruct (path_eq_dec (item :: p) (item :: rest)); [congruence|].
        destruct (aget item (r_kids n)); auto. apply cont_new.
    + destruct (path_eq_dec (k :: p) (item :: rest)); [congruence|]. reflexivity.
Qed.

Lemma node_insert_panic rest flt id q g : forall n,
  snd (node_insert rest flt id q g n) = snd (content_insert (cont n rest) flt id q g).
Proof.
  induction rest as [|item rest IH]; intros n; cbn [node_insert].
  - destruct (content_insert (r_content n) flt id q g) as [c' pn] eqn:E. cbn. now rewrite E.
  - specialize (IH (child n item)). rewrite cont_cons. rewrite <- IH. unfold child.
    destruct (node_insert rest flt id q g _) as [child' pn]. reflexivity.
Qed.

Lemma node_insert_kids_wf rest flt id q g : forall n,
  kids_wf n -> kids_wf (fst (node_insert rest flt id q g n)).
Proof.
  induction rest as [|item rest IH]; intros n Hwf; cbn [node_insert].
  - destruct (content_insert (r_content n) flt id q g) as [c' pn]. cbn.
    destruct Hwf; cbn; constructor; auto.
  - specialize (IH (child n item) (kids_wf_child _ _ Hwf)). unfold child in IH.
    destruct (node_insert rest flt id q g _) as [child' pn]. cbn in *.
    destruct Hwf as [c ks Hnd Hk]. cbn in *. constructor.
    + now apply NoDup_aset.
    + intros k m. rewrite aget_aset. destruct (eqb_spec k item); [|apply Hk].
      intros [= <-]. exact IH.
Qed.

Lemma node_insert_has_content rest flt id q g n :
  has_content (fst (node_insert rest flt id q g n)).
Proof.
  exists rest. rewrite node_insert_cont. destruct (path_eq_dec rest rest); [|congruence].
  apply ci_nonempty.
Qed.

Lemma node_insert_tidy rest flt id q g : forall n,
  tidy n -> tidy (fst (node_insert rest flt id q g n)).
Proof.
  induction rest as [|item rest IH]; intros n Ht; cbn [node_insert].
  - destruct (content_insert (r_content n) flt id q g) as [c' pn]. cbn.
    destruct Ht; cbn; constructor; auto.
  - specialize (IH (child n item) (tidy_child _ _ Ht)).
    pose proof (node_insert_has_content rest flt id q g (child n item)) as Hc.
    unfold child in IH, Hc.
    destruct (node_insert rest flt id q g _) as [child' pn]. cbn in *.
    destruct Ht as [c ks Hk]. cbn in *. constructor.
    intros k m. rewrite aget_aset. destruct (eqb_spec k item); [|apply Hk].
    intros [= <-]. split; auto.
Qed.

Lemma node_insert_clean rest flt id q g n :
  clean n -> clean (fst (node_insert rest flt id q g n)).
Proof.
  intros Hc p. rewrite node_insert_cont. destruct (path_eq_dec p rest); [|apply Hc].
  rewrite ci_nonempty. congruence.
Qed.

(* ------------------------------------------------------------------ *)
(** * Removal *)

Definition cr c id g := fst (fst (content_remove c true id g)).

Lemma content_remove_fst c b id g : fst (fst (content_remove c b id g)) = cr c id g.
Proof.
  unfold cr, content_remove.
  match goal with |- context [let '(_, _) := ?e in _] => destruct e as [c1 pn] end.
  destruct pn; [reflexivity|]. destruct (content_is_empty c1); reflexivity.
Qed.

Lemma content_remove_panic c b id g :
  snd (content_remove c b id g) = snd (content_remove c true id g).
Proof.
  unfold content_remove.
  match goal with |- context [let '(_, _) := ?e in _] => destruct e as [c1 pn] end.
  destruct pn; [reflexivity|]. destruct (content_is_empty c1); reflexivity.
Qed.

Lemma content_remove_empty c (b : bool) id g :
  content_is_empty (cr c id g) = true -> cr c id g = content_new.
Proof.
  unfold cr, content_remove.
  destruct g as [name|]; cbn.
  - destruct (aget name (c_groups c)) as [s|]; cbn.
    + destruct (sh_remove s id) as [s' pn]. destruct pn; cbn.
      * unfold content_is_empty. cbn. rewrite andb_true_iff. intros [_ H].
        apply is_nil_true in H. now apply aset_not_nil in H.
      * destruct (sh_is_empty s'); cbn;
          match goal with |- context [if content_is_empty ?x then _ else _] =>
            destruct (content_is_empty x) eqn:E end; cbn; intros H; try congruence;
          unfold content_is_empty in E; cbn in E; apply andb_true_iff in E;
          destruct E as [E1 E2]; apply is_nil_true in E1, E2; rewrite E1, E2; reflexivity.
    + destruct (content_is_empty c) eqn:E; cbn; intros H; try congruence.
      unfold content_is_empty in E. apply andb_true_iff in E.
      destruct E as [E1 E2]; apply is_nil_true in E1, E2; rewrite E1, E2; reflexivity.
  - match goal with |- context [if content_is_empty ?x then _ else _] =>
      destruct (content_is_empty x) eqn:E end; cbn; intros H; try congruence.
    unfold content_is_empty in E; cbn in E; apply andb_true_iff in E;
    destruct E as [E1 E2]; apply is_nil_true in E1, E2; rewrite E1, E2; reflexivity.
Qed.

Lemma cr_new id g : cr content_new id g = content_new.
Proof. unfold cr, content_remove. destruct g; reflexivity. Qed.

Lemma content_remove_rm c b id g :
  snd (fst (content_remove c b id g)) = true -> b = true /\ cr c id g = content_new.
Proof.
  intros H. split.
  - revert H. unfold content_remove.
    match goal with |- context [let '(_, _) := ?e in _] => destruct e as [c1 pn] end.
    destruct pn; cbn; [congruence|]. destruct (content_is_empty c1); cbn; congruence.
  - apply (content_remove_empty c b id g).
    revert H. rewrite <- (content_remove_fst c b id g). unfold content_remove.
    match goal with |- context [let '(_, _) := ?e in _] => destruct e as [c1 pn] end.
    destruct pn; cbn; [congruence|].
    destruct (content_is_empty c1) eqn:E; cbn; auto. congruence.
Qed.

Lemma content_remove_norm c b id g :
  snd (fst (content_remove c b id g)) = false ->
  b = false \/ content_is_empty (cr c id g) = false.
Proof.
  intros H. destruct b; [right | now left].
  revert H. rewrite <- (content_remove_fst c true id g). unfold content_remove.
  destruct g as [name|]; cbn.
  - destruct (aget name (c_groups c)) as [s|]; cbn.
    + destruct (sh_remove s id) as [s' pn]. destruct pn; cbn.
      * intros _. unfold content_is_empty; cbn.
        apply andb_false_iff; right. apply is_nil_false. apply aset_not_nil.
      * destruct (sh_is_empty s'); cbn;
          match goal with |- context [if content_is_empty ?x then _ else _] =>
            destruct (content_is_empty x) eqn:E end; cbn; intros H; congruence.
    + destruct (content_is_empty c) eqn:E; cbn; congruence.
  - match goal with |- context [if content_is_empty ?x then _ else _] =>
            destruct (content_is_empty x) eqn:E end; cbn; intros H; congruence.
Qed.

Lemma node_remove_spec rest id g : forall n, kids_wf n -> clean n -> 
  let n' := fst (fst (node_remove rest id g n)) in
  let rm := snd (fst (node_remove rest id g n)) in
  (forall p, cont n' p = if path_eq_dec p rest then cr (cont n rest) id g else cont n p) /\
  (rm = true -> forall p, cont n' p = content_new) /\
  kids_wf n' /\
  (tidy n -> tidy n' /\ (has_content n -> rm = false -> has_content n')).
Proof.
  induction rest as [|item rest IH]; intros n Hwf Hcl; cbn [node_remove].
  - pose proof (content_remove_fst (r_content n) (is_nil (r_kids n)) id g) as Hf.
    pose proof (content_remove_rm (r_content n) (is_nil (r_kids n)) id g) as Hr.
    pose proof (content_remove_norm (r_content n) (is_nil (r_kids n)) id g) as Hn.
    destruct (content_remove (r_content n) (is_nil (r_kids n)) id g) as [[c' rm] pn].
    cbn in *. subst c'. refine (conj _ (conj _ (conj _ (fun H => conj _ _)))).
    + intros [|k p]; cbn; pdec; reflexivity.
    + intros E. destruct (Hr E) as [Hk Hc]. apply is_nil_true in Hk. rewrite Hk.
      intros [|k p]; cbn; auto.
    + destruct Hwf; cbn; constructor; auto.
    + destruct H; cbn; constructor; auto.
    + intros [p0 Hp0] E. destruct (Hn E) as [Hk|Hc].
      * destruct H as [c ks Ht]. cbn in *. destruct ks as [|[k m] ks]; [discriminate|].
        destruct (Ht k m) as [[p Hp] _]; [cbn; now rewrite String.eqb_refl|].
        exists (k :: p). cbn. now rewrite String.eqb_refl.
      * exists []. exact Hc.
  - destruct (aget item (r_kids n)) as [m|] eqn:Em.
    2:{ cbn. refine (conj _ (conj _ (conj _ (fun H => conj _ _)))); auto; try congruence.
        intros p. destruct (path_eq_dec p (item :: rest)) as [->|]; auto.
        cbn. rewrite Em. symmetry. apply cr_new. }
    assert (Hm : child n item = m) by (unfold child; now rewrite Em).
    specialize (IH m). rewrite <- Hm in IH.
    specialize (IH (kids_wf_child _ _ Hwf) (clean_child _ _ Hcl)). rewrite Hm in IH.
    destruct (node_remove rest id g m) as [[m' rm] pn]. cbn in IH.
    destruct IH as (Hcont & Hrm & Hwf' & Htd).
    assert (Hnd : NoDup (keys (r_kids n))) by (destruct Hwf; assumption).
    destruct rm; cbn.
    + assert (Hc1 : forall p, cont (RNode (r_content n) (adel item (r_kids n))) p =
               if path_eq_dec p (item :: rest) then cr (cont n (item :: rest)) id g else cont n p).
      { intros [|k p]; [cbn; pdec; reflexivity|]. cbn. rewrite aget_adel by auto.
        destruct (eqb_spec k item) as [->|Hne].
        - rewrite Em. specialize (Hrm eq_refl p). rewrite Hcont in Hrm.
          destruct (path_eq_dec p rest) as [->|].
          + destruct (path_eq_dec (item :: rest) (item :: rest)); congruence.
          + destruct (path_eq_dec (item :: p) (item :: rest)); congruence.
        - destruct (path_eq_dec (k :: p) (item :: rest)); congruence. }
      refine (conj Hc1 (conj _ (conj _ (fun H => conj _ _)))).
      * intros E p. apply andb_true_iff in E. destruct E as [E1 E2].
        apply is_nil_true in E2. rewrite E2. destruct p as [|k p]; cbn; auto.
        apply (Hcl []). exact E1.
      * destruct Hwf as [c ks Hnd' Hk]; cbn in *. constructor; [now apply NoDup_adel|].
        intros k x. rewrite aget_adel by auto. destruct (eqb k item); [congruence|eauto].
      * destruct H as [c ks Ht]; cbn in *. constructor.
        intros k x. rewrite aget_adel by auto. destruct (eqb k item); [congruence|eauto].
      * intros _ E. apply andb_false_iff in E. destruct E as [E|E].
        -- exists []. exact E.
        -- destruct H as [c ks Ht]; cbn in *.
           destruct (adel item ks) as [|[k x] r] eqn:Ed; [discriminate|].
           assert (Hx : aget k (adel item ks) = Some x) by (rewrite Ed; cbn; now rewrite String.eqb_refl).
           rewrite aget_adel in Hx by auto. destruct (eqb k item); [congruence|].
           destruct (Ht _ _ Hx) as [[p Hp] _].
           exists (k :: p). cbn. now rewrite String.eqb_refl.
    + refine (conj _ (conj _ (conj _ (fun H => conj _ _)))).
      * intros [|k p]; [cbn; pdec; reflexivity|]. cbn. rewrite aget_aset.
        destruct (eqb_spec k item) as [->|Hne].
        -- rewrite Em, Hcont. destruct (path_eq_dec p rest) as [->|].
           ++ destruct (path_eq_dec (item :: rest) (item :: rest)); congruence.
           ++ destruct (path_eq_dec (item :: p) (item :: rest)); congruence.
        -- destruct (path_eq_dec (k :: p) (item :: rest)); congruence.
      * congruence.
      * destruct Hwf as [c ks Hnd' Hk]; cbn in *. constructor; [now apply NoDup_aset|].
        intros k x. rewrite aget_aset. destruct (eqb k item); [|eauto]. intros [= <-]; auto.
      * destruct H as [c ks Ht]; cbn in *. constructor.
        intros k x. rewrite aget_aset. destruct (eqb k item); [|eauto].
        intros [= <-]. destruct (Ht _ _ Em) as [Hh Hti]. destruct (Htd Hti). auto.
      * intros _ _. destruct H as [c ks Ht]; cbn in *.
        destruct (Ht _ _ Em) as [Hh Hti]. destruct (Htd Hti) as [_ Hx].
        destruct (Hx Hh eq_refl) as [p Hp]. exists (item :: p). cbn.
        rewrite aget_aset_eq. exact Hp.
Qed.

Lemma node_remove_clean rest id g n : kids_wf n -> clean n ->
  clean (fst (fst (node_remove rest id g n))).
Proof.
  intros Hwf Hcl p. destruct (node_remove_spec rest id g n Hwf Hcl) as [Hc _].
  rewrite Hc. destruct (path_eq_dec p rest); [apply (content_remove_empty _ true) | apply Hcl].
Qed.

Lemma node_remove_panic rest id g : forall n,
  snd (node_remove rest id g n) = snd (content_remove (cont n rest) true id g).
Proof.
  induction rest as [|item rest IH]; intros n; cbn [node_remove].
  - rewrite <- (content_remove_panic _ (is_nil (r_kids n))).
    cbn. destruct (content_remove (r_content n) (is_nil (r_kids n)) id g) as [[c' rm] pn]. reflexivity.
  - cbn [cont]. destruct (aget item (r_kids n)) as [m|] eqn:Em.
    + rewrite <- IH. destruct (node_remove rest id g m) as [[m' rm] pn]. destruct rm; reflexivity.
    + cbn. unfold content_remove. destruct g; reflexivity.
Qed.

(* ------------------------------------------------------------------ *)
(** * The table as the children of a root node *)

Definition root (t : route_table) : rnode := RNode content_new t.

Lemma subscribe_shared_root t flt id q g :
  root (fst (subscribe_shared t flt id q g)) = fst (node_insert (levels flt) flt id q g (root t)) /\
  snd (subscribe_shared t flt id q g) = snd (node_insert (levels flt) flt id q g (root t)).
Proof.
  unfold subscribe_shared. destruct (levels flt) as [|item rest] eqn:E.
  - now apply levels_not_nil in E.
  - cbn. destruct (node_insert rest flt id q g _) as [c' pn]. split; reflexivity.
Qed.

Lemma unsubscribe_shared_root t flt id g :
  root (fst (unsubscribe_shared t flt id g)) = fst (fst (node_remove (levels flt) id g (root t))) /\
  snd (unsubscribe_shared t flt id g) = snd (node_remove (levels flt) id g (root t)).
Proof.
  unfold unsubscribe_shared. destruct (levels flt) as [|item rest] eqn:E.
  - now apply levels_not_nil in E.
  - cbn. destruct (aget item t) as [m|]; [|split; reflexivity].
    destruct (node_remove rest id g m) as [[c' rm] pn]. destruct rm; split; reflexivity.
Qed.

(* ------------------------------------------------------------------ *)
(** * Lookup *)

(** The paths whose contents [node_matches] returns. *)
Fixpoint match_paths (prev : string) (topic : list string) (n : rnode) : list (list string) :=
  if String.eqb prev MATCH_ALL then
    if content_is_empty (r_content n) then [] else [[]]
  else
    match topic with
    | item :: rest =>
        flat_map (fun it => match aget it (r_kids n) with
                            | Some m => map (cons it) (match_paths it rest m)
                            | None => []
                            end) [item; MATCH_ALL; MATCH_ONE]
    | [] =>
        (if content_is_empty (r_content n) then [] else [[]]) ++
        match aget MATCH_ALL (r_kids n) with
        | Some m => if content_is_empty (r_content m) then [] else [[MATCH_ALL]]
        | None => []
        end
    end.

Lemma node_matches_paths topic : forall prev n,
  node_matches prev topic n = map (cont n) (match_paths prev topic n).
Proof.
  assert (Hne : forall n, nonempty_content (r_content n) =
            map (cont n) (if content_is_empty (r_content n) then [] else [[]])).
  { intros n. unfold nonempty_content. destruct (content_is_empty (r_content n)); reflexivity. }
  induction topic as [|item rest IH]; intros prev n; cbn [node_matches match_paths].
  - destruct (String.eqb prev MATCH_ALL); [apply Hne|].
    rewrite map_app, <- Hne. f_equal. unfold MATCH_ALL.
    destruct (aget "#"%string (r_kids n)) as [m|] eqn:E; [|reflexivity].
    unfold nonempty_content. destruct (content_is_empty (r_content m)); [reflexivity|].
    cbn [map cont]. now rewrite E.
  - destruct (String.eqb prev MATCH_ALL); [apply Hne|].
    assert (Hit : forall it,
       match aget it (r_kids n) with Some m => node_matches it rest m | None => [] end =
       map (cont n) match aget it (r_kids n) with
                    | Some m => map (cons it) (match_paths it rest m) | None => [] end).
    { intros it. destruct (aget it (r_kids n)) as [m|] eqn:E; [|reflexivity].
      rewrite IH, map_map. apply map_ext. intros p. cbn. now rewrite E. }
    cbn [flat_map]. rewrite !map_app, !Hit. reflexivity.
Qed.

Lemma in_match_paths topic : forall prev n p,
  Forall (fun l => l <> "+"%string /\ l <> "#"%string) topic ->
  (In p (match_paths prev topic n) <->
   content_is_empty (cont n p) = false /\
   (if String.eqb prev MATCH_ALL then p = [] else filter_matches p topic)).
Proof.
  assert (H0 : forall n p, In p (if content_is_empty (r_content n) then [] else [[]]) <->
             content_is_empty (cont n p) = false /\ p = []).
  { intros n p. destruct (content_is_empty (r_content n)) eqn:E; cbn.
    - split; [tauto|]. intros [H ->]. cbn in H. congruence.
    - split; [intros [<-|[]]; auto|]. intros [_ ->]. auto. }
  induction topic as [|item rest IH]; intros prev n p Htop; cbn [match_paths].
  - destruct (String.eqb_spec prev MATCH_ALL) as [->|Hprev]; [apply H0|].
    rewrite in_app_iff, H0.
    assert (Hs : In p match aget MATCH_ALL (r_kids n) with
                      | Some m => if content_is_empty (r_content m) then [] else [[MATCH_ALL]]
                      | None => [] end <->
                 content_is_empty (cont n p) = false /\ p = [MATCH_ALL]).
    { unfold MATCH_ALL. destruct (aget "#"%string (r_kids n)) as [m|] eqn:E.
      - destruct (content_is_empty (r_content m)) eqn:E2; cbn.
        + split; [tauto|]. intros [H ->]. cbn in H. rewrite E in H. congruence.
        + split; [|intros [_ ->]; auto]. intros [<-|[]]. split; auto. cbn. now rewrite E.
      - cbn. split; [tauto|]. intros [H ->]. cbn in H. rewrite E in H. discriminate. }
    rewrite Hs. split.
    + intros [[H ->]|[H ->]]; split; auto; constructor.
    + intros [H Hm]. inversion Hm; subst; auto.
  - destruct (String.eqb_spec prev MATCH_ALL) as [->|Hprev]; [apply H0|].
    inversion Htop as [|? ? [Hi1 Hi2] Hrest]; subst.
    assert (Hit : forall it,
       In p match aget it (r_kids n) with
            | Some m => map (cons it) (match_paths it rest m) | None => [] end <->
       content_is_empty (cont n p) = false /\
       exists p', p = it :: p' /\ (if String.eqb it MATCH_ALL then p' = [] else filter_matches p' rest)).
    { intros it. destruct (aget it (r_kids n)) as [m|] eqn:E.
      - rewrite in_map_iff. split.
        + intros (p' & <- & Hin). apply IH in Hin; auto. destruct Hin as [Ha Hb].
          cbn. rewrite E. eauto.
        + intros [Ha (p' & -> & Hb)]. cbn in Ha. rewrite E in Ha.
          exists p'. split; auto. apply IH; auto.
      - cbn. split; [tauto|]. intros [Ha (p' & -> & _)]. cbn in Ha. rewrite E in Ha. discriminate. }
    cbn [flat_map]. rewrite !in_app_iff, !Hit. cbn [In].
    split.
    + intros [[Ha (p' & -> & Hb)]|[[Ha (p' & -> & Hb)]|[[Ha (p' & -> & Hb)]|[]]]]; split; auto.
      * unfold MATCH_ALL in Hb. destruct (String.eqb_spec item "#"); [congruence|].
        constructor; auto.
      * unfold MATCH_ALL in *. cbn in Hb. subst. constructor.
      * cbn in Hb. constructor; auto.
    + intros [Ha Hm]. inversion Hm; subst.
      * right; left. split; auto. exists []. split; reflexivity.
      * right; right; left. split; auto. eexists; split; [reflexivity|]. cbn. assumption.
      * left. split; auto. eexists; split; [reflexivity|]. unfold MATCH_ALL.
        destruct (String.eqb_spec item "#"); congruence.
Qed.

Lemma NoDup_map_cons {A} (x : A) l : NoDup l -> NoDup (map (cons x) l).
Proof.
  intros H. apply FinFun.Injective_map_NoDup; auto. intros a b E. congruence.
Qed.

Lemma NoDup_app_disj {A} (a b : list A) :
  NoDup a -> NoDup b -> (forall x, In x a -> ~ In x b) -> NoDup (a ++ b).
Proof.
  induction a as [|x a IH]; cbn; auto. intros Ha Hb Hd. inversion Ha; subst.
  constructor.
  - rewrite in_app_iff. intros [?|?]; [auto | eapply Hd; eauto].
  - apply IH; auto.
Qed.

Lemma match_paths_nodup topic : forall prev n,
  Forall (fun l => l <> "+"%string /\ l <> "#"%string) topic ->
  NoDup (match_paths prev topic n).
Proof.
  assert (H0 : forall n, NoDup (if content_is_empty (r_content n) then [] else [@nil string])).
  { intros n. destruct (content_is_empty (r_content n)); repeat constructor. intros []. }
  induction topic as [|item rest IH]; intros prev n Htop; cbn [match_paths].
  - destruct (String.eqb prev MATCH_ALL); auto.
    apply NoDup_app_disj; auto.
    + destruct (aget MATCH_ALL (r_kids n)) as [m|]; [|constructor].
      destruct (content_is_empty (r_content m)); repeat constructor. intros [].
    + intros x. destruct (content_is_empty (r_content n)); [intros []|]. intros [<-|[]].
      destruct (aget MATCH_ALL (r_kids n)) as [m|]; [|intros []].
      destruct (content_is_empty (r_content m)); cbn; [tauto|]. intros [?|[]]. congruence.
  - destruct (String.eqb prev MATCH_ALL); auto.
    inversion Htop as [|? ? [Hi1 Hi2] Hrest]; subst. cbn [flat_map].
    assert (Hh : forall it x, In x match aget it (r_kids n) with
            | Some m => map (cons it) (match_paths it rest m) | None => [] end ->
            exists p, x = it :: p).
    { intros it x. destruct (aget it (r_kids n)); [|intros []].
      rewrite in_map_iff. intros (p & <- & _). eauto. }
    assert (Hd : forall it, NoDup match aget it (r_kids n) with
            | Some m => map (cons it) (match_paths it rest m) | None => [] end).
    { intros it. destruct (aget it (r_kids n)); [|constructor]. apply NoDup_map_cons; auto. }
    rewrite app_nil_r. apply NoDup_app_disj; auto; [apply NoDup_app_disj; auto|].
    + intros x H1 H2. apply Hh in H1, H2. destruct H1 as [p1 ->], H2 as [p2 [=]].
    + intros x H1 H2. apply in_app_iff in H2. apply Hh in H1. destruct H1 as [p1 ->].
      destruct H2 as [H2|H2]; apply Hh in H2; destruct H2 as [p2 [=]]; unfold MATCH_ALL, MATCH_ONE in *; congruence.
Qed.

(** Paths returned by the table lookup. *)
Definition table_paths (t : route_table) (topic : string) : list (list string) :=
  match levels topic with
  | [] => []
  | item :: rest =>
      let at_key k := match aget k t with Some n => map (cons k) (match_paths k rest n) | None => [] end in
      at_key item ++
      (if starts_with_dollar topic then [] else at_key MATCH_ALL ++ at_key MATCH_ONE)
  end.

Lemma rt_get_matches_paths t topic :
  rt_get_matches t topic = map (cont (root t)) (table_paths t topic).
Proof.
  unfold rt_get_matches, table_paths. destruct (levels topic) as [|item rest]; [reflexivity|].
  assert (Hit : forall it,
       match aget it t with Some m => node_matches it rest m | None => [] end =
       map (cont (root t)) match aget it t with
                    | Some m => map (cons it) (match_paths it rest m) | None => [] end).
  { intros it. destruct (aget it t) as [m|] eqn:E; [|reflexivity].
    rewrite node_matches_paths, map_map. apply map_ext. intros p. cbn. now rewrite E. }
  cbn zeta. rewrite map_app, !Hit. f_equal.
  destruct (starts_with_dollar topic); rewrite ?map_app; reflexivity.
Qed.

Lemma starts_with_dollar_spec t : starts_with_dollar t = true <-> begins_with_dollar t.
Proof.
  unfold begins_with_dollar. destruct t as [|c r]; cbn.
  - split; [congruence|]. intros [r E]. congruence.
  - destruct (Ascii.eqb_spec c "$"%char) as [->|H]; split; intros E; eauto; try congruence.
    destruct E as [r' E]. congruence.
Qed.

Lemma wild_first_level f : filter_matches (levels f) [] \/ True ->
  (exists p, levels f = "#"%string :: p \/ levels f = "+"%string :: p) -> begins_with_wildcard f.
Proof.
  intros _ [p H]. rewrite <- (join_levels f). unfold begins_with_wildcard.
  destruct H as [H|H]; rewrite H; destruct p; cbn; eauto.
Qed.

Lemma in_table_paths t topic f : valid_topic_name topic ->
  (In (levels f) (table_paths t topic) <->
   content_is_empty (cont (root t) (levels f)) = false /\ topic_matches f topic).
Proof.
  intros Hv.
  assert (Htop : Forall (fun l => l <> "+"%string /\ l <> "#"%string) (levels topic)).
  { apply Forall_forall. intros l Hl. now apply (valid_topic_levels topic). }
  pose proof (in_match_paths (levels topic) ""%string (root t) (levels f) Htop) as Hm.
  unfold topic_matches, table_paths. rewrite <- starts_with_dollar_spec.
  destruct (levels topic) as [|item rest] eqn:El; [now apply levels_not_nil in El|].
  cbn in Hm. rewrite app_nil_r in Hm.
  destruct (starts_with_dollar topic) eqn:Ed.
  - rewrite app_nil_r.
    assert (Hhd : forall k x, In x match aget k t with
              | Some n => map (cons k) (match_paths k rest n) | None => [] end -> exists p', x = k :: p').
    { intros k x. destruct (aget k t); [|intros []]. rewrite in_map_iff. intros (q & <- & _). eauto. }
    assert (Hitem : exists r', item = String "$"%char r').
    { apply starts_with_dollar_spec in Ed. destruct Ed as [r Er]. subst topic. cbn in El.
      destruct (levels r) as [|h tl]; injection El; intros; subst; eauto. }
    split.
    + intros Hin. destruct (Hhd _ _ Hin) as [p' Hp'].
      destruct Hm as [Hm _]. destruct Hm as [Ha Hb].
      { apply in_app_iff. left. exact Hin. }
      repeat split; auto.
      intros _ [r Hw]. destruct Hitem as [r' Hx]. subst item.
      rewrite <- (join_levels f), Hp' in Hw. destruct p'; cbn in Hw; destruct Hw as [Hw|Hw]; congruence.
    + intros [Ha [Hb Hc]]. destruct Hm as [_ Hm].
      specialize (Hm (conj Ha Hb)). apply in_app_iff in Hm. destruct Hm as [Hm|Hm]; auto.
      exfalso. apply (Hc eq_refl). apply wild_first_level; [now right|].
      apply in_app_iff in Hm. destruct Hm as [Hm|Hm]; apply Hhd in Hm; destruct Hm as [p' Hp']; eauto.
  - split.
    + intros Hin. apply Hm in Hin. destruct Hin. repeat split; auto. congruence.
    + intros [Ha [Hb _]]. apply Hm. auto.
Qed.

Lemma table_paths_nodup t topic : valid_topic_name topic -> NoDup (table_paths t topic).
Proof.
  intros Hv.
  assert (Htop : Forall (fun l => l <> "+"%string /\ l <> "#"%string) (levels topic)).
  { apply Forall_forall. intros l Hl. now apply (valid_topic_levels topic). }
  pose proof (match_paths_nodup (levels topic) ""%string (root t) Htop) as Hm.
  unfold table_paths. destruct (levels topic) as [|item rest] eqn:El; [constructor|].
  cbn in Hm. rewrite app_nil_r in Hm. destruct (starts_with_dollar topic); auto.
  rewrite app_nil_r. clear -Hm. match type of Hm with NoDup (?a ++ _) => revert Hm; generalize a end.
  intros a. match goal with |- NoDup (_ ++ ?b) -> _ => generalize b end.
  intros b H. induction a as [|x a IH]; [constructor|]. cbn in H. inversion H; subst.
  constructor; auto. intros Hin. match goal with Hn : ~ In _ _ |- _ => apply Hn end.
  apply in_app_iff. auto.
Qed.
