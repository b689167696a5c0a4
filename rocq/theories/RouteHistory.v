(** The routing table after an arbitrary history. *)
From Coq Require Import List Bool String Ascii NArith Arith Lia Permutation.
From Verif Require Import Base BaseLemmas TopicModel TopicSpec TopicProofs RouteModel RouteSpec RouteProofs.
Import ListNotations.

(* ------------------------------------------------------------------ *)
(** * Lists *)

Lemma list_set_spec {A} (x : A) l : forall i,
  match list_set i x l with
  | Some l' => i < List.length l /\ List.length l' = List.length l /\
               forall j, nth_error l' j = if Nat.eqb j i then Some x else nth_error l j
  | None => List.length l <= i
  end.
Proof.
  induction l as [|y l IH]; intros [|i]; cbn [list_set List.length].
  - lia.
  - lia.
  - repeat split; [lia|]. intros [|j]; reflexivity.
  - specialize (IH i). destruct (list_set i x l) as [l'|]; cbn; [|lia].
    destruct IH as (H1 & H2 & H3). repeat split; [lia|lia|].
    intros [|j]; cbn; [reflexivity|apply H3].
Qed.

Lemma swap_remove_snoc {A} (l : list A) x i :
  swap_remove i (l ++ [x]) = if Nat.eqb i (List.length l) then Some l else list_set i x l.
Proof.
  unfold swap_remove. rewrite rev_app_distr. cbn. rewrite app_length, rev_involutive. cbn.
  replace (List.length l + 1 - 1) with (List.length l) by lia. reflexivity.
Qed.

Lemma nth_error_snoc {A} (l : list A) x j :
  nth_error (l ++ [x]) j = if Nat.eqb j (List.length l) then Some x else nth_error l j.
Proof.
  destruct (Nat.eqb_spec j (List.length l)) as [->|Hne].
  - rewrite nth_error_app2 by lia. now rewrite Nat.sub_diag.
  - destruct (Nat.lt_ge_cases j (List.length l)).
    + now rewrite nth_error_app1.
    + rewrite nth_error_app2 by lia. destruct (j - List.length l) as [|[|k]] eqn:E; [lia| |].
      * cbn. symmetry. apply nth_error_None. lia.
      * cbn. symmetry. apply nth_error_None. lia.
Qed.

Lemma nth_error_ext {A} (a b : list A) : (forall j, nth_error a j = nth_error b j) -> a = b.
Proof.
  revert b. induction a as [|x a IH]; intros [|y b] H; auto.
  - specialize (H 0). discriminate.
  - specialize (H 0). discriminate.
  - f_equal; [specialize (H 0); cbn in H; congruence|]. apply IH. intros j. apply (H (S j)).
Qed.

Lemma list_snoc_cases {A} (l : list A) : l = [] \/ exists l' x, l = l' ++ [x].
Proof. destruct l using rev_ind; eauto. Qed.

(* ------------------------------------------------------------------ *)
(** * Shared groups *)

(** The index is right for every stored member; it may hold stale entries. *)
Definition sh_ok (s : shared) : Prop :=
  NoDup (keys (sh_index s)) /\
  forall j c q, nth_error (sh_items s) j = Some (c, q) -> aget c (sh_index s) = Some j.

(** No stale entries. *)
Definition sh_exact (s : shared) : Prop :=
  forall c j, aget c (sh_index s) = Some j -> exists q, nth_error (sh_items s) j = Some (c, q).

Lemma sh_ok_empty : sh_ok sh_empty.
Proof. split; [constructor|]. intros [|j] c q H; discriminate. Qed.
Lemma sh_exact_empty : sh_exact sh_empty.
Proof. intros c j H. discriminate. Qed.

Lemma sh_ok_nodup s : sh_ok s -> NoDup (keys (sh_items s)).
Proof.
  intros [_ H]. apply NoDup_nth_error. intros i j Hi E.
  unfold keys in *. rewrite map_length in Hi.
  rewrite !nth_error_map in E.
  destruct (nth_error (sh_items s) i) as [[c q]|] eqn:E1.
  2:{ apply nth_error_None in E1. lia. }
  destruct (nth_error (sh_items s) j) as [[c' q']|] eqn:E2; [|discriminate].
  cbn in E. injection E as <-. apply H in E1, E2. congruence.
Qed.

Lemma sh_insert_ok s id q : sh_ok s -> (sh_items s = [] -> s = sh_empty) ->
  let s' := fst (sh_insert s id q) in
  sh_ok s' /\ sh_items s' <> [] /\
  (forall c qc, In (c, qc) (sh_items s') -> c = id \/ In c (keys (sh_items s))).
Proof.
  intros [Hnd Hok] Hemp. unfold sh_insert.
  destruct (aget id (sh_index s)) as [idx|] eqn:Ei; cbn.
  - assert (Hne : sh_items s <> []).
    { intros E. rewrite (Hemp E) in Ei. discriminate. }
    destruct (nth_error (sh_items s) idx) as [[old qo]|] eqn:En; cbn.
    2:{ split; [split; auto|]. split; auto. intros c qc Hin. right. unfold keys.
        apply in_map_iff. exists (c, qc). auto. }
    pose proof (list_set_spec (old, q) (sh_items s) idx) as Hls.
    destruct (list_set idx (old, q) (sh_items s)) as [items'|]; cbn.
    2:{ apply nth_error_None in Hls. congruence. }
    destruct Hls as (H1 & H2 & H3). repeat split; cbn; auto.
    + intros j c qc. rewrite H3. destruct (Nat.eqb_spec j idx) as [->|]; [|apply Hok].
      intros [= <- <-]. eapply Hok; eauto.
    + intros ->. cbn in H2. lia.
    + intros c qc Hin. right. apply In_nth_error in Hin. destruct Hin as [j Hj].
      rewrite H3 in Hj. unfold keys. apply in_map_iff.
      destruct (Nat.eqb_spec j idx).
      * injection Hj as <- <-. exists (old, qo). split; auto. eapply nth_error_In; eauto.
      * exists (c, qc). split; auto. eapply nth_error_In; eauto.
  - repeat split; cbn.
    + now apply NoDup_aset.
    + intros j c qc. rewrite nth_error_snoc. destruct (Nat.eqb_spec j (List.length (sh_items s))) as [->|].
      * intros [= <- <-]. apply aget_aset_eq.
      * intros Hj. apply Hok in Hj. rewrite aget_aset_ne; auto. congruence.
    + destruct (sh_items s); discriminate.
    + intros c qc Hin. apply in_app_iff in Hin. destruct Hin as [Hin|[[= <- <-]|[]]]; auto.
      right. unfold keys. apply in_map_iff. exists (c, qc). auto.
Qed.

Lemma sh_insert_exact s id q : sh_ok s -> sh_exact s ->
  snd (sh_insert s id q) = false /\
  sh_exact (fst (sh_insert s id q)) /\
  keys (sh_items (fst (sh_insert s id q))) =
    (if existsb (N.eqb id) (keys (sh_items s)) then keys (sh_items s) else keys (sh_items s) ++ [id]) /\
  (forall c, aget c (sh_items (fst (sh_insert s id q))) = if N.eqb c id then Some q else aget c (sh_items s)).
Proof.
  intros Hok Hex. pose proof (sh_ok_nodup _ Hok) as Hnd.
  assert (Hmem : existsb (N.eqb id) (keys (sh_items s)) = true <-> In id (keys (sh_items s))).
  { rewrite existsb_exists. split.
    - intros (x & Hin & E). apply N.eqb_eq in E. now subst.
    - intros Hin. exists id. split; auto. apply N.eqb_refl. }
  unfold sh_insert. destruct (aget id (sh_index s)) as [idx|] eqn:Ei.
  - destruct (Hex _ _ Ei) as [qo Hn]. rewrite Hn.
    pose proof (list_set_spec (id, q) (sh_items s) idx) as Hls.
    destruct (list_set idx (id, q) (sh_items s)) as [items'|]; cbn.
    2:{ apply nth_error_None in Hls. congruence. }
    destruct Hls as (H1 & H2 & H3).
    assert (Hin : In id (keys (sh_items s))).
    { unfold keys. apply in_map_iff. exists (id, qo). split; auto. eapply nth_error_In; eauto. }
    assert (Hk : keys items' = keys (sh_items s)).
    { apply nth_error_ext. intros j. unfold keys. rewrite !nth_error_map, H3.
      destruct (Nat.eqb_spec j idx) as [->|]; [now rewrite Hn | reflexivity]. }
    refine (conj eq_refl (conj _ (conj _ _))).
    + intros c j Hc. cbn in *. rewrite H3. destruct (Nat.eqb_spec j idx) as [->|].
      * destruct (Hex _ _ Hc) as [q' Hq']. rewrite Hn in Hq'. injection Hq' as <- <-. eauto.
      * now apply Hex.
    + destruct (existsb (N.eqb id) (keys (sh_items s))); auto.
      assert (false = true) by (apply Hmem; auto). discriminate.
    + intros c. assert (Hnd' : NoDup (keys items')) by (rewrite Hk; auto).
      destruct (N.eqb_spec c id) as [->|Hne].
      * apply in_aget; auto. apply nth_error_In with (n := idx). rewrite H3, Nat.eqb_refl. reflexivity.
      * destruct (aget c (sh_items s)) as [qc|] eqn:Ec.
        -- apply aget_Some_in in Ec. apply In_nth_error in Ec. destruct Ec as [j Hj].
           apply in_aget; auto. apply nth_error_In with (n := j). rewrite H3.
           destruct (Nat.eqb_spec j idx) as [->|]; [congruence|eauto].
        -- apply aget_None_notin. apply aget_None_notin in Ec. now rewrite Hk.
  - cbn. assert (Hni : ~ In id (keys (sh_items s))).
    { intros Hin. unfold keys in Hin. apply in_map_iff in Hin. destruct Hin as ([c qc] & E & Hin).
      cbn in E. subst c. apply In_nth_error in Hin. destruct Hin as [j Hj].
      destruct Hok as [_ Hok]. apply Hok in Hj. congruence. }
    refine (conj eq_refl (conj _ (conj _ _))).
    + intros c j. cbn. rewrite aget_aset. destruct (eqb_spec c id) as [->|].
      * intros [= <-]. exists q. rewrite nth_error_snoc, Nat.eqb_refl. reflexivity.
      * intros Hc. destruct (Hex _ _ Hc) as [qc Hq]. exists qc.
        rewrite nth_error_app1; auto. apply nth_error_Some. congruence.
    + destruct (existsb (N.eqb id) (keys (sh_items s))).
      * exfalso. apply Hni, Hmem. reflexivity.
      * unfold keys. now rewrite map_app.
    + intros c. rewrite <- (aset_notin id q) by auto. rewrite aget_aset. reflexivity.
Qed.

Lemma sh_remove_ok s id : sh_ok s ->
  let s' := fst (sh_remove s id) in
  sh_ok s' /\
  (forall c qc, In (c, qc) (sh_items s') -> c <> id /\ In (c, qc) (sh_items s)) /\
  (snd (sh_remove s id) = true -> sh_items s' = sh_items s).
Proof.
  intros [Hnd Hok]. unfold sh_remove.
  destruct (aget id (sh_index s)) as [idx|] eqn:Ei.
  2:{ cbn. split; [split; auto|]. split; [|congruence].
      intros c qc Hin. split; auto. intros ->. apply In_nth_error in Hin.
      destruct Hin as [j Hj]. apply Hok in Hj. congruence. }
  assert (Hnd1 : NoDup (keys (adel id (sh_index s)))) by now apply NoDup_adel.
  destruct (Nat.eqb_spec (List.length (sh_items s)) 1) as [Hlen|Hlen]; cbn.
  { split; [split|split]; cbn; auto; try tauto; try congruence.
    intros [|j] c q H; discriminate. }
  destruct (list_snoc_cases (sh_items s)) as [E|(l & [z qz] & E)].
  { rewrite E. cbn. split; [split|split]; cbn; auto; try tauto.
    intros [|j] c q H; discriminate. }
  rewrite E in *. rewrite rev_app_distr. cbn.
  assert (Hz : aget z (sh_index s) = Some (List.length l)).
  { apply (Hok _ _ qz). rewrite nth_error_snoc, Nat.eqb_refl. reflexivity. }
  rewrite swap_remove_snoc. destruct (Nat.eqb_spec idx (List.length l)) as [Hidx|Hidx].
  - cbn. split; [split|split]; cbn; auto; try congruence.
    + now apply NoDup_aset.
    + intros j c q Hj. assert (Hjl : j < List.length l) by (apply nth_error_Some; congruence).
      assert (Hc : aget c (sh_index s) = Some j).
      { apply (Hok _ _ q). rewrite nth_error_app1; auto. }
      rewrite aget_aset_ne.
      2:{ intros ->. rewrite Hz in Hc. injection Hc as Hc. lia. }
      rewrite aget_adel_ne; auto. intros ->. rewrite Ei in Hc. injection Hc as Hc. lia.
    + intros c qc Hin. split; [|apply in_app_iff; auto].
      intros ->. apply In_nth_error in Hin. destruct Hin as [j Hj].
      assert (Hjl : j < List.length l) by (apply nth_error_Some; congruence).
      assert (Hc : aget id (sh_index s) = Some j) by (apply (Hok _ _ qc); rewrite nth_error_app1; auto).
      rewrite Ei in Hc. injection Hc as Hc. lia.
  - pose proof (list_set_spec (z, qz) l idx) as Hls.
    destruct (list_set idx (z, qz) l) as [items'|]; cbn.
    + destruct Hls as (H1 & H2 & H3). split; [split|split]; cbn; auto; try congruence.
      * now apply NoDup_aset.
      * intros j c q. rewrite H3. destruct (Nat.eqb_spec j idx) as [->|Hj].
        -- intros [= <- <-]. apply aget_aset_eq.
        -- intros Hn. assert (Hjl : j < List.length l) by (apply nth_error_Some; congruence).
           assert (Hc : aget c (sh_index s) = Some j).
           { apply (Hok _ _ q). rewrite nth_error_app1; auto. }
           rewrite aget_aset_ne.
           2:{ intros ->. rewrite Hz in Hc. injection Hc as Hc. lia. }
           rewrite aget_adel_ne; auto. intros ->. rewrite Ei in Hc. injection Hc as Hc. lia.
      * intros c qc Hin. apply In_nth_error in Hin. destruct Hin as [j Hj].
        rewrite H3 in Hj. destruct (Nat.eqb_spec j idx) as [Ej|Hne].
        -- subst j. injection Hj as <- <-. split; [|apply in_app_iff; cbn; auto].
           intros ->. rewrite Ei in Hz. injection Hz as Hz. lia.
        -- assert (Hjl : j < List.length l) by (apply nth_error_Some; congruence).
           split; [|apply in_app_iff; left; eapply nth_error_In; eauto].
           intros ->.
           assert (Hc : aget id (sh_index s) = Some j) by (apply (Hok _ _ qc); rewrite nth_error_app1; auto).
           rewrite Ei in Hc. injection Hc as Hc. lia.
    + split; [split|split]; cbn; auto.
      * intros j c q Hj. rewrite aget_adel_ne; [eauto|]. intros ->.
        apply Hok in Hj as Hc. rewrite Ei in Hc. injection Hc as Hc. subst j.
        assert (idx < List.length (l ++ [(z, qz)])) by (apply nth_error_Some; congruence).
        rewrite app_length in *. cbn in *. lia.
      * intros c qc Hin. split; auto. intros ->. apply In_nth_error in Hin. destruct Hin as [j Hj].
        apply Hok in Hj as Hc. rewrite Ei in Hc. injection Hc as Hc. subst j.
        assert (idx < List.length (l ++ [(z, qz)])) by (apply nth_error_Some; congruence).
        rewrite app_length in *. cbn in *. lia.
Qed.

Lemma existsb_in c l : existsb (N.eqb c) l = true <-> In c l.
Proof.
  rewrite existsb_exists. split.
  - intros (x & Hin & E). apply N.eqb_eq in E. now subst.
  - intros Hin. exists c. split; auto. apply N.eqb_refl.
Qed.

Lemma sh_remove_exact s id : sh_ok s -> sh_exact s ->
  (forall l, keys (sh_items s) = l ++ [id] -> l = []) ->
  snd (sh_remove s id) = false /\
  sh_exact (fst (sh_remove s id)) /\
  keys (sh_items (fst (sh_remove s id))) = leave id (keys (sh_items s)) /\
  (forall c, aget c (sh_items (fst (sh_remove s id))) = if N.eqb c id then None else aget c (sh_items s)).
Proof.
  intros Hok Hex Hlast. pose proof (sh_ok_nodup _ Hok) as Hnd.
  pose proof (sh_remove_ok s id Hok) as Hro. cbn in Hro. destruct Hro as (Hok' & Hsub & _).
  pose proof (sh_ok_nodup _ Hok') as Hnd'.
  assert (Haget : (forall c qc, c <> id -> In (c, qc) (sh_items s) -> In (c, qc) (sh_items (fst (sh_remove s id)))) ->
     forall c, aget c (sh_items (fst (sh_remove s id))) = if N.eqb c id then None else aget c (sh_items s)).
  { intros Hsup c. destruct (N.eqb_spec c id) as [->|Hne].
    - destruct (aget id (sh_items (fst (sh_remove s id)))) eqn:E; auto.
      apply aget_Some_in in E. apply Hsub in E. tauto.
    - destruct (aget c (sh_items s)) as [qc|] eqn:E.
      + apply in_aget; auto. apply Hsup; auto. now apply aget_Some_in.
      + apply aget_None_notin. apply aget_None_notin in E. intros Hin. apply E.
        unfold keys in *. apply in_map_iff in Hin. destruct Hin as ([c' q'] & <- & Hin).
        apply in_map_iff. exists (c', q'). split; auto. now apply Hsub. }
  unfold leave.
  revert Haget Hok' Hsub Hnd'. unfold sh_remove.
  destruct (aget id (sh_index s)) as [idx|] eqn:Ei.
  2:{ cbn. intros Haget _ Hsub _.
      assert (Hni : ~ In id (keys (sh_items s))).
      { intros Hin. unfold keys in Hin. apply in_map_iff in Hin.
        destruct Hin as ([c' q'] & E & Hin). apply Hsub in Hin. cbn in E. tauto. }
      refine (conj eq_refl (conj Hex (conj _ (Haget (fun c qc _ H => H))))).
      destruct (existsb (N.eqb id) (keys (sh_items s))) eqn:Ee; auto.
      apply existsb_in in Ee. tauto. }
  destruct (Hex _ _ Ei) as [qi Hi].
  assert (Hin : In id (keys (sh_items s))).
  { unfold keys. apply in_map_iff. exists (id, qi). split; auto. eapply nth_error_In; eauto. }
  rewrite (proj2 (existsb_in id _) Hin).
  destruct (list_snoc_cases (sh_items s)) as [E|(l & [z qz] & E)].
  { rewrite E in Hi. destruct idx; discriminate. }
  rewrite E in *. unfold keys in *. rewrite map_app in *. cbn [map fst] in *.
  rewrite !rev_app_distr. cbn [rev app].
  destruct (Nat.eqb_spec (List.length (l ++ [(z, qz)])) 1) as [Hlen|Hlen].
  { rewrite app_length in Hlen. cbn in Hlen. destruct l; [|cbn in Hlen; lia]. cbn in *.
    destruct idx as [|idx]; [|destruct idx; discriminate]. cbn in Hi. injection Hi as -> ->.
    rewrite N.eqb_refl. intros Haget _ _ _. refine (conj eq_refl (conj _ (conj eq_refl (Haget _)))).
    - intros c j. cbn. intros Hc. destruct (eqb_spec c id) as [->|Hne].
      + rewrite aget_adel_eq in Hc; [congruence|]. apply Hok.
      + rewrite aget_adel_ne in Hc by auto. destruct (Hex _ _ Hc) as [q Hq]. rewrite E in Hq.
        destruct j as [|[|j]]; cbn in Hq; congruence.
    - intros c qc Hne [[= <- <-]|[]]. congruence. }
  rewrite swap_remove_snoc.
  destruct (N.eqb_spec id z) as [->|Hidz].
  { specialize (Hlast _ eq_refl). apply map_eq_nil in Hlast. subst l. cbn in Hlen. lia. }
  assert (Hidx : idx <> List.length l).
  { intros ->. rewrite nth_error_snoc, Nat.eqb_refl in Hi. congruence. }
  rewrite (proj2 (Nat.eqb_neq _ _) Hidx).
  pose proof (list_set_spec (z, qz) l idx) as Hls.
  rewrite nth_error_snoc, (proj2 (Nat.eqb_neq _ _) Hidx) in Hi.
  destruct (list_set idx (z, qz) l) as [items'|].
  2:{ apply nth_error_None in Hls. congruence. }
  destruct Hls as (H1 & H2 & H3). cbn. intros Haget Hok' Hsub Hnd'.
  destruct Hok as [Hidxnd Hok]. rewrite E in Hok.
  refine (conj eq_refl (conj _ (conj _ (Haget _)))).
  - intros c j. cbn. rewrite aget_aset. destruct (eqb_spec c z) as [->|Hcz].
    + intros [= <-]. exists qz. rewrite H3, Nat.eqb_refl. reflexivity.
    + intros Hc. destruct (eqb_spec c id) as [->|Hci].
      { rewrite aget_adel_eq in Hc; congruence. }
      rewrite aget_adel_ne in Hc by auto. destruct (Hex _ _ Hc) as [q Hq].
      rewrite E, nth_error_snoc in Hq.
      destruct (Nat.eqb_spec j (List.length l)); [congruence|].
      exists q. rewrite H3. destruct (Nat.eqb_spec j idx) as [->|]; [congruence|auto].
  - rewrite rev_involutive. apply nth_error_ext. intros j. rewrite !nth_error_map, H3.
    destruct (Nat.eqb_spec j idx) as [->|Hj].
    + rewrite Hi. cbn. now rewrite N.eqb_refl.
    + destruct (nth_error l j) as [[c qc]|] eqn:En; cbn; auto.
      destruct (N.eqb_spec c id) as [->|]; auto.
      assert (Hj' : aget id (sh_index s) = Some j).
      { apply (Hok _ _ qc). rewrite nth_error_app1; auto. apply nth_error_Some. congruence. }
      congruence.
  - intros c qc Hne Hinc. apply in_app_iff in Hinc. destruct Hinc as [Hinc|[[= <- <-]|[]]].
    + apply In_nth_error in Hinc. destruct Hinc as [j Hj]. eapply nth_error_In with (n := j).
      rewrite H3. destruct (Nat.eqb_spec j idx) as [->|]; [congruence|auto].
    + eapply nth_error_In with (n := idx). rewrite H3, Nat.eqb_refl. reflexivity.
Qed.
