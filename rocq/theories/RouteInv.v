(** Invariants of the routing table over histories. *)
From Coq Require Import List Bool String Ascii NArith Arith Lia Permutation.
From Verif Require Import Base BaseLemmas TopicModel TopicSpec TopicProofs RouteModel RouteSpec
  RouteProofs RouteHistory.
Import ListNotations.

Definition target (f : string) : string * option string :=
  match shared_info f with Some (g, i) => (i, Some g) | None => (f, None) end.

Definition op_filter (o : rop) : string := match o with Sub f _ _ => f | Unsub f _ => f end.

Definition op_content (o : rop) (c : content) : content :=
  match o with
  | Sub f id q => ci c (fst (target f)) id q (snd (target f))
  | Unsub f id => cr c id (snd (target f))
  end.

Lemma target_inj f f' : target f = target f' -> f = f'.
Proof.
  unfold target. destruct (shared_info f) as [[g i]|] eqn:E1;
  destruct (shared_info f') as [[g' i']|] eqn:E2; intros H; injection H; intros; subst.
  - eapply shared_info_inj; eauto.
  - discriminate.
  - discriminate.
  - reflexivity.
Qed.

Lemma rt_step_cont t o p : kids_wf (root t) -> clean (root t) ->
  cont (root (fst (rt_step t o))) p =
  if path_eq_dec p (levels (fst (target (op_filter o))))
  then op_content o (cont (root t) (levels (fst (target (op_filter o))))) else cont (root t) p.
Proof.
  intros Hwf Hcl. destruct o as [f id q|f id]; cbn; unfold rt_subscribe, rt_unsubscribe, target.
  - destruct (shared_info f) as [[g i]|]; cbn;
      rewrite (proj1 (subscribe_shared_root _ _ _ _ _)); apply node_insert_cont.
  - destruct (shared_info f) as [[g i]|]; cbn;
      rewrite (proj1 (unsubscribe_shared_root _ _ _ _));
      match goal with |- cont (fst (fst (node_remove ?l ?i ?g ?n))) _ = _ =>
        exact (proj1 (node_remove_spec l i g n Hwf Hcl) p) end.
Qed.

Lemma rt_step_panic t o :
  snd (rt_step t o) =
  let c := cont (root t) (levels (fst (target (op_filter o)))) in
  match o with
  | Sub f id q => snd (content_insert c (fst (target f)) id q (snd (target f)))
  | Unsub f id => snd (content_remove c true id (snd (target f)))
  end.
Proof.
  destruct o as [f id q|f id]; cbn; unfold rt_subscribe, rt_unsubscribe, target.
  - destruct (shared_info f) as [[g i]|]; cbn;
      rewrite (proj2 (subscribe_shared_root _ _ _ _ _)); apply node_insert_panic.
  - destruct (shared_info f) as [[g i]|]; cbn;
      rewrite (proj2 (unsubscribe_shared_root _ _ _ _)); apply node_remove_panic.
Qed.

Lemma rt_step_struct t o : kids_wf (root t) -> clean (root t) -> tidy (root t) ->
  kids_wf (root (fst (rt_step t o))) /\ clean (root (fst (rt_step t o))) /\
  tidy (root (fst (rt_step t o))).
Proof.
  intros Hwf Hcl Ht. destruct o as [f id q|f id]; cbn; unfold rt_subscribe, rt_unsubscribe.
  - destruct (shared_info f) as [[g i]|]; rewrite (proj1 (subscribe_shared_root _ _ _ _ _));
      (split; [|split]); auto using node_insert_kids_wf, node_insert_clean, node_insert_tidy.
  - destruct (shared_info f) as [[g i]|]; rewrite (proj1 (unsubscribe_shared_root _ _ _ _));
      (split; [|split]); auto using node_remove_clean;
      match goal with |- context [node_remove ?l ?i ?g ?n] =>
        destruct (node_remove_spec l i g n Hwf Hcl) as (_ & _ & H1 & H2) end; auto; apply H2; auto.
Qed.

(** What the content functions do to the parts of a content. *)
Lemma ci_clients c flt id q g x :
  aget x (c_clients (ci c flt id q g)) =
  match g with
  | None => if N.eqb x id then Some q else aget x (c_clients c)
  | Some _ => aget x (c_clients c)
  end.
Proof.
  unfold ci, content_insert. destruct g as [name|]; cbn.
  - destruct (sh_insert _ id q). reflexivity.
  - rewrite aget_aset. reflexivity.
Qed.

Lemma ci_clients_nodup c flt id q g :
  NoDup (keys (c_clients c)) -> NoDup (keys (c_clients (ci c flt id q g))).
Proof.
  intros H. unfold ci, content_insert. destruct g as [name|]; cbn.
  - destruct (sh_insert _ id q). exact H.
  - now apply NoDup_aset.
Qed.

Lemma ci_groups c flt id q g x :
  aget x (c_groups (ci c flt id q g)) =
  match g with
  | Some name => if String.eqb x name
                 then Some (fst (sh_insert (match aget name (c_groups c) with Some s => s | None => sh_empty end) id q))
                 else aget x (c_groups c)
  | None => aget x (c_groups c)
  end.
Proof.
  unfold ci, content_insert. destruct g as [name|]; cbn; [|reflexivity].
  destruct (sh_insert _ id q). cbn. rewrite aget_aset. reflexivity.
Qed.

Lemma ci_groups_nodup c flt id q g :
  NoDup (keys (c_groups c)) -> NoDup (keys (c_groups (ci c flt id q g))).
Proof.
  intros H. unfold ci, content_insert. destruct g as [name|]; cbn; auto.
  destruct (sh_insert _ id q). cbn. now apply NoDup_aset.
Qed.

Lemma ci_filter c flt id q g :
  c_filter (ci c flt id q g) = match c_filter c with None => Some flt | Some f => Some f end.
Proof.
  unfold ci, content_insert. destruct g as [name|]; cbn; auto. destruct (sh_insert _ id q). reflexivity.
Qed.

(** The content before the final "clear the filter if empty". *)
Definition cr_mid (c : content) (id : client_id) (g : option string) : content :=
  match g with
  | Some name =>
      match aget name (c_groups c) with
      | Some s =>
          let '(s', p) := sh_remove s id in
          if negb p && sh_is_empty s' then Content (c_filter c) (c_clients c) (adel name (c_groups c))
          else Content (c_filter c) (c_clients c) (aset name s' (c_groups c))
      | None => c
      end
  | None => Content (c_filter c) (adel id (c_clients c)) (c_groups c)
  end.

Lemma cr_parts c id g :
  c_clients (cr c id g) = c_clients (cr_mid c id g) /\
  c_groups (cr c id g) = c_groups (cr_mid c id g) /\
  (c_filter (cr c id g) = c_filter c \/
   c_filter (cr c id g) = None /\ content_is_empty (cr c id g) = true).
Proof.
  unfold cr, content_remove, cr_mid. destruct g as [name|].
  - destruct (aget name (c_groups c)) as [s|].
    + destruct (sh_remove s id) as [s' pn]. destruct pn; cbn; auto.
      destruct (sh_is_empty s'); cbn;
      match goal with |- context [if content_is_empty ?x then _ else _] =>
        destruct (content_is_empty x) eqn:E end; cbn; auto.
    + destruct (content_is_empty c) eqn:E; cbn; auto.
  - match goal with |- context [if content_is_empty ?x then _ else _] =>
        destruct (content_is_empty x) eqn:E end; cbn; auto.
Qed.

Lemma cr_clients c id g x : NoDup (keys (c_clients c)) ->
  aget x (c_clients (cr c id g)) =
  match g with
  | None => if N.eqb x id then None else aget x (c_clients c)
  | Some _ => aget x (c_clients c)
  end.
Proof.
  intros Hnd. rewrite (proj1 (cr_parts c id g)). unfold cr_mid. destruct g as [name|].
  - destruct (aget name (c_groups c)) as [s|]; auto.
    destruct (sh_remove s id) as [s' pn]. destruct (negb pn && sh_is_empty s'); reflexivity.
  - cbn. rewrite aget_adel by auto. reflexivity.
Qed.

Lemma cr_clients_nodup c id g :
  NoDup (keys (c_clients c)) -> NoDup (keys (c_clients (cr c id g))).
Proof.
  intros H. rewrite (proj1 (cr_parts c id g)). unfold cr_mid. destruct g as [name|].
  - destruct (aget name (c_groups c)) as [s|]; auto.
    destruct (sh_remove s id) as [s' pn]. destruct (negb pn && sh_is_empty s'); exact H.
  - now apply NoDup_adel.
Qed.

Lemma cr_groups_nodup c id g :
  NoDup (keys (c_groups c)) -> NoDup (keys (c_groups (cr c id g))).
Proof.
  intros H. rewrite (proj1 (proj2 (cr_parts c id g))). unfold cr_mid. destruct g as [name|]; auto.
  destruct (aget name (c_groups c)) as [s|]; auto.
  destruct (sh_remove s id) as [s' pn].
  destruct (negb pn && sh_is_empty s'); cbn; [apply NoDup_adel | apply NoDup_aset]; exact H.
Qed.

Lemma cr_groups c id g x : NoDup (keys (c_groups c)) ->
  aget x (c_groups (cr c id g)) =
  match g with
  | None => aget x (c_groups c)
  | Some name =>
      if String.eqb x name then
        match aget name (c_groups c) with
        | Some s => if negb (snd (sh_remove s id)) && sh_is_empty (fst (sh_remove s id))
                    then None else Some (fst (sh_remove s id))
        | None => None
        end
      else aget x (c_groups c)
  end.
Proof.
  intros Hnd. rewrite (proj1 (proj2 (cr_parts c id g))). unfold cr_mid. destruct g as [name|]; auto.
  destruct (aget name (c_groups c)) as [s|] eqn:E.
  - destruct (sh_remove s id) as [s' pn]. cbn.
    destruct (negb pn && sh_is_empty s'); cbn; rewrite ?aget_adel, ?aget_aset by auto; reflexivity.
  - destruct (String.eqb_spec x name); congruence.
Qed.

(* ------------------------------------------------------------------ *)
(** * The invariant *)

Lemma current_snoc h o f c :
  current (h ++ [o]) f c =
  match o with
  | Sub f' c' q => if String.eqb f' f && N.eqb c' c then Some q else current h f c
  | Unsub f' c' => if String.eqb f' f && N.eqb c' c then None else current h f c
  end.
Proof. unfold current. rewrite fold_left_app. reflexivity. Qed.

Lemma members_snoc h o f :
  members (h ++ [o]) f =
  match o with
  | Sub f' c _ => if String.eqb f' f then (if existsb (N.eqb c) (members h f) then members h f else members h f ++ [c]) else members h f
  | Unsub f' c => if String.eqb f' f then leave c (members h f) else members h f
  end.
Proof. unfold members. rewrite fold_left_app. reflexivity. Qed.

Lemma rt_run_snoc h o : rt_run (h ++ [o]) = fst (rt_step (rt_run h) o).
Proof. unfold rt_run. rewrite fold_left_app. reflexivity. Qed.

Definition C t f := cont (root t) (levels f).

Record rinv (h : list rop) (t : route_table) : Prop := {
  ri_wf : kids_wf (root t);
  ri_clean : clean (root t);
  ri_tidy : tidy (root t);
  ri_root : cont (root t) [] = content_new;
  ri_cnd : forall p, NoDup (keys (c_clients (cont (root t) p)));
  ri_gnd : forall p, NoDup (keys (c_groups (cont (root t) p)));
  ri_flt : forall p f, c_filter (cont (root t) p) = Some f -> levels f = p;
  ri_has_flt : forall p, content_is_empty (cont (root t) p) = false -> c_filter (cont (root t) p) <> None;
  ri_path : forall p, content_is_empty (cont (root t) p) = false -> exists f, levels f = p;
  ri_clients : forall f c, aget c (c_clients (C t f)) =
                 match shared_info f with None => current h f c | Some _ => None end;
  ri_groups : forall f g i s, shared_info f = Some (g, i) -> aget g (c_groups (C t i)) = Some s ->
                 sh_items s <> [] /\ sh_ok s /\
                 forall c q, In (c, q) (sh_items s) -> current h f c <> None;
}.

Lemma content_new_empty c : c = content_new -> content_is_empty c = true.
Proof. intros ->. reflexivity. Qed.

Lemma rinv_empty : rinv [] rt_empty.
Proof.
  assert (Hc : forall p, cont (root rt_empty) p = content_new) by (intros [|k p]; reflexivity).
  constructor.
  - constructor; [constructor|]. cbn; congruence.
  - intros p _. apply Hc.
  - constructor. cbn; congruence.
  - reflexivity.
  - intros p. rewrite Hc. constructor.
  - intros p. rewrite Hc. constructor.
  - intros p f. rewrite Hc. cbn; congruence.
  - intros p. rewrite Hc. cbn; congruence.
  - intros p. rewrite Hc. cbn; congruence.
  - intros f c. unfold C. rewrite Hc. cbn. destruct (shared_info f); reflexivity.
  - intros f g i s _. unfold C. rewrite Hc. cbn; congruence.
Qed.

Lemma rinv_step h t o : rinv h t -> rinv (h ++ [o]) (fst (rt_step t o)).
Proof.
  intros [Hwf Hcl Htd Hroot Hcnd Hgnd Hflt Hhas Hpath Hcli Hgrp].
  pose proof (rt_step_struct t o Hwf Hcl Htd) as (Hwf' & Hcl' & Htd').
  pose proof (fun p => rt_step_cont t o p Hwf Hcl) as Hc.
  set (P := levels (fst (target (op_filter o)))) in *.
  set (t' := fst (rt_step t o)) in *.
  assert (HP : P <> []) by apply levels_not_nil.
  constructor; auto.
  - intros p. rewrite Hc. destruct (path_eq_dec p P); auto.
    destruct o; cbn; auto using ci_clients_nodup, cr_clients_nodup.
  - intros p. rewrite Hc. destruct (path_eq_dec p P); auto.
    destruct o; cbn; auto using ci_groups_nodup, cr_groups_nodup.
  - intros p f. rewrite Hc. destruct (path_eq_dec p P) as [->|]; auto.
    destruct o as [f' id q|f' id]; cbn.
    + rewrite ci_filter. destruct (c_filter (cont (root t) P)) eqn:E.
      * intros [= <-]. auto.
      * intros [= <-]. reflexivity.
    + destruct (cr_parts (cont (root t) P) id (snd (target f'))) as (_ & _ & [E|[E _]]); rewrite E; auto.
      congruence.
  - intros p. rewrite Hc. destruct (path_eq_dec p P) as [->|]; auto.
    destruct o as [f' id q|f' id]; cbn.
    + rewrite ci_filter. destruct (c_filter (cont (root t) P)); congruence.
    + destruct (cr_parts (cont (root t) P) id (snd (target f'))) as (E1 & E2 & [E|[E E3]]).
      * rewrite E. intros Hne. apply Hhas.
        destruct (content_is_empty (cont (root t) P)) eqn:Ee; auto.
        rewrite (Hcl P Ee), cr_new in Hne. discriminate.
      * congruence.
  - intros p. rewrite Hc. destruct (path_eq_dec p P) as [->|]; [|auto]. intros _.
    eexists. reflexivity.
  - intros f c. unfold C. rewrite Hc, current_snoc.
    destruct (path_eq_dec (levels f) P) as [Ep|Ep].
    + rewrite <- Ep. fold (C t f). apply levels_inj in Ep.
      destruct o as [f' id q|f' id]; cbn [op_content op_filter] in *.
      * rewrite ci_clients, Hcli. unfold target in *.
        destruct (shared_info f') as [[g i]|] eqn:Es; cbn in *.
        -- destruct (shared_info f) eqn:Ef; auto. destruct (String.eqb_spec f' f); [congruence|]. reflexivity.
        -- subst f'. rewrite Es, String.eqb_refl, N.eqb_sym. reflexivity.
      * rewrite cr_clients by apply Hcnd. rewrite Hcli. unfold target in *.
        destruct (shared_info f') as [[g i]|] eqn:Es; cbn in *.
        -- destruct (shared_info f) eqn:Ef; auto. destruct (String.eqb_spec f' f); [congruence|]. reflexivity.
        -- subst f'. rewrite Es, String.eqb_refl, N.eqb_sym. reflexivity.
    + fold (C t f). rewrite Hcli. destruct (shared_info f) eqn:Ef; auto.
      assert (Hne : op_filter o <> f).
      { intros E. apply Ep. unfold P. rewrite E. unfold target. now rewrite Ef. }
      destruct o as [f' id q|f' id]; cbn in Hne; destruct (String.eqb_spec f' f); congruence || reflexivity.
  - intros f g i s Hs. unfold C. rewrite Hc.
    assert (Hcur : op_filter o <> f -> forall c, current (h ++ [o]) f c = current h f c).
    { intros Hne c. rewrite current_snoc.
      destruct o as [f' id q|f' id]; cbn in Hne; destruct (String.eqb_spec f' f); congruence || reflexivity. }
    assert (Hold : forall s, aget g (c_groups (C t i)) = Some s -> op_filter o <> f ->
       sh_items s <> [] /\ sh_ok s /\ (forall c q, In (c, q) (sh_items s) -> current (h ++ [o]) f c <> None)).
    { intros s0 E Hne. destruct (Hgrp f g i s0 Hs E) as (A1 & A2 & A3). repeat split; auto; try apply A2.
      intros c q. rewrite Hcur by auto. apply A3. }
    destruct (path_eq_dec (levels i) P) as [Ep|Ep].
    2:{ intros E. apply Hold; auto. intros Eo. apply Ep. unfold P. rewrite Eo. unfold target. now rewrite Hs. }
    rewrite <- Ep. fold (C t i). apply levels_inj in Ep.
    assert (Htgt : snd (target (op_filter o)) = Some g -> op_filter o = f).
    { intros Eg. apply target_inj. unfold target at 2. rewrite Hs.
      destruct (target (op_filter o)); cbn in *; congruence. }
    destruct o as [f' id q|f' id]; cbn [op_content op_filter] in *.
    + rewrite ci_groups. destruct (snd (target f')) as [name|] eqn:Et.
      * destruct (String.eqb_spec g name) as [->|Hgn].
        -- rewrite (Htgt eq_refl) in *.
           set (s0 := match aget name (c_groups (C t i)) with Some s => s | None => sh_empty end).
           assert (H0 : sh_ok s0 /\ (sh_items s0 = [] -> s0 = sh_empty) /\
                        forall c q, In (c, q) (sh_items s0) -> current h f c <> None).
           { unfold s0. destruct (aget name (c_groups (C t i))) as [s1|] eqn:E1.
             - destruct (Hgrp f name i s1 Hs E1) as (A1 & A2 & A3). repeat split; auto; try apply A2. congruence.
             - split; [apply sh_ok_empty|]. split; [auto|]. intros c q0 []. }
           destruct H0 as (B1 & B2 & B3). intros [= <-].
           destruct (sh_insert_ok s0 id q B1 B2) as (D1 & D2 & D3). refine (conj D2 (conj D1 _)).
           intros c q0 Hin. rewrite current_snoc. rewrite String.eqb_refl. cbn [andb].
           destruct (N.eqb_spec id c) as [->|Hne]; [congruence|].
           apply D3 in Hin. destruct Hin as [->|Hin]; [congruence|].
           unfold keys in Hin. apply in_map_iff in Hin. destruct Hin as ([c' q'] & <- & Hin). eauto.
        -- intros E. apply Hold; auto. intros ->. unfold target in Et. rewrite Hs in Et. cbn in Et. congruence.
      * intros E. apply Hold; auto. intros ->. unfold target in Et. rewrite Hs in Et. cbn in Et. congruence.
    + rewrite cr_groups by apply Hgnd. destruct (snd (target f')) as [name|] eqn:Et.
      * destruct (String.eqb_spec g name) as [->|Hgn].
        -- rewrite (Htgt eq_refl) in *.
           destruct (aget name (c_groups (C t i))) as [s1|] eqn:E1; [|congruence].
           destruct (Hgrp f name i s1 Hs E1) as (A1 & A2 & A3).
           pose proof (sh_remove_ok s1 id A2) as (D1 & D2 & D3).
           destruct (negb (snd (sh_remove s1 id)) && sh_is_empty (fst (sh_remove s1 id))) eqn:Eb; [congruence|].
           intros [= <-]. refine (conj _ (conj D1 _)).
           ++ apply andb_false_iff in Eb. destruct Eb as [Eb|Eb].
              ** apply negb_false_iff in Eb. rewrite D3 by auto. exact A1.
              ** now apply is_nil_false in Eb.
           ++ intros c q0 Hin. apply D2 in Hin. destruct Hin as [Hne Hin].
              rewrite current_snoc, String.eqb_refl. cbn [andb].
              destruct (N.eqb_spec id c); [congruence|]. eauto.
        -- intros E. apply Hold; auto. intros ->. unfold target in Et. rewrite Hs in Et. cbn in Et. congruence.
      * intros E. apply Hold; auto. intros ->. unfold target in Et. rewrite Hs in Et. cbn in Et. congruence.
Qed.

Lemma rinv_run h : rinv h (rt_run h).
Proof.
  induction h as [|o h IH] using rev_ind; [apply rinv_empty|].
  rewrite rt_run_snoc. now apply rinv_step.
Qed.

(* ------------------------------------------------------------------ *)
(** * Consequences *)

Lemma lookup_In t topic ct : In ct (rt_get_matches t topic) <->
  exists p, In p (table_paths t topic) /\ ct = cont (root t) p.
Proof.
  rewrite rt_get_matches_paths, in_map_iff. split; intros (p & A & B); exists p; auto.
Qed.

Lemma lookup_char h topic f ct : valid_topic_name topic ->
  (In ct (rt_get_matches (rt_run h) topic) /\ c_filter ct = Some f <->
   ct = C (rt_run h) f /\ content_is_empty ct = false /\ topic_matches f topic).
Proof.
  intros Hv. pose proof (rinv_run h) as I. set (t := rt_run h) in *. split.
  - intros [Hin Hf]. apply lookup_In in Hin. destruct Hin as (p & Hp & ->).
    pose proof (ri_flt _ _ I _ _ Hf) as <-.
    apply in_table_paths in Hp; auto.
  - intros (-> & He & Hm). split.
    + apply lookup_In. exists (levels f). split; auto. apply in_table_paths; auto.
    + destruct (c_filter (C t f)) as [f'|] eqn:E.
      * apply (ri_flt _ _ I) in E. apply levels_inj in E. congruence.
      * exfalso. apply (ri_has_flt _ _ I _ He). exact E.
Qed.

Lemma lookup_has_filter h topic ct : valid_topic_name topic ->
  In ct (rt_get_matches (rt_run h) topic) ->
  exists f, c_filter ct = Some f /\ content_is_empty ct = false.
Proof.
  intros Hv Hin. pose proof (rinv_run h) as I. apply lookup_In in Hin. destruct Hin as (p & Hp & ->).
  assert (He : content_is_empty (cont (root (rt_run h)) p) = false).
  { assert (Htop : Forall (fun l => l <> "+"%string /\ l <> "#"%string) (levels topic)).
    { apply Forall_forall. intros l Hl. now apply (valid_topic_levels topic). }
    unfold table_paths in Hp. destruct (levels topic) as [|item rest] eqn:El; [destruct Hp|].
    inversion Htop as [|? ? _ Hrest]; subst.
    assert (Hk : forall k, In p match aget k (rt_run h) with
                | Some n => map (cons k) (match_paths k rest n) | None => [] end ->
                content_is_empty (cont (root (rt_run h)) p) = false).
    { intros k. destruct (aget k (rt_run h)) as [n|] eqn:Ek; [|intros []].
      rewrite in_map_iff. intros (p' & <- & Hin'). apply in_match_paths in Hin'; auto.
      cbn. rewrite Ek. tauto. }
    cbn zeta in Hp. apply in_app_iff in Hp. destruct Hp as [Hp|Hp]; [eauto|].
    destruct (starts_with_dollar topic); [destruct Hp|].
    apply in_app_iff in Hp. destruct Hp as [Hp|Hp]; eauto. }
  destruct (c_filter (cont (root (rt_run h)) p)) as [f|] eqn:E; [eauto|].
  exfalso. exact (ri_has_flt _ _ I _ He E).
Qed.

Theorem route_plain_lemma h topic : valid_topic_name topic ->
  (forall f c q,
     (exists ct, In ct (rt_get_matches (rt_run h) topic) /\ c_filter ct = Some f /\
                 In (c, q) (c_clients ct)) <->
     plain f /\ topic_matches f topic /\ current h f c = Some q) /\
  NoDup (map c_filter (rt_get_matches (rt_run h) topic)) /\
  (forall ct, In ct (rt_get_matches (rt_run h) topic) -> NoDup (map fst (c_clients ct))).
Proof.
  intros Hv. pose proof (rinv_run h) as I. split; [|split].
  - intros f c q. split.
    + intros (ct & Hin & Hf & Hc). destruct (proj1 (lookup_char h topic f ct Hv) (conj Hin Hf)) as (-> & He & Hm).
      apply (in_iff_aget _ _ _ (ri_cnd _ _ I (levels f))) in Hc.
      fold (C (rt_run h) f) in Hc. rewrite (ri_clients _ _ I) in Hc. unfold plain.
      destruct (shared_info f); [discriminate|]. auto.
    + intros (Hp & Hm & Hc).
      assert (Hg : aget c (c_clients (C (rt_run h) f)) = Some q).
      { rewrite (ri_clients _ _ I). unfold plain in Hp. now rewrite Hp. }
      exists (C (rt_run h) f).
      assert (He : content_is_empty (C (rt_run h) f) = false).
      { unfold content_is_empty. destruct (c_clients (C (rt_run h) f)); [discriminate|reflexivity]. }
      destruct (proj2 (lookup_char h topic f _ Hv) (conj eq_refl (conj He Hm))) as [A B].
      repeat split; auto. now apply aget_Some_in.
  - rewrite rt_get_matches_paths, map_map.
    pose proof (table_paths_nodup (rt_run h) topic Hv) as Hnd.
    assert (Hall : forall p, In p (table_paths (rt_run h) topic) ->
              exists f, c_filter (cont (root (rt_run h)) p) = Some f /\ levels f = p).
    { intros p Hp. assert (Hin : In (cont (root (rt_run h)) p) (rt_get_matches (rt_run h) topic)).
      { apply lookup_In. eauto. }
      destruct (lookup_has_filter h topic _ Hv Hin) as (f & Hf & _). exists f. split; auto.
      apply (ri_flt _ _ I _ _ Hf). }
    induction Hnd as [|p l Hn Hnd IH]; cbn; constructor.
    + intros Hin. apply in_map_iff in Hin. destruct Hin as (p' & E & Hp').
      destruct (Hall p (or_introl eq_refl)) as (f & Hf & Hl).
      destruct (Hall p' (or_intror Hp')) as (f' & Hf' & Hl'). 
      rewrite Hf, Hf' in E. injection E as <-. congruence.
    + apply IH. intros p' Hp'. apply Hall. now right.
  - intros ct Hin. apply lookup_In in Hin. destruct Hin as (p & _ & ->). apply (ri_cnd _ _ I).
Qed.

(** No garbage: when nobody is subscribed the table is empty. *)
Lemma tidy_no_content n : tidy n -> (forall p, content_is_empty (cont n p) = true) -> r_kids n = [].
Proof.
  intros Ht Hall. destruct Ht as [c ks Hk]. cbn. destruct ks as [|[k m] ks]; auto.
  destruct (Hk k m) as [[p Hp] _]; [cbn; now rewrite String.eqb_refl|].
  specialize (Hall (k :: p)). cbn in Hall. rewrite String.eqb_refl in Hall. congruence.
Qed.

Lemma shared_exists f p g i : levels f = p -> shared_info f = Some (g, i) -> p = levels f.
Proof. auto. Qed.

(** Every stored group belongs to some "$share" filter string that was used. *)
Lemma rt_group_name h p g s :
  aget g (c_groups (cont (root (rt_run h)) p)) = Some s ->
  exists f i, shared_info f = Some (g, i) /\ levels i = p.
Proof.
  revert g s. induction h as [|o h IH] using rev_ind.
  - intros g s. destruct p; cbn; congruence.
  - intros g s. rewrite rt_run_snoc. pose proof (rinv_run h) as I.
    rewrite rt_step_cont by apply I.
    destruct (path_eq_dec p (levels (fst (target (op_filter o))))) as [->|]; [|apply IH].
    destruct o as [f id q|f id]; cbn [op_content op_filter].
    + rewrite ci_groups. destruct (snd (target f)) as [name|] eqn:Et; [|apply IH].
      destruct (String.eqb_spec g name) as [->|]; [|apply IH]. intros _.
      unfold target in *. destruct (shared_info f) as [[g' i]|] eqn:Es; cbn in *; [|discriminate].
      injection Et as <-. eauto.
    + rewrite cr_groups by apply (ri_gnd _ _ I). destruct (snd (target f)) as [name|] eqn:Et; [|apply IH].
      destruct (String.eqb_spec g name) as [->|]; [|apply IH]. intros _.
      unfold target in *. destruct (shared_info f) as [[g' i]|] eqn:Es; cbn in *; [|discriminate].
      injection Et as <-. eauto.
Qed.

Lemma route_empty_lemma h : (forall f c, current h f c = None) -> rt_run h = [].
Proof.
  intros Hnone. pose proof (rinv_run h) as I.
  change (rt_run h) with (r_kids (root (rt_run h))).
  apply tidy_no_content; [apply I|]. intros p.
  destruct (content_is_empty (cont (root (rt_run h)) p)) eqn:E; auto. exfalso.
  destruct (ri_path _ _ I _ E) as [f <-]. fold (C (rt_run h) f) in E.
  unfold content_is_empty in E. apply andb_false_iff in E. destruct E as [E|E].
  - apply is_nil_false in E. apply E. apply aget_nil_all. intros c. rewrite (ri_clients _ _ I).
    destruct (shared_info f); auto.
  - apply is_nil_false in E. destruct (c_groups (C (rt_run h) f)) as [|[g s] gs] eqn:Eg; [congruence|].
    assert (Hs : aget g (c_groups (C (rt_run h) f)) = Some s).
    { rewrite Eg. cbn. now rewrite String.eqb_refl. }
    destruct (rt_group_name h (levels f) g s Hs) as (f' & i & Hf' & Hi). apply levels_inj in Hi. subst i.
    destruct (ri_groups _ _ I _ _ _ _ Hf' Hs) as (A1 & _ & A3).
    destruct (sh_items s) as [|[c q] items]; [congruence|]. apply (A3 c q (or_introl eq_refl)). apply Hnone.
Qed.

(** Shared groups: every stored member is a current subscriber. *)
Lemma route_shared_sound_lemma h topic ct inner g s : valid_topic_name topic ->
  In ct (rt_get_matches (rt_run h) topic) -> c_filter ct = Some inner ->
  aget g (c_groups ct) = Some s ->
  exists f, shared_info f = Some (g, inner) /\ topic_matches inner topic /\
    sh_items s <> [] /\ NoDup (map fst (sh_items s)) /\
    forall c q, In (c, q) (sh_items s) -> exists q', current h f c = Some q'.
Proof.
  intros Hv Hin Hf Hg. pose proof (rinv_run h) as I.
  destruct (proj1 (lookup_char h topic inner ct Hv) (conj Hin Hf)) as (-> & He & Hm).
  destruct (rt_group_name h (levels inner) g s Hg) as (f & i & Hs & Hi). apply levels_inj in Hi. subst i.
  destruct (ri_groups _ _ I _ _ _ _ Hs Hg) as (A1 & A2 & A3).
  exists f. refine (conj Hs (conj Hm (conj A1 (conj (sh_ok_nodup _ A2) _)))).
  - intros c q Hc. specialize (A3 c q Hc). destruct (current h f c); [eauto|congruence].
Qed.

Lemma sh_get_by_number_in s n : sh_items s <> [] ->
  exists c q, sh_get_by_number s n = Some (c, q) /\ In (c, q) (sh_items s).
Proof.
  intros Hne. unfold sh_get_by_number. destruct (sh_items s) as [|x l] eqn:E; [congruence|].
  assert (Hlt : N.to_nat (n mod N.of_nat (List.length (x :: l))) < List.length (x :: l)).
  { assert (n mod N.of_nat (List.length (x :: l)) < N.of_nat (List.length (x :: l)))%N.
    { apply N.mod_lt. cbn [List.length]. lia. }
    lia. }
  destruct (nth_error (x :: l) _) as [[c q]|] eqn:En.
  - exists c, q. split; auto. eapply nth_error_In; eauto.
  - apply nth_error_None in En. lia.
Qed.

(* ------------------------------------------------------------------ *)
(** * Histories in which the last member never leaves *)

Definition sh_of t g i := match aget g (c_groups (C t i)) with Some s => s | None => sh_empty end.

Definition rexact (h : list rop) (t : route_table) : Prop :=
  forall f g i, shared_info f = Some (g, i) ->
    sh_exact (sh_of t g i) /\ keys (sh_items (sh_of t g i)) = members h f /\
    forall c, aget c (sh_items (sh_of t g i)) = current h f c.

Lemma last_member_snoc h o : ~ last_member_leaves (h ++ [o]) -> ~ last_member_leaves h.
Proof.
  intros H (h1 & f & c & h2 & l & -> & A). apply H. exists h1, f, c, (h2 ++ [o]), l.
  split; auto. now rewrite <- app_assoc.
Qed.

Lemma rexact_run h : ~ last_member_leaves h ->
  rexact h (rt_run h) /\
  (forall h1 o h2, h = h1 ++ o :: h2 -> snd (rt_step (rt_run h1) o) = false).
Proof.
  induction h as [|o h IH] using rev_ind; intros Hsafe.
  - split.
    + intros f g i Hs. unfold sh_of, C.
      assert (E : cont (root (rt_run [])) (levels i) = content_new) by (destruct (levels i); reflexivity).
      rewrite E. cbn. split; [apply sh_exact_empty|]. split; reflexivity.
    + intros h1 o h2 E. destruct h1; discriminate.
  - destruct (IH (last_member_snoc _ _ Hsafe)) as [IHe IHp]. pose proof (rinv_run h) as I.
    assert (Hok : forall f g i, shared_info f = Some (g, i) -> sh_ok (sh_of (rt_run h) g i)).
    { intros f g i Hs. unfold sh_of. destruct (aget g (c_groups (C (rt_run h) i))) as [s|] eqn:E.
      - apply (ri_groups _ _ I _ _ _ _ Hs E).
      - apply sh_ok_empty. }
    assert (Hlast : forall f id g i, o = Unsub f id -> shared_info f = Some (g, i) ->
              forall l, keys (sh_items (sh_of (rt_run h) g i)) = l ++ [id] -> l = []).
    { intros f id g i -> Hs l E. rewrite (proj1 (proj2 (IHe f g i Hs))) in E.
      destruct l as [|x l]; auto. exfalso. apply Hsafe.
      exists h, f, id, [], (x :: l). refine (conj eq_refl (conj _ (conj E _))); [unfold plain|]; congruence. }
    split.
    + intros f g i Hs. rewrite rt_run_snoc. unfold sh_of, C.
      rewrite (rt_step_cont (rt_run h) o (levels i)) by apply I.
      rewrite members_snoc.
      assert (Hsame : op_filter o <> f ->
         sh_exact (sh_of (rt_run h) g i) /\
         keys (sh_items (sh_of (rt_run h) g i)) = 
           match o with
            | Sub f' c _ => if String.eqb f' f then (if existsb (N.eqb c) (members h f) then members h f else members h f ++ [c]) else members h f
            | Unsub f' c => if String.eqb f' f then leave c (members h f) else members h f
            end /\
         forall c, aget c (sh_items (sh_of (rt_run h) g i)) = current (h ++ [o]) f c).
      { intros Hne. destruct (IHe f g i Hs) as (A1 & A2 & A3). split; auto. split.
        - rewrite A2. destruct o as [f' id q|f' id]; cbn in Hne; destruct (String.eqb_spec f' f); congruence || reflexivity.
        - intros c. rewrite A3, current_snoc.
          destruct o as [f' id q|f' id]; cbn in Hne; destruct (String.eqb_spec f' f); congruence || reflexivity. }
      destruct (path_eq_dec (levels i) (levels (fst (target (op_filter o))))) as [Ep|Ep].
      2:{ apply Hsame. intros Eo. apply Ep. rewrite Eo. unfold target. now rewrite Hs. }
      rewrite <- Ep. apply levels_inj in Ep.
      assert (Htgt : snd (target (op_filter o)) = Some g -> op_filter o = f).
      { intros Eg. apply target_inj. unfold target at 2. rewrite Hs.
        destruct (target (op_filter o)); cbn in *; congruence. }
      assert (Htgt' : snd (target (op_filter o)) <> Some g -> op_filter o <> f).
      { intros Eg Eo. apply Eg. rewrite Eo. unfold target. now rewrite Hs. }
      fold (C (rt_run h) i).
      destruct (IHe f g i Hs) as (A1 & A2 & A3).
      destruct o as [f' id q|f' id]; cbn [op_content op_filter] in *.
      * rewrite ci_groups. destruct (snd (target f')) as [name|] eqn:Et.
        -- destruct (String.eqb_spec g name) as [->|Hgn].
           ++ rewrite (Htgt eq_refl) in *. rewrite String.eqb_refl.
              fold (sh_of (rt_run h) name i).
              destruct (sh_insert_exact _ id q (Hok _ _ _ Hs) A1) as (D0 & D1 & D2 & D3).
              split; auto. rewrite D2, A2. split; auto.
              intros c. rewrite D3, A3, current_snoc, String.eqb_refl, N.eqb_sym. reflexivity.
           ++ fold (sh_of (rt_run h) g i). apply Hsame. apply Htgt'. congruence.
        -- fold (sh_of (rt_run h) g i). apply Hsame. apply Htgt'. congruence.
      * rewrite cr_groups by apply (ri_gnd _ _ I). destruct (snd (target f')) as [name|] eqn:Et.
        -- destruct (String.eqb_spec g name) as [->|Hgn].
           ++ rewrite (Htgt eq_refl) in *. rewrite String.eqb_refl.
              specialize (Hlast f id name i eq_refl Hs).
              destruct (sh_remove_exact _ id (Hok _ _ _ Hs) A1 Hlast) as (D0 & D1 & D2 & D3).
              assert (Hcur : forall c, (if N.eqb c id then None else current h f c) = current (h ++ [Unsub f id]) f c).
              { intros c. rewrite current_snoc, String.eqb_refl, N.eqb_sym. reflexivity. }
              revert D0 D1 D2 D3. unfold sh_of in A2, A3 |- *.
              destruct (aget name (c_groups (C (rt_run h) i))) as [s|] eqn:Eg.
              ** intros D0 D1 D2 D3. rewrite D0. cbn [negb andb].
                 destruct (sh_is_empty (fst (sh_remove s id))) eqn:Ee.
                 --- unfold sh_is_empty in Ee. apply is_nil_true in Ee.
                     rewrite Ee in D2, D3. split; [apply sh_exact_empty|]. rewrite A2 in D2.
                     split; [exact D2|]. intros c. rewrite <- Hcur. rewrite <- A3. rewrite <- D3. reflexivity.
                 --- split; auto. rewrite D2, A2. split; auto. intros c. rewrite D3, A3. apply Hcur.
              ** intros _ _ _ _. split; [apply sh_exact_empty|].
                 cbn in A2. rewrite <- A2. split; auto. intros c. rewrite <- Hcur. rewrite <- A3.
                 cbn. now destruct (N.eqb c id).
           ++ fold (sh_of (rt_run h) g i). apply Hsame. apply Htgt'. congruence.
        -- fold (sh_of (rt_run h) g i). apply Hsame. apply Htgt'. congruence.
    + intros h1 o' h2 E.
      destruct (list_snoc_cases h2) as [->|(h2' & x & ->)].
      * apply app_inj_tail in E. destruct E as [<- <-].
        rewrite rt_step_panic. cbn zeta.
        destruct o as [f id q|f id]; cbn [op_filter]; unfold target.
        -- destruct (shared_info f) as [[g i]|] eqn:Es; cbn; [|reflexivity].
           destruct (IHe f g i Es) as (A1 & _ & _).
           destruct (sh_insert_exact _ id q (Hok _ _ _ Es) A1) as (D0 & _).
           unfold sh_of, C in D0. destruct (sh_insert _ id q). exact D0.
        -- destruct (shared_info f) as [[g i]|] eqn:Es; cbn.
           ++ destruct (IHe f g i Es) as (A1 & _ & _).
              destruct (sh_remove_exact _ id (Hok _ _ _ Es) A1 (Hlast f id g i eq_refl Es)) as (D0 & _).
              unfold sh_of, C in D0. unfold content_remove.
              destruct (aget g (c_groups (cont (root (rt_run h)) (levels i)))) as [s|].
              ** destruct (sh_remove s id) as [s' pn]. cbn in D0. subst pn.
                 destruct (sh_is_empty s');
                 match goal with |- snd (if content_is_empty ?x then _ else _) = _ =>
                   destruct (content_is_empty x) end; reflexivity.
              ** match goal with |- snd (if content_is_empty ?x then _ else _) = _ =>
                   destruct (content_is_empty x) end; reflexivity.
           ++ unfold content_remove. match goal with |- snd (if content_is_empty ?x then _ else _) = _ =>
                   destruct (content_is_empty x) end; reflexivity.
      * rewrite app_comm_cons, app_assoc in E. apply app_inj_tail in E. destruct E as [-> _].
        eapply IHp; eauto.
Qed.

Lemma route_shared_exact_lemma h topic f g inner : ~ last_member_leaves h ->
  valid_topic_name topic -> shared_info f = Some (g, inner) -> topic_matches inner topic ->
  forall c q,
    (exists ct s, In ct (rt_get_matches (rt_run h) topic) /\ c_filter ct = Some inner /\
       aget g (c_groups ct) = Some s /\ In (c, q) (sh_items s)) <-> current h f c = Some q.
Proof.
  intros Hsafe Hv Hs Hm c q. destruct (rexact_run h Hsafe) as [He _].
  destruct (He f g inner Hs) as (A1 & A2 & A3). pose proof (rinv_run h) as I. split.
  - intros (ct & s & Hin & Hf & Hg & Hc).
    destruct (proj1 (lookup_char h topic inner ct Hv) (conj Hin Hf)) as (-> & _ & _).
    rewrite <- A3. unfold sh_of. rewrite Hg. apply in_aget; auto.
    apply sh_ok_nodup. apply (ri_groups _ _ I _ _ _ _ Hs Hg).
  - intros Hc. rewrite <- A3 in Hc. unfold sh_of in Hc.
    destruct (aget g (c_groups (C (rt_run h) inner))) as [s|] eqn:Eg; [|discriminate].
    exists (C (rt_run h) inner), s.
    assert (Hne : content_is_empty (C (rt_run h) inner) = false).
    { unfold content_is_empty. apply andb_false_iff. right. apply is_nil_false.
      destruct (c_groups (C (rt_run h) inner)); [discriminate|congruence]. }
    destruct (proj2 (lookup_char h topic inner _ Hv) (conj eq_refl (conj Hne Hm))) as [B1 B2].
    repeat split; auto. now apply aget_Some_in.
Qed.

Lemma route_plain_no_panic_lemma h o : plain (op_filter o) -> snd (rt_step (rt_run h) o) = false.
Proof.
  intros Hp. rewrite rt_step_panic. cbn zeta. unfold plain in Hp.
  destruct o as [f id q|f id]; cbn in *; unfold target; rewrite Hp; cbn; [reflexivity|].
  unfold content_remove. match goal with |- snd (if content_is_empty ?x then _ else _) = _ =>
    destruct (content_is_empty x) end; reflexivity.
Qed.

Lemma shared_info_share_filter f g inner : shared_info f = Some (g, inner) -> f = share_filter g inner.
Proof.
  intros H. apply levels_inj. rewrite (shared_info_levels _ _ _ H).
  unfold shared_info in H.
  destruct (split_topic f) as [p [r|]] eqn:E1; [|congruence].
  destruct (String.eqb_spec p "$share") as [->|]; [|congruence].
  destruct (split_topic r) as [g' [i'|]] eqn:E2; [|congruence]. injection H as -> ->.
  unfold share_filter. rewrite levels_app_slash by reflexivity. f_equal.
  rewrite levels_app_slash; [reflexivity|].
  unfold split_topic in E2. destruct (split_once slash r) as [[h t]|] eqn:E3; [|congruence].
  injection E2 as -> ->. clear -E3. revert g E3.
  induction r as [|c r IH]; cbn; [discriminate|]. intros g.
  destruct (Ascii.eqb_spec c slash) as [->|Hne]; [intros [= <- <-]; reflexivity|].
  destruct (split_once slash r) as [[h' t']|]; [|discriminate].
  intros [= <- <-]. cbn. destruct (Ascii.eqb_spec c slash); [congruence|]. cbn. now apply IH.
Qed.

Lemma group_nodup h topic ct : In ct (rt_get_matches (rt_run h) topic) ->
  NoDup (map fst (c_groups ct)).
Proof.
  intros Hin. apply lookup_In in Hin. destruct Hin as (p & _ & ->). apply (ri_gnd _ _ (rinv_run h)).
Qed.

Lemma route_dollar_lemma h topic ct f : valid_topic_name topic ->
  begins_with_dollar topic -> In ct (rt_get_matches (rt_run h) topic) -> c_filter ct = Some f ->
  ~ begins_with_wildcard f.
Proof.
  intros Hv Hd Hin Hf.
  destruct (proj1 (lookup_char h topic f ct Hv) (conj Hin Hf)) as (_ & _ & _ & H). auto.
Qed.

Lemma shared_pick_lemma h topic inner g s n : valid_topic_name topic ->
  offers_group (rt_run h) topic inner g s ->
  topic_matches inner topic /\ NoDup (map fst (sh_items s)) /\
  (forall c q, In (c, q) (sh_items s) -> exists q', current h (share_filter g inner) c = Some q') /\
  exists c q q', sh_get_by_number s n = Some (c, q) /\ In (c, q) (sh_items s) /\
    current h (share_filter g inner) c = Some q'.
Proof.
  intros Hv (ct & Hin & Hf & Hg).
  apply in_aget in Hg; [|eapply group_nodup; eauto].
  destruct (route_shared_sound_lemma h topic ct inner g s Hv Hin Hf Hg) as (f & Hs & Hm & Hne & Hnd & Hc).
  rewrite <- (shared_info_share_filter _ _ _ Hs).
  refine (conj Hm (conj Hnd (conj Hc _))).
  destruct (sh_get_by_number_in s n Hne) as (c & q & E & Hi).
  destruct (Hc c q Hi) as (q' & Hq'). exists c, q, q'. auto.
Qed.

Lemma shared_exact_lemma h topic g inner c q : ~ last_member_leaves h ->
  valid_topic_name topic -> shared_info (share_filter g inner) = Some (g, inner) ->
  topic_matches inner topic ->
  ((exists s, offers_group (rt_run h) topic inner g s /\ In (c, q) (sh_items s)) <->
   current h (share_filter g inner) c = Some q).
Proof.
  intros Hl Hv Hs Hm. rewrite <- (route_shared_exact_lemma h topic _ g inner Hl Hv Hs Hm c q). split.
  - intros (s & (ct & A & B & D) & E). exists ct, s. repeat split; auto.
    apply in_aget; auto. eapply group_nodup; eauto.
  - intros (ct & s & A & B & D & E). exists s. split; auto. exists ct. repeat split; auto.
    now apply aget_Some_in.
Qed.
