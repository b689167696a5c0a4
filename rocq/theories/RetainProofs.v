(** Proofs about the retained-message tree. *)
From Coq Require Import List Bool String Ascii NArith Lia.
From Verif Require Import Base BaseLemmas TopicModel TopicSpec TopicProofs MsgModel RetainModel RetainSpec.
Import ListNotations.
Local Open Scope string_scope.

Section Ind.
  Variable P : tnode -> Prop.
  Hypothesis H : forall c kids, Forall (fun kn => P (snd kn)) kids -> P (TNode c kids).
  Fixpoint tnode_nested_ind (n : tnode) : P n :=
    match n with
    | TNode c kids =>
        H c kids ((fix go l : Forall (fun kn => P (snd kn)) l :=
                     match l with
                     | [] => Forall_nil _
                     | kn :: r => Forall_cons _ (tnode_nested_ind (snd kn)) (go r)
                     end) kids)
    end.
End Ind.

(** Content at a path, and the node at a path. *)
Fixpoint tfind (p : list string) (n : tnode) : option rcontent :=
  match p with
  | [] => t_content n
  | i :: r => match aget i (t_kids n) with Some m => tfind r m | None => None end
  end.

Inductive twf : tnode -> Prop :=
| twf_node c kids : NoDup (keys kids) -> Forall (fun kn => twf (snd kn)) kids -> twf (TNode c kids).

(** Below the root every node holds a content or has children. *)
Inductive ttidy : tnode -> Prop :=
| ttidy_node c kids : Forall (fun kn => t_is_empty (snd kn) = false /\ ttidy (snd kn)) kids ->
    ttidy (TNode c kids).

Definition labelled (pre : list string) (n : tnode) : Prop :=
  forall p c, tfind p n = Some c -> levels (rc_topic c) = (pre ++ p)%list.

Definition tpath_dec : forall a b : list string, {a = b} + {a <> b}.
Proof. exact (list_eq_dec string_dec). Qed.

Lemma tfind_new p : tfind p tnode_new = None.
Proof. destruct p; reflexivity. Qed.

Lemma twf_new : twf tnode_new.
Proof. constructor; constructor. Qed.

Lemma twf_kid n i m : twf n -> aget i (t_kids n) = Some m -> twf m.
Proof.
  intros [c kids Hn Hf] E. apply aget_Some_in in E. rewrite Forall_forall in Hf. apply (Hf _ E).
Qed.

Lemma twf_nodup n : twf n -> NoDup (keys (t_kids n)).
Proof. now intros [c kids Hn Hf]. Qed.

Lemma in_aset {V} k (v : V) (m : list (string * V)) kn : In kn (aset k v m) -> kn = (k, v) \/ In kn m.
Proof.
  induction m as [|[k' v'] m IH]; cbn; [intuition|].
  destruct (String.eqb k k'); cbn; intuition.
Qed.

Lemma twf_aset c i m n : twf n -> twf m -> twf (TNode c (aset i m (t_kids n))).
Proof.
  intros [c' kids Hn Hf] Hm. constructor; [now apply NoDup_aset|].
  rewrite Forall_forall in *. intros kn [->|Hi]%in_aset; auto.
Qed.

Lemma twf_adel c i n : twf n -> twf (TNode c (adel i (t_kids n))).
Proof.
  intros [c' kids Hn Hf]. constructor; [now apply NoDup_adel|].
  rewrite Forall_forall in *. intros kn Hi. apply Hf. now apply in_adel_sub in Hi.
Qed.

Lemma eqb_string_eqb a b : eqb a b = String.eqb a b.
Proof. reflexivity. Qed.

(** Insertion. *)
Lemma t_insert_spec items x : forall n, items <> [] -> twf n ->
  twf (fst (t_insert items x n)) /\
  t_content (fst (t_insert items x n)) = t_content n /\
  snd (t_insert items x n) = tfind items n /\
  (forall p, tfind p (fst (t_insert items x n)) = if tpath_dec p items then Some x else tfind p n).
Proof.
  induction items as [|item rest IH]; intros n Hne Hw; [congruence|]. cbn.
  destruct (aget item (t_kids n)) as [m|] eqn:Em.
  - pose proof (twf_kid n item m Hw Em) as Hm. destruct rest as [|r rs].
    + cbn. split; [apply twf_aset; [assumption|]; destruct Hm; now constructor|].
      split; [reflexivity|]. split; [reflexivity|].
      intros [|i p]; cbn; [destruct (tpath_dec [] [item]); [discriminate|reflexivity]|].
      rewrite aget_aset, eqb_string_eqb. destruct (String.eqb_spec i item) as [->|Hi].
      * destruct p as [|j p]; cbn.
        -- destruct (tpath_dec [item] [item]); congruence.
        -- destruct (tpath_dec (item :: j :: p) [item]); [discriminate|]. now rewrite Em.
      * destruct (tpath_dec (i :: p) [item]) as [E|]; [injection E; congruence|reflexivity].
    + destruct (IH m ltac:(discriminate) Hm) as (A & B & C & D).
      destruct (t_insert (r :: rs) x m) as [m' old]. cbn [fst snd] in *.
      split; [now apply twf_aset|]. split; [reflexivity|]. split; [exact C|].
      intros [|i p]; cbn; [destruct (tpath_dec [] (item :: r :: rs)); [discriminate|reflexivity]|].
      rewrite aget_aset, eqb_string_eqb. destruct (String.eqb_spec i item) as [->|Hi].
      * rewrite D, Em. destruct (tpath_dec p (r :: rs)), (tpath_dec (item :: p) (item :: r :: rs)); congruence.
      * destruct (tpath_dec (i :: p) (item :: r :: rs)) as [E|]; [injection E; congruence|reflexivity].
  - destruct rest as [|r rs].
    + cbn. split; [apply twf_aset; [assumption|]; repeat constructor|].
      split; [reflexivity|]. split; [reflexivity|].
      intros [|i p]; cbn; [destruct (tpath_dec [] [item]); [discriminate|reflexivity]|].
      rewrite aget_aset, eqb_string_eqb. destruct (String.eqb_spec i item) as [->|Hi].
      * destruct p as [|j p]; cbn.
        -- destruct (tpath_dec [item] [item]); congruence.
        -- destruct (tpath_dec (item :: j :: p) [item]); [discriminate|]. now rewrite Em.
      * destruct (tpath_dec (i :: p) [item]) as [E|]; [injection E; congruence|reflexivity].
    + destruct (IH tnode_new ltac:(discriminate) twf_new) as (A & B & C & D).
      destruct (t_insert (r :: rs) x tnode_new) as [m' old]. cbn [fst snd] in *.
      split; [now apply twf_aset|]. split; [reflexivity|]. split; [reflexivity|].
      intros [|i p]; cbn; [destruct (tpath_dec [] (item :: r :: rs)); [discriminate|reflexivity]|].
      rewrite aget_aset, eqb_string_eqb. destruct (String.eqb_spec i item) as [->|Hi].
      * rewrite D, Em, tfind_new.
        destruct (tpath_dec p (r :: rs)), (tpath_dec (item :: p) (item :: r :: rs)); congruence.
      * destruct (tpath_dec (i :: p) (item :: r :: rs)) as [E|]; [injection E; congruence|reflexivity].
Qed.

Lemma t_insert_not_empty items x n : items <> [] -> t_is_empty (fst (t_insert items x n)) = false.
Proof.
  destruct items as [|item rest]; [congruence|]. intros _. cbn. unfold t_is_empty.
  assert (K : forall (m : tnode) l, is_nil (aset item m l) = false)
    by (intros; apply is_nil_false, aset_not_nil).
  destruct (aget item (t_kids n)) as [m|]; (destruct rest as [|r rs];
    [|match goal with |- context[t_insert ?a ?b ?c] => destruct (t_insert a b c) end]); cbn; destruct (t_content n); auto.
Qed.

Lemma ttidy_kid n i m : ttidy n -> aget i (t_kids n) = Some m -> t_is_empty m = false /\ ttidy m.
Proof.
  intros [c kids Hf] E. apply aget_Some_in in E. rewrite Forall_forall in Hf. apply (Hf _ E).
Qed.

Lemma ttidy_aset c i m n : ttidy n -> t_is_empty m = false -> ttidy m ->
  ttidy (TNode c (aset i m (t_kids n))).
Proof.
  intros [c' kids Hf] He Hm. constructor. rewrite Forall_forall in *.
  intros kn [->|Hi]%in_aset; auto.
Qed.

Lemma ttidy_adel c i n : ttidy n -> ttidy (TNode c (adel i (t_kids n))).
Proof.
  intros [c' kids Hf]. constructor. rewrite Forall_forall in *. intros kn Hi. apply Hf.
  now apply in_adel_sub in Hi.
Qed.

Lemma t_insert_tidy items x : forall n, items <> [] -> ttidy n -> ttidy (fst (t_insert items x n)).
Proof.
  induction items as [|item rest IH]; intros n Hne Ht; [congruence|]. cbn.
  destruct (aget item (t_kids n)) as [m|] eqn:Em.
  - destruct (ttidy_kid _ _ _ Ht Em) as [He Hm]. destruct rest as [|r rs].
    + cbn. apply ttidy_aset; auto. destruct Hm; now constructor.
    + specialize (IH m ltac:(discriminate) Hm).
      pose proof (t_insert_not_empty (r :: rs) x m ltac:(discriminate)) as N.
      destruct (t_insert (r :: rs) x m) as [m' old]. cbn in *. now apply ttidy_aset.
  - destruct rest as [|r rs].
    + cbn. apply ttidy_aset; auto. constructor. constructor.
    + specialize (IH tnode_new ltac:(discriminate) ltac:(repeat constructor)).
      pose proof (t_insert_not_empty (r :: rs) x tnode_new ltac:(discriminate)) as N.
      destruct (t_insert (r :: rs) x tnode_new) as [m' old]. cbn in *. now apply ttidy_aset.
Qed.

(** Removal. *)
Lemma empty_find n : t_is_empty n = true -> forall p, tfind p n = None.
Proof.
  unfold t_is_empty. destruct n as [[c|] kids]; cbn; [discriminate|].
  intros ->%is_nil_true p. destruct p; reflexivity.
Qed.

Lemma t_remove_spec items : forall n, items <> [] -> twf n ->
  twf (fst (t_remove items n)) /\
  t_content (fst (t_remove items n)) = t_content n /\
  snd (t_remove items n) = tfind items n /\
  (forall p, tfind p (fst (t_remove items n)) = if tpath_dec p items then None else tfind p n).
Proof.
  induction items as [|item rest IH]; intros n Hne Hw; [congruence|]. cbn.
  destruct (aget item (t_kids n)) as [m|] eqn:Em.
  2:{ cbn. repeat (split; [assumption || reflexivity|]). intros p.
      destruct (tpath_dec p (item :: rest)) as [->|]; [cbn; now rewrite Em|reflexivity]. }
  pose proof (twf_kid n item m Hw Em) as Hm.
  pose (mo := match rest with [] => (TNode None (t_kids m), t_content m) | _ => t_remove rest m end).
  assert (K : twf (fst mo) /\ snd mo = tfind rest m /\
              forall p, tfind p (fst mo) = if tpath_dec p rest then None else tfind p m).
  { unfold mo. destruct rest as [|r rs].
    - cbn. split; [destruct Hm; now constructor|]. split; [reflexivity|].
      intros [|j p]; destruct (tpath_dec _ []); try congruence; reflexivity.
    - destruct (IH m ltac:(discriminate) Hm) as (A & B & C & D). auto. }
  fold mo. clearbody mo. destruct mo as [m' old]. cbn [fst snd] in K. destruct K as (A & B & C).
  assert (F : forall i p, tfind (i :: p) n = match aget i (t_kids n) with Some m => tfind p m | None => None end)
    by reflexivity.
  destruct (t_is_empty m') eqn:Ee; cbn [fst snd].
  - split; [now apply twf_adel|]. split; [reflexivity|]. split; [exact B|].
    intros [|i p]; cbn; [destruct (tpath_dec [] (item :: rest)); [discriminate|reflexivity]|].
    rewrite aget_adel, eqb_string_eqb by now apply twf_nodup.
    destruct (String.eqb_spec i item) as [->|Hi].
    + rewrite Em. specialize (C p). rewrite (empty_find _ Ee) in C.
      destruct (tpath_dec p rest), (tpath_dec (item :: p) (item :: rest)); congruence.
    + destruct (tpath_dec (i :: p) (item :: rest)) as [E|]; [injection E; congruence|reflexivity].
  - split; [now apply twf_aset|]. split; [reflexivity|]. split; [exact B|].
    intros [|i p]; cbn; [destruct (tpath_dec [] (item :: rest)); [discriminate|reflexivity]|].
    rewrite aget_aset, eqb_string_eqb. destruct (String.eqb_spec i item) as [->|Hi].
    + rewrite Em, C. destruct (tpath_dec p rest), (tpath_dec (item :: p) (item :: rest)); congruence.
    + destruct (tpath_dec (i :: p) (item :: rest)) as [E|]; [injection E; congruence|reflexivity].
Qed.

Lemma t_remove_tidy items : forall n, items <> [] -> ttidy n -> ttidy (fst (t_remove items n)).
Proof.
  induction items as [|item rest IH]; intros n Hne Ht; [congruence|]. cbn.
  destruct (aget item (t_kids n)) as [m|] eqn:Em; [|exact Ht].
  destruct (ttidy_kid _ _ _ Ht Em) as [He Hm].
  pose (mo := match rest with [] => (TNode None (t_kids m), t_content m) | _ => t_remove rest m end).
  assert (K : ttidy (fst mo)).
  { unfold mo. destruct rest as [|r rs]; [destruct Hm; now constructor|]. now apply IH. }
  fold mo. clearbody mo. destruct mo as [m' old]. cbn [fst] in K.
  destruct (t_is_empty m') eqn:Ee; cbn [fst].
  - now apply ttidy_adel.
  - now apply ttidy_aset.
Qed.

(** The tree after a history is the abstract map. *)
Lemma retained_snoc h o topic : retained (h ++ [o]) topic =
  match o with
  | RIns x => if String.eqb (rc_topic x) topic then Some x else retained h topic
  | RDel tp => if String.eqb tp topic then None else retained h topic
  end.
Proof. unfold retained. rewrite fold_left_app. reflexivity. Qed.

Lemma ret_run_snoc h o : ret_run (h ++ [o]) = fst (ret_step (ret_run h) o).
Proof. unfold ret_run. rewrite fold_left_app. reflexivity. Qed.

Lemma retained_topic h topic c : retained h topic = Some c -> rc_topic c = topic.
Proof.
  induction h as [|o h IH] using rev_ind; [discriminate|]. rewrite retained_snoc.
  destruct o as [x|tp].
  - destruct (String.eqb_spec (rc_topic x) topic); [intros [= <-]; assumption|auto].
  - destruct (String.eqb_spec tp topic); [discriminate|auto].
Qed.

Definition ret_inv (h : list retop) (t : tnode) : Prop :=
  twf t /\ ttidy t /\ t_content t = None /\
  (forall topic, tfind (levels topic) t = retained h topic) /\
  labelled [] t.

Lemma ret_inv_run h : ret_inv h (ret_run h).
Proof.
  induction h as [|o h IH] using rev_ind.
  - split; [apply twf_new|]. split; [repeat constructor|]. split; [reflexivity|]. split.
    + intros topic. apply (tfind_new (levels topic)).
    + intros p c Hp. pose proof (tfind_new p) as T. cbn in Hp. unfold ret_run, ret_empty in Hp. cbn in Hp. congruence.
  - rewrite ret_run_snoc. destruct IH as (A & B & C & D & E). destruct o as [x|tp]; cbn [ret_step].
    + unfold ret_insert. pose proof (levels_not_nil (rc_topic x)) as N.
      destruct (t_insert_spec (levels (rc_topic x)) x (ret_run h) N A) as (F & G & _ & I).
      split; [exact F|]. split; [now apply t_insert_tidy|]. split; [congruence|]. split.
      * intros topic. rewrite I, retained_snoc, D.
        destruct (tpath_dec (levels topic) (levels (rc_topic x))) as [Q%levels_inj|Q],
          (String.eqb_spec (rc_topic x) topic); congruence.
      * intros p c. rewrite I. destruct (tpath_dec p (levels (rc_topic x))) as [->|Q];
          [now intros [= <-]|apply E].
    + unfold ret_remove. pose proof (levels_not_nil tp) as N.
      destruct (t_remove_spec (levels tp) (ret_run h) N A) as (F & G & _ & I).
      split; [exact F|]. split; [now apply t_remove_tidy|]. split; [congruence|]. split.
      * intros topic. rewrite I, retained_snoc, D.
        destruct (tpath_dec (levels topic) (levels tp)) as [Q%levels_inj|Q],
          (String.eqb_spec tp topic); congruence.
      * intros p c. rewrite I. destruct (tpath_dec p (levels tp)) as [->|Q]; [discriminate|apply E].
Qed.

Lemma ret_step_returns h o :
  snd (ret_step (ret_run h) o) = retained h (match o with RIns x => rc_topic x | RDel tp => tp end).
Proof.
  destruct (ret_inv_run h) as (A & B & C & D & E). destruct o as [x|tp]; cbn [ret_step].
  - destruct (t_insert_spec (levels (rc_topic x)) x (ret_run h) (levels_not_nil _) A) as (_ & _ & R & _).
    unfold ret_insert. now rewrite R.
  - destruct (t_remove_spec (levels tp) (ret_run h) (levels_not_nil _) A) as (_ & _ & R & _).
    unfold ret_remove. now rewrite R.
Qed.

(** Lookup. *)
Definition visible (wf : bool) (c : rcontent) : Prop :=
  starts_with_dollar (rc_topic c) = true -> wf = false.

Lemma in_keep wf o c : In c (keep wf o) <-> o = Some c /\ visible wf c.
Proof.
  unfold keep, visible. destruct o as [x|]; [|cbn; intuition discriminate].
  destruct (starts_with_dollar (rc_topic x)) eqn:Ed, wf; cbn; (split;
    [intros [<-|[]]; split; [reflexivity|congruence] || (intros []) | intros [[= ->] V]; rewrite ?Ed in V; auto]).
  all: try (specialize (V eq_refl); discriminate).
Qed.

Lemma t_all_spec wf : forall n c, twf n ->
  (In c (t_all wf n) <-> visible wf c /\ exists p, tfind p n = Some c).
Proof.
  induction n as [ct kids IH] using tnode_nested_ind. intros c Hw. cbn [t_all].
  rewrite in_app_iff, in_flat_map, in_keep. inversion Hw as [? ? Hn Hf]; subst.
  rewrite Forall_forall in IH, Hf. split.
  - intros [([k m] & Hi & Hc)|[-> V]].
    + apply (IH _ Hi) in Hc; [|now apply (Hf _ Hi)]. destruct Hc as [V [p Hp]]. split; [exact V|].
      exists (k :: p). cbn. rewrite (in_aget _ _ _ Hn Hi). exact Hp.
    + split; [exact V|]. now exists [].
  - intros [V [p Hp]]. destruct p as [|k p]; cbn in Hp; [right; auto|].
    destruct (aget k kids) as [m|] eqn:Em; [|discriminate]. apply aget_Some_in in Em. left.
    exists (k, m). split; [exact Em|]. apply (IH _ Em); [apply (Hf _ Em)|]. eauto.
Qed.

Lemma fold_oapp {A} (g : A -> option (list rcontent)) l :
  (forall a, In a l -> exists r, g a = Some r) ->
  exists r, fold_right (fun a acc => oapp (g a) acc) (Some []) l = Some r /\
    r = flat_map (fun a => match g a with Some x => x | None => [] end) l.
Proof.
  induction l as [|a l IH]; intros H; cbn; [eauto|].
  destruct IH as (r & E & ->); [intros; apply H; now right|]. destruct (H a (or_introl eq_refl)) as [x Ex].
  rewrite E, Ex. cbn. eauto.
Qed.

Lemma t_matches_spec wf items : forall n, items <> [] -> valid_levels items -> twf n ->
  exists l, t_matches wf items n = Some l /\
    forall c, In c l <-> visible wf c /\ exists p, tfind p n = Some c /\ filter_matches items p.
Proof.
  induction items as [|item rest IH]; intros n Hne Hv Hw; [congruence|].
  cbn [t_matches]. destruct (String.eqb_spec item MATCH_ALL) as [->|NH].
  - assert (rest = []) as ->.
    { inversion Hv; subst; auto. match goal with P : plain_level _ |- _ => destruct P; discriminate end. }
    eexists. split; [reflexivity|]. intros c. rewrite t_all_spec by assumption.
    split; intros [V [p Hp]]; (split; [exact V|]); exists p; [split; [exact Hp|constructor]|tauto].
  - assert (Vr : valid_levels rest) by (inversion Hv; subst; [now contradiction NH|assumption|assumption]).
    pose proof (twf_nodup n Hw) as Hn.
    destruct (String.eqb_spec item MATCH_ONE) as [->|NP].
    + destruct rest as [|r rs].
      * eexists. split; [reflexivity|]. intros c. rewrite in_flat_map. split.
        -- intros ([k m] & Hi & Hc). apply in_keep in Hc as [Ec V]. split; [exact V|].
           exists [k]. cbn. rewrite (in_aget _ _ _ Hn Hi). split; [exact Ec|]. repeat constructor.
        -- intros [V (p & Hp & Hm)]. inversion Hm as [|Q1 Q2|t fs ts Hm'|? ? ? Q]; subst; [|now contradiction Q].
           inversion Hm'; subst. cbn in Hp. destruct (aget t (t_kids n)) as [m|] eqn:Em; [|discriminate].
           apply aget_Some_in in Em. exists (t, m). split; [exact Em|]. apply in_keep. auto.
      * assert (Hk : forall kn, In kn (t_kids n) -> exists l, t_matches wf (r :: rs) (snd kn) = Some l /\
            forall c, In c l <-> visible wf c /\ exists p, tfind p (snd kn) = Some c /\ filter_matches (r :: rs) p).
        { intros [k m] Hi. apply IH; [discriminate|exact Vr|]. apply (twf_kid n k); [exact Hw|].
          now apply in_aget. }
        destruct (fold_oapp (fun kn => t_matches wf (r :: rs) (snd kn)) (t_kids n)) as (l & El & ->).
        { intros kn Hi. destruct (Hk kn Hi) as (l & El & _). eauto. }
        eexists. split; [exact El|]. intros c. rewrite in_flat_map. split.
        -- intros (kn & Hi & Hc). destruct (Hk kn Hi) as (l & El' & Hl). rewrite El' in Hc.
           apply Hl in Hc as (V & p & Hp & Hm). split; [exact V|]. destruct kn as [k m].
           exists (k :: p). cbn. rewrite (in_aget _ _ _ Hn Hi). split; [exact Hp|]. now constructor.
        -- intros (V & p & Hp & Hm). inversion Hm as [|Q1 Q2|t fs ts Hm'|? ? ? Q]; subst; [|now contradiction Q].
           cbn [tfind] in Hp. destruct (aget t (t_kids n)) as [m|] eqn:Em; [|discriminate].
           apply aget_Some_in in Em. exists (t, m). split; [exact Em|].
           destruct (Hk _ Em) as (l & El' & Hl). rewrite El'. apply Hl. split; [exact V|]. eauto.
    + assert (Hcase : forall p, filter_matches (item :: rest) p <-> exists ts, p = item :: ts /\ filter_matches rest ts).
      { intros p. split.
        - intros Hm. inversion Hm; subst; [now contradiction NH|now contradiction NP|eauto].
        - intros (ts & -> & Hm). now constructor 4. }
      destruct (aget item (t_kids n)) as [m|] eqn:Em.
      * pose proof (twf_kid n item m Hw Em) as Hm. destruct rest as [|r rs].
        -- eexists. split; [reflexivity|]. intros c. rewrite in_keep. split.
           ++ intros [Ec V]. split; [exact V|]. exists [item]. cbn. rewrite Em. split; [exact Ec|].
              apply Hcase. eexists; split; [reflexivity|constructor].
           ++ intros (V & p & Hp & Hf). apply Hcase in Hf as (ts & -> & Hf). inversion Hf; subst.
              cbn in Hp. rewrite Em in Hp. auto.
        -- destruct (IH m ltac:(discriminate) Vr Hm) as (l & El & Hl). exists l. split; [exact El|].
           intros c. rewrite Hl. split; intros (V & p & Hp & Hf); (split; [exact V|]).
           ++ exists (item :: p). cbn. rewrite Em. split; [exact Hp|]. apply Hcase. eauto.
           ++ apply Hcase in Hf as (ts & -> & Hf). cbn in Hp. rewrite Em in Hp. eauto.
      * eexists. split; [reflexivity|]. intros c. split; [intros []|].
        intros (V & p & Hp & Hf). apply Hcase in Hf as (ts & -> & Hf). cbn in Hp. rewrite Em in Hp. discriminate.
Qed.

(** No topic twice. *)
Lemma labelled_kid pre n k m : labelled pre n -> aget k (t_kids n) = Some m -> labelled (pre ++ [k]) m.
Proof.
  intros H E p c Hp. rewrite <- app_assoc. cbn. apply H. cbn. now rewrite E.
Qed.

Definition topics (l : list rcontent) : list (list string) := map (fun c => levels (rc_topic c)) l.

Lemma NoDup_app {A} (a b : list A) : NoDup a -> NoDup b -> (forall x, In x a -> ~ In x b) -> NoDup (a ++ b).
Proof.
  induction a as [|x a IH]; intros Ha Hb Hd; [exact Hb|]. inversion Ha; subst. cbn. constructor.
  - rewrite in_app_iff. intros [|]; [contradiction|]. now apply (Hd x (or_introl eq_refl)).
  - apply IH; auto. intros y Hy. apply Hd. now right.
Qed.

Lemma topics_flat_map pre (g : tnode -> list rcontent) kids : NoDup (keys kids) ->
  (forall k m, In (k, m) kids -> NoDup (topics (g m)) /\
     forall c, In c (g m) -> exists p, levels (rc_topic c) = (pre ++ k :: p)%list) ->
  NoDup (topics (flat_map (fun kn => g (snd kn)) kids)).
Proof.
  induction kids as [|[k m] kids IH]; intros Hn H; cbn; [constructor|].
  unfold topics. rewrite map_app. inversion Hn as [|? ? Hk Hn']; subst.
  destruct (H k m (or_introl eq_refl)) as [Hm Hp].
  apply NoDup_app; [exact Hm|apply IH; [assumption|intros; apply H; now right]|].
  intros x Hx Hy. apply in_map_iff in Hx as (c & <- & Hc). apply in_map_iff in Hy as (d & Ed & Hd).
  apply in_flat_map in Hd as ([k' m'] & Hi & Hd). cbn in Hd.
  destruct (Hp c Hc) as [p E]. destruct (H k' m' (or_intror Hi)) as [_ Hp'].
  destruct (Hp' d Hd) as [p' E']. rewrite Ed, E in E'. apply app_inv_head in E'. injection E' as -> _.
  apply Hk. apply in_map_iff. exists (k', m'). auto.
Qed.

Lemma t_all_nodup wf : forall n pre, twf n -> labelled pre n -> NoDup (topics (t_all wf n)).
Proof.
  induction n as [ct kids IH] using tnode_nested_ind. intros pre Hw Hl. cbn [t_all].
  unfold topics. rewrite map_app. inversion Hw as [? ? Hn Hf]; subst.
  rewrite Forall_forall in IH, Hf.
  assert (HP : forall k m, In (k, m) kids -> forall c, In c (t_all wf m) -> exists p, levels (rc_topic c) = (pre ++ k :: p)%list).
  { intros k m Hi c Hc. apply t_all_spec in Hc as [_ [p Hp]]; [|apply (Hf _ Hi)].
    exists p. apply Hl. cbn. rewrite (in_aget _ _ _ Hn Hi). exact Hp. }
  apply NoDup_app.
  - apply (topics_flat_map pre); [exact Hn|]. intros k m Hi. split; [|now apply HP].
    apply (IH _ Hi (pre ++ [k])%list); [apply (Hf _ Hi)|]. apply (labelled_kid pre (TNode ct kids)); [exact Hl|].
    now apply in_aget.
  - unfold keep. destruct ct as [x|]; [|constructor].
    destruct (starts_with_dollar (rc_topic x) && wf); repeat constructor; intros [].
  - intros x Hx Hy. apply in_map_iff in Hx as (c & <- & Hc). apply in_map_iff in Hy as (d & Ed & Hd).
    apply in_flat_map in Hc as ([k m] & Hi & Hc). destruct (HP k m Hi c Hc) as [p E].
    apply in_keep in Hd as [-> _]. rewrite (Hl [] d eq_refl), app_nil_r, E in Ed.
    rewrite <- (app_nil_r pre) in Ed at 1. apply app_inv_head in Ed. discriminate.
Qed.

Lemma keep_nodup wf c : NoDup (topics (keep wf c)).
Proof.
  unfold keep. destruct c as [x|]; [|constructor].
  destruct (starts_with_dollar (rc_topic x) && wf); repeat constructor; intros [].
Qed.

Lemma t_matches_nodup wf items : forall n pre l, items <> [] -> valid_levels items -> twf n -> labelled pre n ->
  t_matches wf items n = Some l -> NoDup (topics l).
Proof.
  induction items as [|item rest IH]; intros n pre l Hne Hv Hw Hl; [congruence|].
  cbn [t_matches]. pose proof (twf_nodup n Hw) as Hn.
  destruct (String.eqb_spec item MATCH_ALL) as [->|NH].
  - destruct rest; [|discriminate]. intros [= <-]. now apply (t_all_nodup wf n pre).
  - assert (Vr : valid_levels rest) by (inversion Hv; subst; [now contradiction NH|assumption|assumption]).
    destruct (String.eqb_spec item MATCH_ONE) as [->|NP].
    + destruct rest as [|r rs].
      * intros [= <-]. apply (topics_flat_map pre (fun m => keep wf (t_content m))); [exact Hn|].
        intros k m Hi. split; [apply keep_nodup|]. intros c [Hc _]%in_keep. exists []. apply Hl. cbn.
        rewrite (in_aget _ _ _ Hn Hi). exact Hc.
      * assert (Hk : forall kn, In kn (t_kids n) -> exists l, t_matches wf (r :: rs) (snd kn) = Some l /\
            forall c, In c l <-> visible wf c /\ exists p, tfind p (snd kn) = Some c /\ filter_matches (r :: rs) p).
        { intros [k m] Hi. apply t_matches_spec; [discriminate|exact Vr|]. apply (twf_kid n k); [exact Hw|].
          now apply in_aget. }
        destruct (fold_oapp (fun kn => t_matches wf (r :: rs) (snd kn)) (t_kids n)) as (l' & El & ->).
        { intros kn Hi. destruct (Hk kn Hi) as (l' & El & _). eauto. }
        rewrite El. intros [= <-].
        apply (topics_flat_map pre (fun m => match t_matches wf (r :: rs) m with Some x => x | None => [] end)); [exact Hn|].
        intros k m Hi. destruct (Hk _ Hi) as (x & Ex & Hx). cbn [snd] in Ex, Hx. rewrite Ex. split.
        -- apply (IH m (pre ++ [k])%list); [discriminate|exact Vr| | |exact Ex].
           ++ apply (twf_kid n k); [exact Hw|]. now apply in_aget.
           ++ apply (labelled_kid pre n); [exact Hl|]. now apply in_aget.
        -- intros c Hc. apply Hx in Hc as (_ & p & Hp & _). exists p. apply Hl. cbn.
           rewrite (in_aget _ _ _ Hn Hi). exact Hp.
    + destruct (aget item (t_kids n)) as [m|] eqn:Em; [|intros [= <-]; constructor].
      destruct rest as [|r rs]; [intros [= <-]; apply keep_nodup|].
      apply (IH m (pre ++ [item])%list); [discriminate|exact Vr|now apply (twf_kid n item)|now apply (labelled_kid pre n)].
Qed.

Lemma starts_with_dollar_iff t : starts_with_dollar t = true <-> begins_with_dollar t.
Proof.
  unfold begins_with_dollar. destruct t as [|c r]; cbn.
  - split; [discriminate|intros [r' Hr']; discriminate].
  - destruct (Ascii.eqb_spec c "$"); split; try congruence.
    + intros _. exists r. congruence.
    + intros [r' [= ? ?]]. congruence.
Qed.

Lemma starts_with_wildcard_iff f : starts_with_wildcard f = true <-> begins_with_wildcard f.
Proof.
  unfold begins_with_wildcard. destruct f as [|c r]; cbn.
  - split; [discriminate|intros [r' [Hr'|Hr']]; discriminate].
  - rewrite orb_true_iff. split.
    + intros [E|E]; apply Ascii.eqb_eq in E; subst; exists r; auto.
    + intros [r' [E|E]]; injection E as -> _; auto.
Qed.

Theorem retained_lookup_lemma h f : valid_filter f ->
  exists l, ret_get_matches (ret_run h) f = Some l /\
    NoDup (map rc_topic l) /\
    forall c, In c l <-> retained h (rc_topic c) = Some c /\ topic_matches f (rc_topic c).
Proof.
  intros Hv. destruct (ret_inv_run h) as (A & B & C & D & E).
  destruct (t_matches_spec (starts_with_wildcard f) (levels f) (ret_run h) (levels_not_nil f) Hv A) as (l & El & Hl).
  exists l. split; [exact El|]. split.
  - pose proof (t_matches_nodup _ _ _ [] l (levels_not_nil f) Hv A E El) as N. unfold topics in N.
    rewrite <- (map_map rc_topic levels) in N. now apply NoDup_map_inv in N.
  - intros c. rewrite Hl. unfold visible, topic_matches.
    rewrite starts_with_dollar_iff, <- starts_with_wildcard_iff.
    assert (Q : starts_with_wildcard f = false <-> ~ starts_with_wildcard f = true)
      by (destruct (starts_with_wildcard f); intuition congruence).
    rewrite Q. split.
    + intros (V & p & Hp & Hm). pose proof (E p c Hp) as Ep. cbn in Ep. subst p. rewrite <- D. auto.
    + intros (Hr & Hm & V). split; [exact V|]. exists (levels (rc_topic c)). rewrite D. auto.
Qed.

(** No garbage. *)
Lemma tidy_has_content : forall n, twf n -> ttidy n -> t_is_empty n = false -> exists p c, tfind p n = Some c.
Proof.
  induction n as [ct kids IH] using tnode_nested_ind. intros Hw Ht He.
  destruct ct as [x|]; [exists [], x; reflexivity|]. destruct kids as [|[k m] kids]; [discriminate|].
  inversion Hw as [? ? Hn Hf]; inversion Ht as [? ? Hf']; subst.
  inversion IH as [|? ? IHm _]; inversion Hf; inversion Hf' as [|? ? [He' Ht'] _]; subst.
  destruct IHm as (p & c & Hp); auto. exists (k :: p), c. cbn. now rewrite String.eqb_refl.
Qed.

Lemma tfind_app p q n : tfind (p ++ q) n = match tnode_at p n with Some m => tfind q m | None => None end.
Proof.
  revert n. induction p as [|i p IH]; intros n; cbn; [reflexivity|].
  destruct (aget i (t_kids n)); auto.
Qed.

Lemma tnode_at_props p : forall n m, twf n -> ttidy n -> tnode_at p n = Some m ->
  twf m /\ ttidy m /\ (p <> [] -> t_is_empty m = false).
Proof.
  induction p as [|i p IH]; intros n m Hw Ht; cbn; [intros [= <-]; intuition congruence|].
  destruct (aget i (t_kids n)) as [k|] eqn:Ek; [|discriminate]. intros E.
  destruct (ttidy_kid _ _ _ Ht Ek) as [He Hk]. pose proof (twf_kid _ _ _ Hw Ek) as Hwk.
  destruct (IH k m Hwk Hk E) as (P & Q & R). split; [exact P|]. split; [exact Q|]. intros _.
  destruct p; [injection E as <-; exact He|apply R; discriminate].
Qed.

Theorem retained_no_garbage_lemma h :
  (forall p m, p <> [] -> tnode_at p (ret_run h) = Some m ->
     exists topic c q, levels topic = (p ++ q)%list /\ retained h topic = Some c) /\
  ((forall topic, retained h topic = None) -> ret_run h = ret_empty).
Proof.
  destruct (ret_inv_run h) as (A & B & C & D & E).
  assert (K : forall p m, p <> [] -> tnode_at p (ret_run h) = Some m ->
     exists topic c q, levels topic = (p ++ q)%list /\ retained h topic = Some c).
  { intros p m Hp Hm. destruct (tnode_at_props p _ _ A B Hm) as (Wm & Tm & Nm).
    destruct (tidy_has_content m Wm Tm (Nm Hp)) as (q & c & Hq).
    assert (Hf : tfind (p ++ q) (ret_run h) = Some c) by (rewrite tfind_app, Hm; exact Hq).
    pose proof (E _ _ Hf) as El. cbn in El. exists (rc_topic c), c, q. split; [exact El|].
    rewrite <- D, El. exact Hf. }
  split; [exact K|]. intros H. destruct (ret_run h) as [ct kids] eqn:Er. cbn in C. subst ct.
  unfold ret_empty, tnode_new. f_equal. apply aget_nil_all. intros k.
  destruct (aget k kids) as [m|] eqn:Em; [|reflexivity]. exfalso.
  destruct (K [k] m ltac:(discriminate)) as (topic & c & q & _ & R); [cbn; now rewrite Em|].
  rewrite H in R. discriminate.
Qed.

Theorem retained_dollar_lemma h f l c : valid_filter f -> begins_with_wildcard f ->
  ret_get_matches (ret_run h) f = Some l -> In c l -> ~ begins_with_dollar (rc_topic c).
Proof.
  intros Hv Hw El Hc Hd. destruct (retained_lookup_lemma h f Hv) as (l' & El' & _ & H).
  rewrite El in El'. injection El' as <-. apply H in Hc as (_ & _ & V). now apply V.
Qed.
