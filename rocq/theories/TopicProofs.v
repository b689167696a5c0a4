(** Facts about level lists. *)
From Coq Require Import List Bool String Ascii.
From Verif Require Import Base BaseLemmas TopicModel TopicSpec.
Import ListNotations.
Local Open Scope string_scope.

(** [levels] is what iterating the code's [split_topic] gives. *)
Lemma levels_split_topic s :
  levels s = let '(h, r) := split_topic s in
             h :: match r with Some r => levels r | None => [] end.
Proof.
  unfold split_topic. induction s as [|c r IH]; cbn; [reflexivity|].
  destruct (Ascii.eqb c slash); [reflexivity|].
  rewrite IH. destruct (split_once slash r) as [[h t]|]; reflexivity.
Qed.

Lemma levels_not_nil s : levels s <> [].
Proof. rewrite levels_split_topic. destruct (split_topic s). congruence. Qed.

Lemma join_cons x y r : join (x :: y :: r) = x ++ String slash (join (y :: r)).
Proof. reflexivity. Qed.

Lemma join_levels s : join (levels s) = s.
Proof.
  induction s as [|c r IH]; [reflexivity|]. cbn [levels].
  destruct (Ascii.eqb_spec c slash) as [->|Hne].
  - destruct (levels r) as [|h t] eqn:E; [now apply levels_not_nil in E|].
    rewrite join_cons, IH. reflexivity.
  - destruct (levels r) as [|h t] eqn:E; [now apply levels_not_nil in E|].
    destruct t as [|h2 t].
    + cbn in *. congruence.
    + rewrite join_cons in *. cbn [append]. congruence.
Qed.

Lemma levels_inj a b : levels a = levels b -> a = b.
Proof. intros H. rewrite <- (join_levels a), <- (join_levels b). congruence. Qed.

Lemma has_char_slash_app c a b : has_char c (a ++ b) = has_char c a || has_char c b.
Proof. induction a as [|d r IH]; cbn; auto. rewrite IH. now rewrite orb_assoc. Qed.

Lemma levels_app_slash a b : has_char slash a = false ->
  levels (a ++ String slash b) = a :: levels b.
Proof.
  induction a as [|c r IH]; intros H.
  - cbn. reflexivity.
  - cbn in H. apply orb_false_iff in H. destruct H as [H1 H2].
    cbn [append levels]. rewrite H1. rewrite IH by auto. reflexivity.
Qed.

Lemma levels_no_slash s l : In l (levels s) -> has_char slash l = false.
Proof.
  revert l. induction s as [|c r IH]; cbn [levels]; intros l Hin.
  - destruct Hin as [<-|[]]. reflexivity.
  - destruct (Ascii.eqb_spec c slash) as [->|Hne].
    + destruct Hin as [<-|Hin]; auto.
    + destruct (levels r) as [|h t] eqn:E.
      * destruct Hin as [<-|[]]. cbn. destruct (Ascii.eqb_spec c slash); congruence || reflexivity.
      * destruct Hin as [<-|Hin].
        -- cbn. destruct (Ascii.eqb_spec c slash); [congruence|]. cbn. apply IH. now left.
        -- apply IH. now right.
Qed.

Lemma has_char_level c s l : In l (levels s) -> has_char c l = true -> has_char c s = true.
Proof.
  revert l. induction s as [|d r IH]; cbn [levels]; intros l Hin Hc.
  - destruct Hin as [<-|[]]. discriminate.
  - cbn. destruct (Ascii.eqb_spec d slash) as [->|Hne].
    + destruct Hin as [<-|Hin]; [discriminate|]. rewrite (IH l Hin Hc). apply orb_true_r.
    + destruct (levels r) as [|h t] eqn:E.
      * destruct Hin as [<-|[]]. cbn in Hc. now rewrite orb_false_r in *; rewrite Hc.
      * destruct Hin as [<-|Hin].
        -- cbn in Hc. apply orb_true_iff in Hc. destruct Hc as [->|Hc]; auto.
           rewrite (IH h) by (auto; now left). apply orb_true_r.
        -- rewrite (IH l) by (auto; now right). apply orb_true_r.
Qed.

Lemma valid_topic_levels t l : valid_topic_name t -> In l (levels t) -> l <> "+" /\ l <> "#".
Proof.
  intros [H1 H2] Hin. split; intros ->.
  - assert (has_char "+" t = true) by (eapply has_char_level; eauto). congruence.
  - assert (has_char "#" t = true) by (eapply has_char_level; eauto). congruence.
Qed.

Lemma shared_info_levels f g inner : shared_info f = Some (g, inner) ->
  levels f = "$share" :: g :: levels inner.
Proof.
  unfold shared_info. intros H. rewrite levels_split_topic.
  destruct (split_topic f) as [p [r|]]; [|congruence].
  destruct (String.eqb_spec p "$share") as [->|]; [|congruence].
  rewrite levels_split_topic. destruct (split_topic r) as [g' [i'|]]; [|congruence].
  congruence.
Qed.

Lemma shared_info_inj f f' x : shared_info f = Some x -> shared_info f' = Some x -> f = f'.
Proof.
  destruct x as [g i]. intros H1 H2. apply shared_info_levels in H1, H2.
  apply levels_inj. congruence.
Qed.

Lemma split_topic_app a b : has_char slash a = false ->
  split_topic (a ++ String slash b) = (a, Some b).
Proof.
  unfold split_topic. intros H.
  assert (E : split_once slash (a ++ String slash b) = Some (a, b)).
  { induction a as [|c r IH]; cbn; [reflexivity|]. cbn in H.
    apply orb_false_iff in H. destruct H as [H1 H2]. rewrite H1, IH by auto. reflexivity. }
  now rewrite E.
Qed.
