(** Passwords and CONNECT; example data. *)
From Coq Require Import List Bool Arith NArith Ascii String Lia.
From Verif Require Import Base BaseLemmas GlobModel ConnModel TextModel TextSpec TextProofs Utf8Proofs PassModel PassSpec PassProofs.
Import ListNotations.
Local Open Scope char_scope.

Section Connect.
  Variable M : Type.
  Variable first : string -> option (M * string).
  Variable u8 : string -> bool.
  Variable sha256 sha512 : text -> text.
  Variable pbkdf2 : bool -> N -> text -> text -> nat -> text.
  (** The check CONNECT makes (connect.rs:54-58 of both versions). *)
  Definition pw (t : table) (u p : string) : bool := check_password sha256 sha512 pbkdf2 t (lit u) (lit p).

  Lemma refused5 t c a uuid now p : ac_enable a = true ->
    ~ (exists u q e, co_user p = Some u /\ co_pass p = Some q /\ aget (lit u) t = Some e /\ right_password sha256 sha512 pbkdf2 e (lit q)) ->
    exists k, handle_connect5 M (pw t) first u8 c a uuid now p = PRefuse M k /\ ka_code k = RC_bad_user_or_password /\ ka_present k = false.
  Proof.
    intros EN N. unfold handle_connect5, password_ok. rewrite EN.
    assert (F : match co_user p, co_pass p with Some u, Some q => pw t u q | _, _ => false end = false).
    { destruct (co_user p) as [u|]; [|reflexivity]. destruct (co_pass p) as [q|]; [|reflexivity]. unfold pw.
      destruct (check_password _ _ _ _ _ _) eqn:E; [|reflexivity]. apply check_iff in E. destruct E as (e & G & R). destruct N. exists u, q, e. auto. }
    rewrite F. cbn [negb]. eexists. split; [reflexivity|]. split; reflexivity.
  Qed.
  Lemma refused3 t c a uuid now p : ac_enable a = true ->
    ~ (exists u q e, c3_user p = Some u /\ c3_pass p = Some q /\ aget (lit u) t = Some e /\ right_password sha256 sha512 pbkdf2 e (lit q)) ->
    exists code, handle_connect3 (pw t) c a uuid now p = PRefuse3 (Connack3 false code) /\ (code = 2 \/ code = 4)%N.
  Proof.
    intros EN N. unfold handle_connect3, password_ok. rewrite EN.
    assert (F : match c3_user p, c3_pass p with Some u, Some q => pw t u q | _, _ => false end = false).
    { destruct (c3_user p) as [u|]; [|reflexivity]. destruct (c3_pass p) as [q|]; [|reflexivity]. unfold pw.
      destruct (check_password _ _ _ _ _ _) eqn:E; [|reflexivity]. apply check_iff in E. destruct E as (e & G & R). destruct N. exists u, q, e. auto. }
    rewrite F. cbn [negb]. repeat match goal with |- context[if ?b then _ else _] => destruct b end; eauto.
  Qed.
  Lemma not_refused5 t c a uuid now p u q e : co_user p = Some u -> co_pass p = Some q -> aget (lit u) t = Some e -> right_password sha256 sha512 pbkdf2 e (lit q) ->
    forall k, handle_connect5 M (pw t) first u8 c a uuid now p = PRefuse M k -> ka_code k <> RC_bad_user_or_password.
  Proof.
    intros HU HP G R k. assert (C : pw t u q = true) by (apply check_iff; eauto).
    unfold handle_connect5, password_ok. rewrite HU, HP, C. replace (if ac_enable a then true else true) with true by now destruct (ac_enable a). cbn [negb].
    intros H E.
    unfold scram_first in H.
    repeat (match type of H with context[match ?x with _ => _ end] =>
        lazymatch x with context[match _ with _ => _ end] => fail | _ => let E' := fresh "E'" in destruct x eqn:E' end end; try discriminate H);
    inversion H; subst k; discriminate E.
  Qed.
End Connect.

(** A digest for examples: not a hash, but it has the lengths. *)
Definition toy (s : text) : text := firstn 32 (s ++ repeat "0" 32)%list.
Definition toy_pbkdf2 (alg : bool) (n : N) (salt password : text) (len : nat) : text := firstn len (password ++ salt ++ repeat "0" len)%list.
Lemma toy_length alg n salt password len : List.length (toy_pbkdf2 alg n salt password len) = len.
Proof. unfold toy_pbkdf2. rewrite firstn_length, !app_length, repeat_length. lia. Qed.
Lemma toy_prefix alg n salt password k len : (k <= len)%nat -> firstn k (toy_pbkdf2 alg n salt password len) = toy_pbkdf2 alg n salt password k.
Proof.
  intros L. unfold toy_pbkdf2. rewrite firstn_firstn. replace (Nat.min k len) with k by lia. rewrite !firstn_app. f_equal. f_equal.
  assert (A : forall i x m, (i <= x)%nat -> firstn i (repeat m x) = repeat (m : ascii) i).
  { induction i as [|i IH]; intros x m H; [reflexivity|]. destruct x; [lia|]. cbn. now rewrite IH by lia. }
  rewrite !A by lia. reflexivity.
Qed.
Definition ex_salt : text := lit "abcdefghijkl".
Definition ex_e1 : entry := Entry Sha512 (lit "h1") ex_salt.
Definition ex_e2 : entry := Entry (Sha256Pk 1000) (lit "h2") ex_salt.
Definition ex_table : table := [(lit "ann", ex_e1); (lit "b:c d", ex_e2)].
Definition ex_connect5 (u p : option string) : connect5 := Connect5 true 60 "dev" u p None None None None None None None None.
Definition ex_connect3 (u p : option string) : connect3 := Connect3 false true 60 "dev" u p None.

Lemma not_starts s x r : s = x :: r -> forallb (fun p => match after_prefix p s with Some _ => false | None => true end) spaces = true -> ~ starts_white s.
Proof. intros _ F (p & t & I & E). rewrite forallb_forall in F. specialize (F p I). now rewrite (proj2 (after_prefix_some p s t) E) in F. Qed.
Lemma ex_user s x r : s = x :: r -> utf8 s = true -> forallb (fun c => negb (Ascii.eqb c "010")) s = true ->
  forallb (fun p => match after_prefix p s with Some _ => false | None => true end) spaces = true -> storable_user s.
Proof.
  intros E U N F. split; [now apply utf8_iff|]. split; [|eapply not_starts; eauto]. intros I. rewrite forallb_forall in N. specialize (N _ I). discriminate.
Qed.
Lemma ex_table_storable : storable ex_table.
Proof.
  split; [repeat constructor; cbn; intuition discriminate|]. repeat (apply Forall_cons || apply Forall_nil); (split; [eapply ex_user; vm_compute; reflexivity|]); unfold storable_entry, min_salt; cbn [snd ex_e1 ex_e2 en_alg en_salt ex_salt lit list_ascii_of_string List.length]; (split; [lia|first [exact I|lia]]).
Qed.
Lemma ex_e1_ok : storable_entry ex_e1.
Proof. split; [vm_compute; lia|exact I]. Qed.
Lemma ex_e2_ok : storable_entry ex_e2.
Proof. split; [vm_compute; lia|vm_compute; split; [reflexivity|discriminate]]. Qed.
