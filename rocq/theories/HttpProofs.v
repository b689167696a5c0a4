(** Proofs about the HTTP endpoints. *)
From Coq Require Import List Bool NArith Ascii String Lia.
From Verif Require Import Base TextModel TextProofs HttpModel HttpSpec.
Import ListNotations.
Local Open Scope list_scope.

Lemma decimal_app a : forall n b m, decimal_from n a = Some m -> decimal_from n (a ++ b) = decimal_from m b.
Proof.
  induction a as [|x a IH]; intros n b m; cbn [decimal_from app]; [intros E; injection E as ->; reflexivity|].
  destruct (_ && _)%bool; [apply IH|discriminate].
Qed.

Lemma digit_code d : (d < 10)%N -> N_of_ascii (digit d) = (48 + d)%N.
Proof. intros L. unfold digit, byte. apply N_ascii_embedding. lia. Qed.

Lemma decimal_digit n d : (d < 10)%N -> decimal_from n [digit d] = Some (10 * n + d)%N.
Proof.
  intros L. cbn [decimal_from]. rewrite digit_code by exact L.
  destruct (N.leb_spec 48 (48 + d)); [|lia]. destruct (N.leb_spec (48 + d) 57); [|lia]. cbn [andb]. f_equal. lia.
Qed.

Lemma decimal_show n : decimal (show n) n.
Proof.
  assert (K : decimal_from 0 (show n) = Some n).
  { induction n as [n L|n L IH] using show_ind.
    - rewrite show_small by exact L. rewrite decimal_digit by exact L. f_equal.
    - rewrite show_step by exact L. rewrite (decimal_app _ _ _ _ IH), decimal_digit.
      + f_equal. symmetry. rewrite (N.div_mod n 10) at 1 by lia. reflexivity.
      + apply N.mod_lt. lia. }
  split; [|exact K]. induction n as [n L|n L IH] using show_ind.
  - rewrite show_small by exact L. discriminate.
  - rewrite show_step by exact L. destruct (show (n / 10)); discriminate.
Qed.

Lemma decimal_no_newline d : forall n m, decimal_from n d = Some m -> ~ In "010"%char d.
Proof.
  induction d as [|x d IH]; intros n m E; [intros []|]. cbn [decimal_from] in E.
  intros [->|I]; [discriminate|]. destruct (_ && _)%bool; [|discriminate]. exact (IH _ _ E I).
Qed.

Lemma lit_plain s : forallb (fun c => negb (Ascii.eqb c "010"%char)) (lit s) = true -> ~ In "010"%char (lit s).
Proof. intros H I. rewrite forallb_forall in H. specialize (H _ I). rewrite Ascii.eqb_refl in H. discriminate. Qed.

Theorem metrics_reports n : reports (metrics n) (lit "ONLINE_CLIENTS") n.
Proof.
  exists [lit "# HELP ONLINE_CLIENTS Count of online clients"; lit "# TYPE ONLINE_CLIENTS gauge"], (lit "ONLINE_CLIENTS " ++ show n).
  split; [split|split].
  - unfold metrics, newline. cbn [app map List.concat]. rewrite app_nil_r, <- !app_assoc. reflexivity.
  - repeat constructor; try (apply lit_plain; reflexivity).
    rewrite in_app_iff. intros [I|I]; [revert I; apply lit_plain; reflexivity|].
    destruct (decimal_show n) as (_ & E). exact (decimal_no_newline _ _ _ E I).
  - repeat constructor; eexists; reflexivity.
  - exists (show n). split; [reflexivity|apply decimal_show].
Qed.

(** A scrape reports one number only. *)
Lemma lines_first l1 : forall l2 t1 t2, ~ In "010"%char l1 -> ~ In "010"%char l2 ->
  (l1 ++ ["010"%char]) ++ t1 = (l2 ++ ["010"%char]) ++ t2 -> l1 = l2 /\ t1 = t2.
Proof.
  induction l1 as [|x l1 IH]; intros [|y l2] t1 t2 N1 N2 E; cbn in E.
  - injection E as E. auto.
  - injection E as E1 E2. exfalso. apply N2. left. auto.
  - injection E as E1 E2. exfalso. apply N1. left. auto.
  - injection E as -> E2. destruct (IH l2 t1 t2) as [-> ->]; auto; intros I; [apply N1|apply N2]; right; exact I.
Qed.
Lemma lines_unique ls1 : forall ls2 t, as_lines t ls1 -> as_lines t ls2 -> ls1 = ls2.
Proof.
  induction ls1 as [|l1 ls1 IH]; intros [|l2 ls2] t (E1 & F1) (E2 & F2); [reflexivity| | |].
  - subst t. cbn in E2. destruct l2; discriminate.
  - subst t. cbn in E2. destruct l1; discriminate.
  - subst t. cbn [map List.concat] in E2. inversion_clear F1 as [|? ? A1 A2]. inversion_clear F2 as [|? ? B1 B2].
    destruct (lines_first _ _ _ _ A1 B1 E2) as [-> E]. f_equal. apply (IH ls2 (List.concat (map (fun l => l ++ ["010"%char]) ls1))); split; auto.
Qed.
Theorem reports_one t name n m : reports t name n -> reports t name m -> n = m.
Proof.
  intros (ls1 & l1 & A1 & _ & d1 & E1 & _ & D1) (ls2 & l2 & A2 & _ & d2 & E2 & _ & D2).
  pose proof (lines_unique _ _ _ A1 A2) as E. apply app_inj_tail in E as [_ E]. rewrite <- E, E1 in E2. apply app_inv_head in E2. injection E2 as ->. congruence.
Qed.
