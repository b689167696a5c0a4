(** The check of UTF-8 accepts exactly the encodings of Unicode text. *)
From Coq Require Import List Bool Arith NArith Ascii Lia ZifyN ZifyBool ZArith.
From Verif Require Import TextModel TextSpec TextProofs.
Import ListNotations.
Local Open Scope N_scope.
Ltac Zify.zify_post_hook ::= Z.div_mod_to_equations.

Lemma code_lt a : code a < 256.
Proof. apply N_ascii_bounded. Qed.
Lemma code_byte n : n < 256 -> code (byte n) = n.
Proof. apply N_ascii_embedding. Qed.
Lemma byte_code a : byte (code a) = a.
Proof. apply ascii_N_embedding. Qed.
Lemma eq_byte a n : code a = n -> a = byte n.
Proof. intros <-. symmetry. apply byte_code. Qed.

Lemma between_iff lo hi b : between lo hi b = true <-> lo <= code b <= hi.
Proof. unfold between. rewrite andb_true_iff, !N.leb_le. lia. Qed.
Lemma cont_iff b : cont b = true <-> 128 <= code b <= 191.
Proof. apply between_iff. Qed.

Lemma utf8_of_ok n : scalar n -> utf8 (utf8_of n) = true.
Proof.
  unfold scalar, utf8_of. intros S.
  destruct (N.ltb_spec n 128) as [A|A].
  { apply utf8_ascii. intros c [<-|[]]. rewrite code_byte; lia. }
  assert (M : forall k, 128 + k mod 64 < 256 /\ cont (byte (128 + k mod 64)) = true).
  { intros k. assert (k mod 64 < 64) by (apply N.mod_lt; lia). split; [lia|]. apply cont_iff. rewrite code_byte; lia. }
  destruct (N.ltb_spec n 2048) as [B|B].
  { cbn [utf8]. rewrite code_byte by lia. destruct (N.ltb_spec (192 + n / 64) 128); [lia|].
    rewrite (proj2 (between_iff 194 223 _)) by (rewrite code_byte; lia). now rewrite (proj2 (M n)). }
  destruct (N.ltb_spec n 65536) as [C|C].
  { cbn [utf8]. rewrite code_byte by lia. destruct (N.ltb_spec (224 + n / 4096) 128); [lia|].
    destruct (between 194 223 _) eqn:E; [apply between_iff in E; rewrite code_byte in E; lia|]. clear E.
    rewrite (proj2 (between_iff 224 239 _)) by (rewrite code_byte; lia). rewrite (proj2 (M n)), !andb_true_r.
    destruct (N.eqb_spec (224 + n / 4096) 224); [apply between_iff; rewrite code_byte; lia|].
    destruct (N.eqb_spec (224 + n / 4096) 237); [apply between_iff; rewrite code_byte; lia|]. apply M. }
  cbn [utf8]. rewrite code_byte by lia. destruct (N.ltb_spec (240 + n / 262144) 128); [lia|].
  destruct (between 194 223 _) eqn:E; [apply between_iff in E; rewrite code_byte in E; lia|]. clear E.
  destruct (between 224 239 _) eqn:E; [apply between_iff in E; rewrite code_byte in E; lia|]. clear E.
  rewrite (proj2 (between_iff 240 244 _)) by (rewrite code_byte; lia). rewrite (proj2 (M n)), (proj2 (M (n / 64))), !andb_true_r.
  destruct (N.eqb_spec (240 + n / 262144) 240); [apply between_iff; rewrite code_byte; lia|].
  destruct (N.eqb_spec (240 + n / 262144) 244); [apply between_iff; rewrite code_byte; lia|]. apply M.
Qed.

Lemma head_of2 a b : 194 <= code a <= 223 -> 128 <= code b <= 191 ->
  exists n, scalar n /\ [a; b] = utf8_of n.
Proof.
  intros A B. exists ((code a - 192) * 64 + (code b - 128)). split; [left; lia|]. unfold utf8_of.
  destruct (N.ltb_spec ((code a - 192) * 64 + (code b - 128)) 128); [lia|].
  destruct (N.ltb_spec ((code a - 192) * 64 + (code b - 128)) 2048); [|lia]. f_equal; [|f_equal]; apply eq_byte; lia.
Qed.
Lemma head_of3 a b c : 224 <= code a <= 239 -> 128 <= code b <= 191 -> 128 <= code c <= 191 ->
  (code a = 224 -> 160 <= code b) -> (code a = 237 -> code b <= 159) -> exists n, scalar n /\ [a; b; c] = utf8_of n.
Proof.
  intros A B C D E. pose (n := (code a - 224) * 4096 + (code b - 128) * 64 + (code c - 128)). exists n.
  assert (L : 2048 <= n < 65536) by (unfold n; lia).
  split; [unfold scalar, n in *; lia|]. unfold utf8_of.
  destruct (N.ltb_spec n 128); [lia|]. destruct (N.ltb_spec n 2048); [lia|]. destruct (N.ltb_spec n 65536); [|lia].
  f_equal; [|f_equal; [|f_equal]]; apply eq_byte; unfold n; lia.
Qed.
Lemma head_of4 a b c d : 240 <= code a <= 244 -> 128 <= code b <= 191 -> 128 <= code c <= 191 -> 128 <= code d <= 191 ->
  (code a = 240 -> 144 <= code b) -> (code a = 244 -> code b <= 143) -> exists n, scalar n /\ [a; b; c; d] = utf8_of n.
Proof.
  intros A B C D E F. pose (n := (code a - 240) * 262144 + (code b - 128) * 4096 + (code c - 128) * 64 + (code d - 128)). exists n.
  assert (L : 65536 <= n <= 1114111) by (unfold n; lia).
  split; [unfold scalar, n in *; lia|]. unfold utf8_of.
  destruct (N.ltb_spec n 128); [lia|]. destruct (N.ltb_spec n 2048); [lia|]. destruct (N.ltb_spec n 65536); [lia|].
  f_equal; [|f_equal; [|f_equal; [|f_equal]]]; apply eq_byte; unfold n; lia.
Qed.

Lemma utf8_iff s : utf8 s = true <-> unicode s.
Proof.
  split.
  - assert (A : forall k s, (List.length s <= k)%nat -> utf8 s = true -> unicode s); [|apply (A (List.length s)); lia].
    clear s. induction k as [|k IH]; intros [|a r] L H; cbn [List.length] in L; try lia; try (now exists []).
    assert (ST : forall h r', (List.length r' <= k)%nat -> utf8 r' = true -> (exists n, scalar n /\ h = utf8_of n) -> unicode (h ++ r')%list).
    { intros h r' L' H' (n & S & ->). destruct (IH r' L' H') as (l & F & ->). exists (n :: l). split; [now constructor|reflexivity]. }
    cbn [utf8] in H. destruct (N.ltb_spec (code a) 128) as [A|A].
    { apply (ST [a] r); [lia|exact H|]. exists (code a). split; [left; lia|]. unfold utf8_of. destruct (N.ltb_spec (code a) 128); [|lia]. now rewrite byte_code. }
    destruct r as [|b r]; [discriminate|]. cbn [List.length] in L. destruct (between 194 223 a) eqn:E.
    { apply between_iff in E. apply andb_true_iff in H. destruct H as [B H]. apply cont_iff in B.
      apply (ST [a; b] r); [lia|exact H|now apply head_of2]. }
    destruct r as [|c r]; [discriminate|]. cbn [List.length] in L. destruct (between 224 239 a) eqn:E2.
    { apply between_iff in E2. rewrite !andb_true_iff in H. destruct H as [[B C] H]. apply cont_iff in C.
      apply (ST [a; b; c] r); [lia|exact H|].
      destruct (N.eqb_spec (code a) 224); [|destruct (N.eqb_spec (code a) 237)]; apply between_iff in B; apply head_of3; lia. }
    destruct r as [|d r]; [discriminate|]. cbn [List.length] in L. destruct (between 240 244 a) eqn:E3; [|discriminate].
    apply between_iff in E3. rewrite !andb_true_iff in H. destruct H as [[[B C] D] H]. apply cont_iff in C. apply cont_iff in D.
    apply (ST [a; b; c; d] r); [lia|exact H|].
    destruct (N.eqb_spec (code a) 240); [|destruct (N.eqb_spec (code a) 244)]; apply between_iff in B; apply head_of4; lia.
  - intros (l & F & ->). induction F as [|n l S F IH]; [reflexivity|]. cbn [flat_map]. rewrite utf8_app; [exact IH|now apply utf8_of_ok].
Qed.

(** Bytes of numbers. *)
Lemma xor_byte_eq x y : byte (N.lxor (code x) (code y)) = xor_byte x y.
Proof.
  assert (E : forall b0 b1 b2 b3 b4 b5 b6 b7, code (Ascii b0 b1 b2 b3 b4 b5 b6 b7) =
    N.b2n b0 + 2 * (N.b2n b1 + 2 * (N.b2n b2 + 2 * (N.b2n b3 + 2 * (N.b2n b4 + 2 * (N.b2n b5 + 2 * (N.b2n b6 + 2 * N.b2n b7))))))).
  { intros [] [] [] [] [] [] [] []; reflexivity. }
  assert (X : forall a b m n, N.lxor (N.b2n a + 2 * m) (N.b2n b + 2 * n) = N.b2n (xorb a b) + 2 * N.lxor m n).
  { intros [] [] [|m] [|n]; cbn; try reflexivity; destruct (Pos.lxor m n); reflexivity. }
  destruct x as [x0 x1 x2 x3 x4 x5 x6 x7], y as [y0 y1 y2 y3 y4 y5 y6 y7]. cbn [xor_byte]. rewrite !E, !X.
  replace (N.lxor (N.b2n x7) (N.b2n y7)) with (N.b2n (xorb x7 y7)) by now destruct x7, y7.
  rewrite <- E. apply byte_code.
Qed.
