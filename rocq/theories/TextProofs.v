From Coq Require Import List Bool Arith NArith ZArith Ascii String Lia.
From Coq Require Import ZifyBool ZifyNat ZifyN.
From Verif Require Import Base TextModel.
Import ListNotations.
Local Open Scope char_scope.

(** ** Bytes *)
Lemma code_lt a : (code a < 256)%N.
Proof. apply N_ascii_bounded. Qed.
Lemma byte_code a : byte (code a) = a.
Proof. apply ascii_N_embedding. Qed.
Lemma code_byte n : (n < 256)%N -> code (byte n) = n.
Proof. apply N_ascii_embedding. Qed.
Lemma code_inj a b : code a = code b -> a = b.
Proof. intros H. rewrite <- (byte_code a), H. apply byte_code. Qed.

(** Checking a statement on every byte. *)
Definition all_bytes (f : ascii -> bool) : bool := forallb (fun n => f (byte (N.of_nat n))) (seq 0 256).
Lemma all_bytes_spec f : all_bytes f = true -> forall a, f a = true.
Proof.
  unfold all_bytes. intros H a. rewrite forallb_forall in H. specialize (H (N.to_nat (code a))).
  rewrite N2Nat.id, byte_code in H. apply H. apply in_seq. pose proof (code_lt a). lia.
Qed.

(** ** Base64 symbols *)
Lemma val_char n : (n < 64)%N -> b64_val (b64_char n) = Some n.
Proof.
  intros H. assert (A : forallb (fun k => match b64_val (b64_char (N.of_nat k)) with Some m => (m =? N.of_nat k)%N | None => false end) (seq 0 64) = true) by (vm_compute; reflexivity).
  rewrite forallb_forall in A. specialize (A (N.to_nat n)). rewrite N2Nat.id in A.
  assert (I : In (N.to_nat n) (seq 0 64)) by (apply in_seq; lia). specialize (A I). destruct (b64_val (b64_char n)); [|discriminate].
  f_equal. lia.
Qed.
Lemma char_val a v : b64_val a = Some v -> b64_char v = a /\ (v < 64)%N.
Proof.
  assert (A : forall a, (fun a => match b64_val a with Some v => Ascii.eqb (b64_char v) a && (v <? 64)%N | None => true end) a = true)
    by (apply all_bytes_spec; vm_compute; reflexivity).
  intros H. specialize (A a). cbn beta in A. rewrite H in A. apply andb_true_iff in A. destruct A as (A & B). apply Ascii.eqb_eq in A. split; [exact A|lia].
Qed.

Lemma text_ind3 (P : text -> Prop) : P [] -> (forall a, P [a]) -> (forall a b, P [a; b]) ->
  (forall a b c r, P r -> P (a :: b :: c :: r)) -> forall s, P s.
Proof.
  intros H0 H1 H2 H3. assert (A : forall n s, (List.length s <= n)%nat -> P s).
  { induction n as [|n IH]; intros [|a [|b [|c r]]] L; auto; cbn in L; try lia. apply H3. apply IH. lia. }
  intros s. apply (A (List.length s)). lia.
Qed.

Ltac dm := zify; Z.to_euclidean_division_equations; lia.
Lemma decode_encode pad s : b64_decode pad (b64_encode pad s) = Some s.
Proof.
  induction s as [|a|a b|a b c r IH] using text_ind3.
  - reflexivity.
  - pose proof (code_lt a). cbn [b64_encode]. destruct pad; cbn [b64_decode app].
    + rewrite !val_char by dm. change (b64_val "=") with (@None N). cbv iota beta. cbn [Ascii.eqb eqb Bool.eqb]. unfold last1. rewrite !val_char by dm.
      replace ((code a mod 4 * 16) mod 16 =? 0)%N with true by dm. f_equal. f_equal. rewrite <- (byte_code a) at 3. f_equal. dm.
    + unfold last1. rewrite !val_char by dm. replace ((code a mod 4 * 16) mod 16 =? 0)%N with true by dm. f_equal. f_equal.
      rewrite <- (byte_code a) at 3. f_equal. dm.
  - pose proof (code_lt a). pose proof (code_lt b). cbn [b64_encode]. destruct pad; cbn [b64_decode app].
    + rewrite !val_char by dm. change (b64_val "=") with (@None N). cbv iota beta. cbn [Ascii.eqb eqb Bool.eqb].
      replace (Ascii.eqb (b64_char (code b mod 16 * 4)) "=") with false.
      2:{ symmetry. apply Ascii.eqb_neq. intros E. pose proof (val_char (code b mod 16 * 4)%N ltac:(dm)) as V. rewrite E in V. discriminate. }
      unfold last2. rewrite !val_char by dm. replace ((code b mod 16 * 4) mod 4 =? 0)%N with true by dm. do 2 f_equal.
      * rewrite <- (byte_code a) at 3. f_equal. dm.
      * f_equal. rewrite <- (byte_code b) at 3. f_equal. dm.
    + unfold last2. rewrite !val_char by dm. replace ((code b mod 16 * 4) mod 4 =? 0)%N with true by dm. do 2 f_equal.
      * rewrite <- (byte_code a) at 3. f_equal. dm.
      * f_equal. rewrite <- (byte_code b) at 3. f_equal. dm.
  - pose proof (code_lt a). pose proof (code_lt b). pose proof (code_lt c). cbn [b64_encode b64_decode]. rewrite !val_char by dm. rewrite IH.
    do 2 f_equal; [|f_equal; [|f_equal]].
    + rewrite <- (byte_code a) at 3. f_equal. dm.
    + rewrite <- (byte_code b) at 3. f_equal. dm.
    + rewrite <- (byte_code c) at 3. f_equal. dm.
Qed.

Lemma text_ind4 (P : text -> Prop) : P [] -> (forall a, P [a]) -> (forall a b, P [a; b]) -> (forall a b c, P [a; b; c]) ->
  (forall a b c d r, P r -> P (a :: b :: c :: d :: r)) -> forall s, P s.
Proof.
  intros H0 H1 H2 H3 H4. assert (A : forall n s, (List.length s <= n)%nat -> P s).
  { induction n as [|n IH]; intros [|a [|b [|c [|d r]]]] L; auto; cbn in L; try lia. apply H4. apply IH. lia. }
  intros s. apply (A (List.length s)). lia.
Qed.
Lemma last1_spec w x t : last1 w x = Some t -> exists a, t = [a] /\ [w; x] = b64_encode false [a].
Proof.
  unfold last1. destruct (b64_val w) as [vw|] eqn:Ew; [|discriminate]. destruct (b64_val x) as [vx|] eqn:Ex; [|discriminate].
  destruct (char_val _ _ Ew) as (Cw & Lw). destruct (char_val _ _ Ex) as (Cx & Lx).
  destruct (N.eqb_spec (vx mod 16) 0) as [Z|]; [|discriminate]. intros E. injection E as <-. eexists. split; [reflexivity|].
  cbn [b64_encode]. rewrite code_byte by dm. rewrite <- Cw, <- Cx. f_equal; [f_equal; dm|]. f_equal. f_equal. dm.
Qed.
Lemma last2_spec w x y t : last2 w x y = Some t -> exists a b, t = [a; b] /\ [w; x; y] = b64_encode false [a; b].
Proof.
  unfold last2. destruct (b64_val w) as [vw|] eqn:Ew; [|discriminate]. destruct (b64_val x) as [vx|] eqn:Ex; [|discriminate].
  destruct (b64_val y) as [vy|] eqn:Ey; [|discriminate].
  destruct (char_val _ _ Ew) as (Cw & Lw). destruct (char_val _ _ Ex) as (Cx & Lx). destruct (char_val _ _ Ey) as (Cy & Ly).
  destruct (N.eqb_spec (vy mod 4) 0) as [Z|]; [|discriminate]. intros E. injection E as <-. do 2 eexists. split; [reflexivity|].
  cbn [b64_encode]. rewrite !code_byte by dm. rewrite <- Cw, <- Cx, <- Cy. f_equal; [f_equal; dm|]. f_equal; [f_equal; dm|]. f_equal. f_equal. dm.
Qed.
Lemma encode_decode pad s : forall t, b64_decode pad s = Some t -> b64_encode pad t = s.
Proof.
  induction s as [|a|a b|a b c|w x y z r IH] using text_ind4; intros t E; cbn [b64_decode] in E.
  - injection E as <-. reflexivity.
  - discriminate.
  - destruct pad; [discriminate|]. destruct (last1_spec _ _ _ E) as (u & -> & H). now rewrite H.
  - destruct pad; [discriminate|]. destruct (last2_spec _ _ _ _ E) as (u & v & -> & H). now rewrite H.
  - assert (PAD : (if pad then match r with [] => if Ascii.eqb z "=" then if Ascii.eqb y "=" then last1 w x else last2 w x y else None | _ => None end else None) = Some t ->
      b64_encode pad t = w :: x :: y :: z :: r).
    { destruct pad; [|discriminate]. destruct r; [|discriminate]. destruct (Ascii.eqb_spec z "=") as [->|]; [|discriminate].
      destruct (Ascii.eqb_spec y "=") as [->|]; intros H.
      - destruct (last1_spec _ _ _ H) as (u & -> & K). cbn in K |- *. injection K as <- <-. reflexivity.
      - destruct (last2_spec _ _ _ _ H) as (u & v & -> & K). cbn in K |- *. injection K as <- <- <-. reflexivity. }
    destruct (b64_val w) as [vw|] eqn:Ew; [|apply PAD; exact E]. destruct (b64_val x) as [vx|] eqn:Ex; [|apply PAD; exact E].
    destruct (b64_val y) as [vy|] eqn:Ey; [|apply PAD; exact E]. destruct (b64_val z) as [vz|] eqn:Ez; [|apply PAD; exact E].
    destruct (b64_decode pad r) as [t'|]; [|discriminate]. injection E as <-. specialize (IH _ eq_refl).
    destruct (char_val _ _ Ew) as (Cw & Lw). destruct (char_val _ _ Ex) as (Cx & Lx). destruct (char_val _ _ Ey) as (Cy & Ly). destruct (char_val _ _ Ez) as (Cz & Lz).
    cbn [b64_encode]. rewrite !code_byte by dm. rewrite IH, <- Cw, <- Cx, <- Cy, <- Cz. f_equal; [f_equal; dm|]. f_equal; [f_equal; dm|]. f_equal; [f_equal; dm|]. f_equal. f_equal. dm.
Qed.

(** Base64 text has no separators. *)
Lemma b64_chars s : forall c, In c (b64_encode false s) -> b64_val c <> None.
Proof.
  induction s as [|a|a b|a b c r IH] using text_ind3; intros x H; cbn [b64_encode] in H.
  - destruct H.
  - pose proof (code_lt a). destruct H as [<-|[<-|[]]]; rewrite val_char by dm; discriminate.
  - pose proof (code_lt a). pose proof (code_lt b). destruct H as [<-|[<-|[<-|[]]]]; rewrite val_char by dm; discriminate.
  - pose proof (code_lt a). pose proof (code_lt b). pose proof (code_lt c). destruct H as [<-|[<-|[<-|[<-|H]]]]; try (rewrite val_char by dm; discriminate). now apply IH.
Qed.
Lemma b64_pad_chars s : forall c, In c (b64_encode true s) -> b64_val c <> None \/ c = "=".
Proof.
  induction s as [|a|a b|a b c r IH] using text_ind3; intros x H; cbn [b64_encode] in H.
  - destruct H.
  - pose proof (code_lt a). destruct H as [<-|[<-|[<-|[<-|[]]]]]; auto; left; rewrite val_char by dm; discriminate.
  - pose proof (code_lt a). pose proof (code_lt b). destruct H as [<-|[<-|[<-|[<-|[]]]]]; auto; left; rewrite val_char by dm; discriminate.
  - pose proof (code_lt a). pose proof (code_lt b). pose proof (code_lt c).
    destruct H as [<-|[<-|[<-|[<-|H]]]]; [left; rewrite val_char by dm; discriminate..|]. now apply IH.
Qed.

(** ** Splitting *)
Lemma split_nosep c s : ~ In c s -> split c s = [s].
Proof.
  induction s as [|x r IH]; intros H; cbn; [reflexivity|]. destruct (Ascii.eqb_spec x c) as [->|]; [destruct H; now left|].
  rewrite IH; [reflexivity|]. intros K. apply H. now right.
Qed.
Lemma split_app c a s : ~ In c a -> split c (a ++ c :: s) = a :: split c s.
Proof.
  induction a as [|x a IH]; intros H; cbn [app split]; [now rewrite Ascii.eqb_refl|]. destruct (Ascii.eqb_spec x c) as [->|]; [destruct H; now left|].
  rewrite IH; [reflexivity|]. intros K. apply H. now right.
Qed.
Fixpoint join (c : ascii) (l : list text) : text :=
  match l with [] => [] | [x] => x | x :: r => (x ++ c :: join c r)%list end.
Lemma join_cons c x l : l <> [] -> join c (x :: l) = (x ++ c :: join c l)%list.
Proof. destruct l; [congruence|reflexivity]. Qed.
Lemma split_nonnil c s : split c s <> [].
Proof. induction s as [|x r IH]; cbn; [discriminate|]. destruct (Ascii.eqb x c); [discriminate|]. destruct (split c r); discriminate. Qed.
Lemma split_join c s : join c (split c s) = s.
Proof.
  induction s as [|x r IH]; cbn [split]; [reflexivity|]. pose proof (split_nonnil c r) as NN. destruct (Ascii.eqb_spec x c) as [->|].
  - rewrite join_cons by exact NN. now rewrite IH.
  - destruct (split c r) as [|h t]; [congruence|]. destruct t as [|h2 t]; cbn in IH |- *; now rewrite IH.
Qed.
Lemma split_parts c s : Forall (fun p => ~ In c p) (split c s).
Proof.
  induction s as [|x r IH]; cbn [split]; [constructor; auto|]. destruct (Ascii.eqb_spec x c) as [->|D]; [constructor; auto|].
  pose proof (split_nonnil c r). destruct (split c r) as [|h t]; [congruence|]. inversion IH; subst. constructor; [|assumption].
  intros [E|E]; [now apply D|contradiction].
Qed.
Lemma split_once_some c s a b : split_once c s = Some (a, b) <-> s = (a ++ c :: b)%list /\ ~ In c a.
Proof.
  revert a b. induction s as [|x r IH]; intros a b; cbn [split_once].
  - split; [discriminate|]. intros (H & _). destruct a; discriminate.
  - destruct (Ascii.eqb_spec x c) as [->|D].
    + split.
      * intros E. injection E as <- <-. auto.
      * intros (E & K). destruct a as [|y a]; cbn in E; [injection E as ->; reflexivity|]. injection E as <- _. destruct K; now left.
    + destruct (split_once c r) as [(a', b')|] eqn:ES.
      * destruct (proj1 (IH a' b') eq_refl) as (-> & K). split.
        -- intros E. injection E as <- <-. split; [reflexivity|]. intros [F|F]; [now apply D|contradiction].
        -- intros (E & L). destruct a as [|y a]; cbn in E; [injection E as E _; now destruct D|]. injection E as <- E.
           assert (X : Some (a', b') = Some (a, b)) by (apply IH; split; [exact E|intros F; apply L; now right]). now injection X as <- <-.
      * split; [discriminate|]. intros (E & L). destruct a as [|y a]; cbn in E; [injection E as E _; now destruct D|]. injection E as <- E.
        assert (X : None = Some (a, b)) by (apply IH; split; [exact E|intros F; apply L; now right]). discriminate X.
Qed.
Lemma rsplit_once_some c s a b : rsplit_once c s = Some (a, b) <-> s = (a ++ c :: b)%list /\ ~ In c b.
Proof.
  unfold rsplit_once. split.
  - destruct (split_once c (rev s)) as [(x, y)|] eqn:E; [|discriminate]. intros H. injection H as <- <-. apply split_once_some in E.
    destruct E as (E & K). split; [|now rewrite <- in_rev]. rewrite <- (rev_involutive s), E, rev_app_distr. cbn. now rewrite <- app_assoc.
  - intros (-> & K). assert (E : split_once c (rev (a ++ c :: b)) = Some (rev b, rev a)).
    { apply split_once_some. split; [rewrite rev_app_distr; cbn; now rewrite <- app_assoc|now rewrite <- in_rev]. }
    rewrite E. now rewrite !rev_involutive.
Qed.

(** ** Lines *)
Lemma lines_cons a s : ~ In "010" a -> lines (a ++ "010" :: s) = a :: lines s.
Proof.
  induction a as [|x a IH]; intros H; cbn [app lines]; [reflexivity|]. destruct (Ascii.eqb_spec x "010") as [->|]; [destruct H; now left|].
  rewrite IH; [reflexivity|]. intros K. apply H. now right.
Qed.

(** ** Prefixes and trimming *)
Lemma after_prefix_some p s t : after_prefix p s = Some t <-> s = (p ++ t)%list.
Proof.
  revert s. induction p as [|x p IH]; intros s; cbn [after_prefix app].
  - split; intros H; [now injection H|now rewrite H].
  - destruct s as [|y s]; [split; discriminate|]. destruct (Ascii.eqb_spec x y) as [->|D].
    + rewrite IH. split; [now intros ->|now intros H; injection H].
    + split; [discriminate|]. intros H. injection H as H _. now destruct D.
Qed.
Lemma first_of_some ps s t : first_of ps s = Some t -> exists p, In p ps /\ s = (p ++ t)%list.
Proof.
  induction ps as [|p ps IH]; cbn; [discriminate|]. destruct (after_prefix p s) eqn:E.
  - intros H. injection H as <-. apply after_prefix_some in E. exists p. auto.
  - intros H. destruct (IH H) as (q & A & B). exists q. auto.
Qed.
Lemma first_of_none ps s : first_of ps s = None <-> forall p t, In p ps -> s <> (p ++ t)%list.
Proof.
  induction ps as [|p ps IH]; cbn; [split; [intros _ p t []|reflexivity]|]. destruct (after_prefix p s) as [t|] eqn:E.
  - split; [discriminate|]. intros H. apply after_prefix_some in E. now destruct (H p t (or_introl eq_refl)).
  - rewrite IH. split.
    + intros H q t [<-|K]; [|now apply H]. intros ->. assert (X : after_prefix p (p ++ t) = Some t) by now apply after_prefix_some. congruence.
    + intros H q t K. now apply H; right.
Qed.
Lemma strip_none f ps s : first_of ps s = None -> strip f ps s = s.
Proof. destruct f; cbn; [reflexivity|]. now intros ->. Qed.
Definition blank (ps : list text) (s : text) : Prop := exists l, Forall (fun p => In p ps) l /\ s = List.concat l.
Lemma strip_spec ps : (forall p, In p ps -> p <> []) -> forall f s, (List.length s <= f)%nat ->
  exists b, blank ps b /\ s = (b ++ strip f ps s)%list /\ first_of ps (strip f ps s) = None.
Proof.
  intros NE. induction f as [|f IH]; intros s L; cbn [strip].
  - destruct s; [|cbn in L; lia]. exists []. split; [now exists []|]. split; [reflexivity|]. apply first_of_none. intros p t I E.
    destruct p; [now apply (NE [])|discriminate].
  - destruct (first_of ps s) as [t|] eqn:E; [|exists []; split; [now exists []|split; [reflexivity|exact E]]].
    destruct (first_of_some _ _ _ E) as (p & I & ->). assert (LT : (List.length t <= f)%nat).
    { rewrite app_length in L. pose proof (NE p I). destruct p; [congruence|cbn in L; lia]. }
    destruct (IH t LT) as (b & (l & F & ->) & S & N). exists (p ++ List.concat l)%list. split; [exists (p :: l); split; [now constructor|reflexivity]|].
    split; [rewrite <- app_assoc; now rewrite <- S|exact N].
Qed.
Definition starts_blank (s : text) : Prop := exists p t, In p spaces /\ s = (p ++ t)%list.
Definition ends_blank (s : text) : Prop := exists p t, In p spaces /\ s = (t ++ p)%list.
Lemma first_of_starts s : first_of spaces s = None <-> ~ starts_blank s.
Proof. rewrite first_of_none. unfold starts_blank. split; [intros H (p & t & A & B); now apply (H p t A)|intros H p t A B; apply H; eauto]. Qed.
Lemma first_of_ends s : first_of (map (@rev ascii) spaces) (rev s) = None <-> ~ ends_blank s.
Proof.
  rewrite first_of_none. unfold ends_blank. split.
  - intros H (p & t & A & B). apply (H (rev p) (rev t)); [now apply in_map|]. rewrite B. apply rev_app_distr.
  - intros H p t A B. apply in_map_iff in A. destruct A as (q & <- & A). apply H. exists q, (rev t). split; [exact A|].
    rewrite <- (rev_involutive s), B, rev_app_distr. now rewrite rev_involutive.
Qed.
Lemma trim_same s : ~ starts_blank s -> ~ ends_blank s -> trim s = s.
Proof.
  intros A B. unfold trim, trim_start, trim_end. rewrite (strip_none _ spaces s) by now apply first_of_starts.
  rewrite strip_none by now apply first_of_ends. apply rev_involutive.
Qed.
Lemma spaces_nonempty p : In p spaces -> p <> [].
Proof. intros H. cbn in H. repeat (destruct H as [<-|H]; [discriminate|]). destruct H. Qed.
Lemma concat_rev_rev (l : list text) : rev (List.concat l) = List.concat (rev (map (@rev ascii) l)).
Proof. induction l as [|x l IH]; [reflexivity|]. cbn. rewrite rev_app_distr, IH, concat_app. cbn. now rewrite app_nil_r. Qed.
Lemma trim_spec s : exists a b, blank spaces a /\ blank spaces b /\ s = (a ++ trim s ++ b)%list /\ ~ ends_blank (trim s) /\ (trim s <> [] -> ~ starts_blank (trim s)).
Proof.
  destruct (strip_spec spaces spaces_nonempty (List.length s) s (le_n _)) as (a & A & E & NS).
  fold (trim_start s) in E, NS. set (u := trim_start s) in *.
  destruct (strip_spec (map (@rev ascii) spaces)) with (f := List.length u) (s := rev u) as (b & (l & F & ->) & E2 & NE).
  { intros p I. apply in_map_iff in I. destruct I as (q & <- & I). intros K. apply (spaces_nonempty q I). rewrite <- (rev_involutive q), K. reflexivity. }
  { now rewrite rev_length. }
  set (v := strip (List.length u) (map (@rev ascii) spaces) (rev u)) in *.
  assert (T : trim s = rev v) by reflexivity.
  assert (U : u = (rev v ++ rev (List.concat l))%list) by (rewrite <- rev_app_distr, <- E2, rev_involutive; reflexivity).
  exists a, (rev (List.concat l)). split; [exact A|]. split.
  { exists (rev (map (@rev ascii) l)). split; [|apply concat_rev_rev]. apply Forall_rev. apply Forall_forall. intros p I. apply in_map_iff in I. destruct I as (q & <- & I).
    rewrite Forall_forall in F. specialize (F q I). apply in_map_iff in F. destruct F as (q' & <- & F). now rewrite rev_involutive. }
  rewrite T. split; [now rewrite <- U|]. split.
  - apply first_of_ends. rewrite rev_involutive. exact NE.
  - intros NN (p & t & I & K). apply first_of_starts in NS. apply NS. exists p, (t ++ rev (List.concat l))%list. split; [exact I|]. rewrite U, K. now rewrite app_assoc.
Qed.
Lemma starts_blank_app u c r : (forall p, In p spaces -> ~ In c p) -> starts_blank (u ++ c :: r) -> starts_blank u.
Proof.
  intros NC (p & t & I & E). specialize (NC p I). assert (X : exists t', u = (p ++ t')%list); [|destruct X as (t' & X); now exists p, t'].
  revert u E NC. clear I. induction p as [|x p IH]; intros u E NC; [now exists u|].
  destruct u as [|y u]; cbn in E; injection E as <- E; [destruct NC; now left|]. destruct (IH u E) as (t' & ->); [intros K; apply NC; now right|].
  now exists t'.
Qed.

(** ** UTF-8 *)
Lemma utf8_app a : forall b, utf8 a = true -> utf8 (a ++ b) = utf8 b.
Proof.
  assert (A : forall n a b, (List.length a <= n)%nat -> utf8 a = true -> utf8 (a ++ b) = utf8 b); [|intros b; apply (A (List.length a)); lia].
  induction n as [|n IH]; intros [|x a'] b L H; try reflexivity; cbn [List.length] in L; try lia. cbn [app utf8] in *.
  destruct (code x <? 128)%N; [apply IH; [lia|exact H]|].
  destruct a' as [|y a']; [discriminate|]. cbn [app List.length] in *. destruct (between 194 223 x).
  { destruct (cont y); [|discriminate]. cbn [andb] in *. apply IH; [lia|exact H]. }
  destruct a' as [|z a']; [discriminate|]. cbn [app List.length] in *. destruct (between 224 239 x).
  { destruct ((if (code x =? 224)%N then _ else _) && cont z)%bool; [|discriminate]. cbn [andb] in *. apply IH; [lia|exact H]. }
  destruct a' as [|w a']; [discriminate|]. cbn [app List.length] in *. destruct (between 240 244 x); [|discriminate].
  match goal with |- (?c && _)%bool = _ => destruct c end; [|discriminate]. cbn [andb] in *. apply IH; [lia|exact H].
Qed.
Definition is_ascii (s : text) : Prop := forall c, In c s -> (code c < 128)%N.
Lemma utf8_ascii s : is_ascii s -> utf8 s = true.
Proof.
  induction s as [|x s IH]; intros H; [reflexivity|]. cbn [utf8]. replace (code x <? 128)%N with true.
  - apply IH. intros c I. apply H. now right.
  - symmetry. apply N.ltb_lt. apply H. now left.
Qed.

(** ** Numbers *)
Lemma show_fuel_acc f : forall n acc, show_fuel f n acc = (show_fuel f n [] ++ acc)%list.
Proof.
  induction f as [|f IH]; intros n acc; cbn [show_fuel]; [reflexivity|]. destruct (n / 10 =? 0)%N; [reflexivity|].
  rewrite IH, (IH _ [_]), <- app_assoc. reflexivity.
Qed.
Lemma show_fuel_more f : forall g n, (n < 2 ^ N.of_nat f)%N -> (f <= g)%nat -> show_fuel (S f) n [] = show_fuel (S g) n [].
Proof.
  induction f as [|f IH]; intros g n L G.
  - assert (n = 0)%N by (cbn in L; lia). subst n. destruct g; reflexivity.
  - destruct g as [|g]; [lia|].
    change (show_fuel (S (S f)) n []) with (if (n / 10 =? 0)%N then [digit (n mod 10)] else show_fuel (S f) (n / 10)%N [digit (n mod 10)]).
    change (show_fuel (S (S g)) n []) with (if (n / 10 =? 0)%N then [digit (n mod 10)] else show_fuel (S g) (n / 10)%N [digit (n mod 10)]).
    destruct (N.eqb_spec (n / 10) 0) as [Z|Z]; [reflexivity|].
    rewrite show_fuel_acc, (show_fuel_acc (S g)). f_equal. apply IH; [|lia]. rewrite Nat2N.inj_succ, N.pow_succ_r' in L. apply N.div_lt_upper_bound; lia.
Qed.
Lemma show_step n : (10 <= n)%N -> show n = (show (n / 10) ++ [digit (n mod 10)])%list.
Proof.
  intros L. unfold show. set (f := N.to_nat (N.size n)). assert (F : (n < 2 ^ N.of_nat f)%N) by (unfold f; rewrite N2Nat.id; apply N.size_gt).
  change (show_fuel (S f) n []) with (if (n / 10 =? 0)%N then [digit (n mod 10)] else show_fuel f (n / 10) [digit (n mod 10)]).
  assert (D : (n / 10 <> 0)%N) by (intros H; apply N.div_small_iff in H; lia).
  destruct (N.eqb_spec (n / 10) 0) as [|_]; [contradiction|]. rewrite show_fuel_acc. f_equal.
  destruct f as [|f]; [cbn in F; lia|]. symmetry. apply show_fuel_more.
  - rewrite N2Nat.id. apply N.size_gt.
  - assert (Z : (N.size (n / 10) <= N.of_nat f)%N).
    { rewrite N.size_log2 by exact D. rewrite Nat2N.inj_succ, N.pow_succ_r' in F.
      assert (A : (n / 10 < 2 ^ N.of_nat f)%N) by (apply N.div_lt_upper_bound; lia). apply N.log2_lt_pow2 in A; lia. }
    lia.
Qed.
Lemma show_small n : (n < 10)%N -> show n = [digit n].
Proof. intros L. unfold show. cbn [show_fuel]. replace (n / 10)%N with 0%N by (symmetry; apply N.div_small; lia). cbn. rewrite N.mod_small by lia. reflexivity. Qed.
Lemma digit_code n : (n < 10)%N -> code (digit n) = (48 + n)%N.
Proof. intros H. apply code_byte. lia. Qed.
Lemma digit_val_some a d : digit_val a = Some d <-> a = digit d /\ (d < 10)%N.
Proof.
  unfold digit_val, between. destruct ((48 <=? code a)%N && (code a <=? 57)%N)%bool eqn:E.
  - split.
    + intros H. injection H as <-. split; [|lia]. apply code_inj. rewrite digit_code; lia.
    + intros (-> & L). rewrite digit_code in * by exact L. f_equal. lia.
  - split; [discriminate|]. intros (-> & L). rewrite digit_code in E by exact L. lia.
Qed.
Lemma show_ind (P : N -> Prop) : (forall n, (n < 10)%N -> P n) -> (forall n, (10 <= n)%N -> P (n / 10)%N -> P n) -> forall n, P n.
Proof.
  intros A B n. induction n as [n IH] using (well_founded_induction N.lt_wf_0). destruct (N.lt_ge_cases n 10); [now apply A|].
  apply B; [assumption|]. apply IH. apply N.div_lt; lia.
Qed.
Lemma digits_app b s1 : forall acc s2, digits b acc (s1 ++ s2) = match digits b acc s1 with Some v => digits b v s2 | None => None end.
Proof.
  induction s1 as [|x s1 IH]; intros acc s2; cbn [app digits]; [reflexivity|]. destruct (digit_val x); [|reflexivity].
  destruct (b <? _)%N; [reflexivity|apply IH].
Qed.
Lemma digits_show b n : (n <= b)%N -> digits b 0 (show n) = Some n.
Proof.
  induction n as [n L|n L IH] using show_ind; intros H.
  - rewrite show_small by exact L. cbn [digits]. rewrite (proj2 (digit_val_some _ _) (conj eq_refl L)). cbn [N.mul N.add].
    replace (b <? n)%N with false by lia. reflexivity.
  - rewrite show_step by exact L. rewrite digits_app, IH by dm. cbn [digits]. rewrite (proj2 (digit_val_some _ (n mod 10)%N)) by (split; [reflexivity|dm]).
    replace (n / 10 * 10 + n mod 10)%N with n by dm. replace (b <? n)%N with false by lia. reflexivity.
Qed.
Lemma show_chars n : forall c, In c (show n) -> exists d, (d < 10)%N /\ c = digit d.
Proof.
  induction n as [n L|n L IH] using show_ind; intros c H.
  - rewrite show_small in H by exact L. destruct H as [<-|[]]. eauto.
  - rewrite show_step in H by exact L. apply in_app_iff in H. destruct H as [H|[<-|[]]]; [now apply IH|]. exists (n mod 10)%N. split; [dm|reflexivity].
Qed.
Lemma show_nonnil n : show n <> [].
Proof.
  destruct (N.lt_ge_cases n 10); [rewrite show_small by assumption; discriminate|]. rewrite show_step by assumption. destruct (show (n / 10)); discriminate.
Qed.
Lemma plus_not_digit d : (d < 10)%N -> digit d <> "+".
Proof. intros L E. apply (f_equal code) in E. rewrite digit_code in E by exact L. change (code "+") with 43%N in E. lia. Qed.
Definition zeros (k : nat) : text := repeat "0" k.
Lemma digits_zeros b k : digits b 0 (zeros k) = Some 0%N.
Proof. induction k as [|k IH]; [reflexivity|]. cbn [zeros repeat digits]. change (digit_val "0") with (Some 0%N). cbn [N.mul N.add]. replace (b <? 0)%N with false by lia. exact IH. Qed.
Lemma digits_shape b s : forall n, s <> [] -> digits b 0 s = Some n -> (n <= b)%N /\ exists k, s = (zeros k ++ show n)%list.
Proof.
  induction s as [|x s IH] using rev_ind; intros n NN H; [congruence|]. rewrite digits_app in H. destruct (digits b 0 s) as [v|] eqn:E; [|discriminate].
  cbn [digits] in H. destruct (digit_val x) as [d|] eqn:ED; [|discriminate]. apply digit_val_some in ED. destruct ED as (-> & L).
  destruct (b <? v * 10 + d)%N eqn:EB; [discriminate|]. injection H as <-. split; [lia|].
  destruct s as [|y s].
  - cbn in E. injection E as <-. exists 0%nat. cbn [zeros repeat app]. rewrite show_small by lia. reflexivity.
  - destruct (IH v) as (_ & k & K); [discriminate|reflexivity|]. destruct (N.eq_dec v 0) as [->|NZ].
    + exists (S k). rewrite K. rewrite (show_small 0) by lia. rewrite (show_small (0 * 10 + d)) by lia. change (digit 0) with "0". replace (0 * 10 + d)%N with d by lia.
      f_equal. unfold zeros. change ["0"] with (repeat "0" 1). rewrite <- repeat_app. f_equal. lia.
    + exists k. rewrite K. rewrite (show_step (v * 10 + d)) by lia. rewrite <- app_assoc. f_equal. f_equal; [f_equal; dm|]. f_equal. f_equal. dm.
Qed.
(** What a number may look like in the file: an optional plus sign, leading zeros. *)
Definition number (s : text) (n : N) : Prop := exists k, s = (zeros k ++ show n)%list \/ s = ("+" :: zeros k ++ show n)%list.
Lemma parse_u32_spec s n : parse_u32 s = Some n <-> (n <= 4294967295)%N /\ number s n.
Proof.
  assert (BACK : forall k, (n <= 4294967295)%N -> digits 4294967295 0 (zeros k ++ show n) = Some n).
  { intros k L. rewrite digits_app, digits_zeros. now apply digits_show. }
  assert (HD : forall k, exists c r, (zeros k ++ show n)%list = c :: r /\ c <> "+").
  { intros k. destruct k as [|k]; [|now exists "0", (zeros k ++ show n)%list].
    pose proof (show_nonnil n). pose proof (show_chars n) as C. cbn [zeros repeat app]. destruct (show n) as [|c r]; [congruence|]. exists c, r. split; [reflexivity|].
    destruct (C c (or_introl eq_refl)) as (d & L & ->). now apply plus_not_digit. }
  unfold parse_u32. split.
  - intros H. destruct s as [|x s]; [discriminate|]. destruct (Ascii.eqb_spec x "+") as [->|D].
    + destruct s as [|y s]; [discriminate|]. destruct (digits_shape 4294967295 (y :: s) n) as (L & k & K); [discriminate|exact H|]. split; [exact L|]. exists k. right. now rewrite K.
    + assert (H' : digits 4294967295 0 (x :: s) = Some n).
      { destruct x as [[] [] [] [] [] [] [] []]; try exact H; now destruct D. }
      destruct (digits_shape 4294967295 (x :: s) n) as (L & k & K); [discriminate|exact H'|]. split; [exact L|]. exists k. now left.
  - intros (L & k & [->| ->]).
    + destruct (HD k) as (c & r & E & NP). specialize (BACK k L). rewrite E in *. destruct c as [[] [] [] [] [] [] [] []]; try exact BACK; now destruct NP.
    + destruct (HD k) as (c & r & E & NP). specialize (BACK k L). rewrite E in *. exact BACK.
Qed.
