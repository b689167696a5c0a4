From Coq Require Import List Bool Arith NArith Ascii String Lia.
From Coq Require Import ZifyBool ZifyNat ZifyN.
From Verif Require Import Base BaseLemmas TextModel TextSpec TextProofs Utf8Proofs PassModel PassSpec.
Import ListNotations.
Local Open Scope char_scope.

Lemma content_trim line : content line (trim line).
Proof.
  destruct (trim_spec line) as (a & b & A & B & E & F & G). exists a, b. split; [exact A|]. split; [exact B|]. split; [exact E|]. split; [|exact F].
  destruct (trim line) as [|x r] eqn:T; [|apply G; discriminate]. intros (p & t & I & K). destruct p; [now apply (spaces_nonempty [] I)|discriminate].
Qed.

Lemma b64_no c s : b64_val c = None -> ~ In c (b64_encode false s).
Proof. intros N I. now apply (b64_chars s c I). Qed.
Lemma show_no c n : digit_val c = None -> ~ In c (show n).
Proof. intros H I. destruct (show_chars n c I) as (d & L & ->). rewrite (proj2 (digit_val_some _ d)) in H by auto. discriminate. Qed.
Lemma number_no c s n : numeral s n -> digit_val c = None -> c <> "+" -> ~ In c s.
Proof.
  intros (k & E) D P I. assert (A : ~ In c (repeat "0" k ++ show n)).
  { intros K. apply in_app_iff in K. destruct K as [K|K]; [apply repeat_spec in K; subst c; discriminate|now apply (show_no c n D)]. }
  destruct E as [->| ->]; [now apply A|]. destruct I as [<-|I]; [now apply P|now apply A].
Qed.

Lemma parse_salt_spec s b : parse_salt s = Some b <-> s = b64_encode false b /\ (min_salt <= List.length b)%nat.
Proof.
  unfold parse_salt. split.
  - destruct (b64_decode false s) as [x|] eqn:E; [|discriminate]. destruct (Nat.ltb_spec (List.length x) min_salt); [discriminate|]. intros H0. injection H0 as <-.
    split; [symmetry; now apply encode_decode|assumption].
  - intros (-> & L). rewrite decode_encode. destruct (Nat.ltb_spec (List.length b) min_salt); [lia|reflexivity].
Qed.
Lemma decode_spec s b : b64_decode false s = Some b <-> s = b64_encode false b.
Proof. split; [intros H; symmetry; now apply encode_decode|intros ->; apply decode_encode]. Qed.
Lemma parse_iterations_spec s n : parse_iterations s = Some n <-> numeral s n /\ (0 < n <= 4294967295)%N.
Proof.
  unfold parse_iterations. split.
  - destruct (parse_u32 s) as [m|] eqn:E; [|discriminate]. apply parse_u32_spec in E. destruct E as (L & K). destruct (N.eqb_spec m 0); [discriminate|].
    intros H. injection H as <-. split; [exact K|lia].
  - intros (K & L). rewrite (proj2 (parse_u32_spec s n)) by (split; [lia|exact K]). destruct (N.eqb_spec n 0); [lia|reflexivity].
Qed.

Lemma wf_parse line u e : well_formed line u e -> parse_line line = Some (u, e).
Proof.
  assert (CB : forall s, ~ In ":" (b64_encode false s)) by (intros; now apply b64_no).
  assert (MB : forall s, ~ In "," (b64_encode false s)) by (intros; now apply b64_no).
  intros H. destruct H as [alg name user salt h I L|alg name user salt h it n I L NU B]; unfold parse_line.
  - rewrite (proj2 (rsplit_once_some ":" _ user (name ++ "," :: b64_encode false salt ++ "," :: b64_encode false h))).
    2:{ split; [reflexivity|]. intros K. apply in_app_iff in K. destruct K as [K|[K|K]]; try discriminate K.
        - destruct I as [I|[I|[]]]; injection I as <- <-; cbn in K; intuition discriminate.
        - apply in_app_iff in K. destruct K as [K|[K|K]]; try discriminate K; now apply CB in K. }
    rewrite split_app. 2:{ destruct I as [I|[I|[]]]; injection I as <- <-; cbn; intuition discriminate. }
    rewrite split_app by apply MB. rewrite split_nosep by apply MB.
    rewrite (proj2 (parse_salt_spec _ salt)) by auto. rewrite decode_encode.
    destruct I as [I|[I|[]]]; injection I as <- <-; reflexivity.
  - assert (CI : ~ In ":" it) by (apply (number_no _ _ n NU); [reflexivity|discriminate]).
    assert (MI : ~ In "," it) by (apply (number_no _ _ n NU); [reflexivity|discriminate]).
    rewrite (proj2 (rsplit_once_some ":" _ user (name ++ "," :: it ++ "," :: b64_encode false salt ++ "," :: b64_encode false h))).
    2:{ split; [reflexivity|]. intros K. apply in_app_iff in K. destruct K as [K|[K|K]]; try discriminate K.
        - destruct I as [I|[I|[]]]; injection I as <- <-; cbn in K; intuition discriminate.
        - apply in_app_iff in K. destruct K as [K|[K|K]]; try discriminate K; [now apply CI in K|].
          apply in_app_iff in K. destruct K as [K|[K|K]]; try discriminate K; now apply CB in K. }
    rewrite split_app. 2:{ destruct I as [I|[I|[]]]; injection I as <- <-; cbn; intuition discriminate. }
    rewrite split_app by exact MI. rewrite split_app by apply MB. rewrite split_nosep by apply MB.
    rewrite (proj2 (parse_iterations_spec it n)) by auto. rewrite (proj2 (parse_salt_spec _ salt)) by auto. rewrite decode_encode.
    destruct I as [I|[I|[]]]; injection I as <- <-; reflexivity.
Qed.

Lemma parse_wf line u e : parse_line line = Some (u, e) -> well_formed line u e.
Proof.
  unfold parse_line. destruct (rsplit_once ":" line) as [(user, pw)|] eqn:ER; [|discriminate]. apply rsplit_once_some in ER. destruct ER as (-> & _).
  destruct (split "," pw) as [|p0 [|p1 [|p2 rest]]] eqn:ES; try discriminate.
  assert (J := split_join "," pw). rewrite ES in J.
  set (plain := fun alg => match rest with [] => match parse_salt p1 with Some salt => match b64_decode false p2 with Some h => Some (user, Entry alg h salt) | None => None end | None => None end | _ => None end).
  set (iterated := fun alg : N -> halg => match parse_iterations p1 with Some n => match rest with [p3] => match parse_salt p2 with Some salt => match b64_decode false p3 with Some h => Some (user, Entry (alg n) h salt) | None => None end | None => None end | _ => None end | None => None end).
  assert (PL : forall alg, In (alg, p0) [(Sha256, lit "sha256"); (Sha512, lit "sha512")] -> plain alg = Some (u, e) -> well_formed (user ++ ":" :: pw) u e).
  { intros alg I H. unfold plain in H. destruct rest; [|discriminate]. destruct (parse_salt p1) as [salt|] eqn:E1; [|discriminate].
    destruct (b64_decode false p2) as [h|] eqn:E2; [|discriminate]. injection H as <- <-. apply parse_salt_spec in E1. destruct E1 as (-> & L). apply decode_spec in E2. subst p2.
    cbn [join] in J. rewrite <- J. now apply wf_plain. }
  assert (IT : forall alg, In (alg, p0) [(Sha256Pk, lit "sha256-pkbdf2"); (Sha512Pk, lit "sha512-pkbdf2")] -> iterated alg = Some (u, e) -> well_formed (user ++ ":" :: pw) u e).
  { intros alg I H. unfold iterated in H. destruct (parse_iterations p1) as [n|] eqn:E0; [|discriminate]. destruct rest as [|p3 [|]]; try discriminate.
    destruct (parse_salt p2) as [salt|] eqn:E1; [|discriminate]. destruct (b64_decode false p3) as [h|] eqn:E2; [|discriminate]. injection H as <- <-.
    apply parse_salt_spec in E1. destruct E1 as (-> & L). apply decode_spec in E2. subst p3. apply parse_iterations_spec in E0. destruct E0 as (NU & B).
    cbn [join] in J. rewrite <- J. now apply wf_iterated. }
  destruct (text_eqb_spec p0 (lit "sha256")) as [E|_]; [intros H; apply (PL Sha256); [subst; now left|exact H]|].
  destruct (text_eqb_spec p0 (lit "sha512")) as [E|_]; [intros H; apply (PL Sha512); [subst; right; now left|exact H]|].
  destruct (text_eqb_spec p0 (lit "sha256-pkbdf2")) as [E|_]; [intros H; apply (IT Sha256Pk); [subst; now left|exact H]|].
  destruct (text_eqb_spec p0 (lit "sha512-pkbdf2")) as [E|_]; [intros H; apply (IT Sha512Pk); [subst; right; now left|exact H]|].
  discriminate.
Qed.

(** ** Loading *)
Definition line_of (line u : text) (e : entry) : Prop := parse_line (trim line) = Some (u, e) /\ trim line <> [].
Lemma load_lines_spec ls : forall t0 t, load_lines ls t0 = Some t ->
  (forall line, In line ls -> utf8 line = true /\ (trim line = [] \/ exists u e, line_of line u e)) /\
  (forall u, (exists l1 line l2 e, ls = (l1 ++ line :: l2)%list /\ line_of line u e /\ (forall l' e', In l' l2 -> ~ line_of l' u e') /\ aget u t = Some e) \/
             ((forall l' e', In l' ls -> ~ line_of l' u e') /\ aget u t = aget u t0)).
Proof.
  induction ls as [|line ls IH]; intros t0 t H; cbn [load_lines] in H.
  - injection H as <-. split; [intros l []|]. intros u. right. split; [intros l' e' []|reflexivity].
  - destruct (utf8 line) eqn:EU; [|discriminate]. cbn [negb] in H.
    assert (BL : trim line = [] -> load_lines ls t0 = Some t).
    { intros E. rewrite E in H. exact H. }
    assert (NB : trim line <> [] -> exists u e, parse_line (trim line) = Some (u, e) /\ load_lines ls (aset u e t0) = Some t).
    { intros NE. destruct (trim line) as [|x r]; [congruence|]. destruct (parse_line (x :: r)) as [(u, e)|]; [|discriminate]. eauto. }
    clear H. destruct (list_eq_dec ascii_dec (trim line) []) as [E|E].
    + destruct (IH _ _ (BL E)) as (A & B). split.
      * intros l [<-|I]; [split; [exact EU|now left]|now apply A].
      * intros u. destruct (B u) as [(l1 & l & l2 & e & -> & X)|(X & Y)].
        -- left. exists (line :: l1), l, l2, e. split; [reflexivity|exact X].
        -- right. split; [|exact Y]. intros l' e' [<-|I]; [intros (_ & K); contradiction|now apply X].
    + destruct (NB E) as (u0 & e0 & P & L). destruct (IH _ _ L) as (A & B). split.
      * intros l [<-|I]; [split; [exact EU|right; exists u0, e0; now split]|now apply A].
      * intros u. destruct (B u) as [(l1 & l & l2 & e & -> & X)|(X & Y)].
        -- left. exists (line :: l1), l, l2, e. split; [reflexivity|exact X].
        -- destruct (text_eqb_spec u u0) as [->|NEQ].
           ++ left. exists [], line, ls, e0. split; [reflexivity|]. split; [now split|]. split; [exact X|]. rewrite Y. apply aget_aset_eq.
           ++ right. split.
              ** intros l' e' [<-|I]; [|now apply X]. intros (K & _). congruence.
              ** rewrite Y. apply aget_aset_ne. congruence.
Qed.
Lemma load_lines_ok ls : forall t0, (forall line, In line ls -> utf8 line = true /\ (trim line = [] \/ exists u e, line_of line u e)) -> exists t, load_lines ls t0 = Some t.
Proof.
  induction ls as [|line ls IH]; intros t0 H; cbn [load_lines]; [eauto|]. destruct (H line (or_introl eq_refl)) as (U & K). rewrite U. cbn [negb].
  assert (R : forall l, In l ls -> utf8 l = true /\ (trim l = [] \/ exists u e, line_of l u e)) by (intros l I; apply H; now right).
  destruct K as [E|(u & e & P & NE)].
  - rewrite E. now apply IH.
  - destruct (trim line) as [|x r]; [congruence|]. rewrite P. now apply IH.
Qed.

(** ** Writing *)
Lemma dump_wf u e : storable_entry e -> well_formed (dump_line u e) u e.
Proof.
  destruct e as [alg h salt]. unfold storable_entry, dump_line. cbn [en_alg en_hash en_salt]. intros (L & B).
  destruct alg as [| |n|n].
  - apply (wf_plain Sha256 (lit "sha256") u salt h); [now left|exact L].
  - apply (wf_plain Sha512 (lit "sha512") u salt h); [right; now left|exact L].
  - rewrite <- !app_assoc. apply (wf_iterated Sha256Pk (lit "sha256-pkbdf2") u salt h (show n) n); [now left|exact L|exists 0%nat; now left|exact B].
  - rewrite <- !app_assoc. apply (wf_iterated Sha512Pk (lit "sha512-pkbdf2") u salt h (show n) n); [right; now left|exact L|exists 0%nat; now left|exact B].
Qed.
Definition tail_of (e : entry) : text :=
  (match en_alg e with
   | Sha256 => lit "sha256,"
   | Sha512 => lit "sha512,"
   | Sha256Pk n => lit "sha256-pkbdf2," ++ show n ++ [","]
   | Sha512Pk n => lit "sha512-pkbdf2," ++ show n ++ [","]
   end ++ b64_encode false (en_salt e) ++ "," :: b64_encode false (en_hash e))%list.
Lemma dump_tail u e : dump_line u e = (u ++ ":" :: tail_of e)%list.
Proof. reflexivity. Qed.
Lemma tail_chars e c : In c (tail_of e) -> b64_val c <> None \/ In c (lit ",-").
Proof.
  assert (LIT : forall s, forallb (fun c => match b64_val c with Some _ => true | None => Ascii.eqb c "," || Ascii.eqb c "-" end) s = true -> In c s -> b64_val c <> None \/ In c (lit ",-")).
  { intros s F I. rewrite forallb_forall in F. specialize (F c I). destruct (b64_val c); [left; discriminate|right]. apply orb_true_iff in F.
    destruct F as [F|F]; apply Ascii.eqb_eq in F; subst c; cbn; auto. }
  assert (SH : forall n, In c (show n) -> b64_val c <> None).
  { intros n I. destruct (show_chars n c I) as (d & L & ->). intros K. revert K.
    assert (A : forallb (fun k => match b64_val (digit (N.of_nat k)) with Some _ => true | None => false end) (seq 0 10) = true) by (vm_compute; reflexivity).
    rewrite forallb_forall in A. specialize (A (N.to_nat d)). rewrite N2Nat.id in A.
    assert (X : In (N.to_nat d) (seq 0 10)) by (apply in_seq; lia). specialize (A X). destruct (b64_val (digit d)); [discriminate|discriminate A]. }
  unfold tail_of. intros I. apply in_app_iff in I. destruct I as [I|I].
  - destruct (en_alg e) as [| |n|n]; try (eapply LIT; [|exact I]; vm_compute; reflexivity).
    + apply in_app_iff in I. destruct I as [I|I]; [eapply LIT; [|exact I]; vm_compute; reflexivity|]. apply in_app_iff in I.
      destruct I as [I|[<-|[]]]; [left; eapply SH; eauto|right; now left].
    + apply in_app_iff in I. destruct I as [I|I]; [eapply LIT; [|exact I]; vm_compute; reflexivity|]. apply in_app_iff in I.
      destruct I as [I|[<-|[]]]; [left; eapply SH; eauto|right; now left].
  - apply in_app_iff in I. destruct I as [I|[<-|I]]; [left; eapply b64_chars; eauto|right; now left|left; eapply b64_chars; eauto].
Qed.
Lemma tail_ascii e : is_ascii (tail_of e).
Proof.
  assert (A : forall c, (fun c => match b64_val c with Some _ => (code c <? 128)%N | None => true end) c = true) by (apply all_bytes_spec; vm_compute; reflexivity).
  intros c I. destruct (tail_chars e c I) as [V|[<-|[<-|[]]]]; [|now vm_compute|now vm_compute].
  specialize (A c). cbn beta in A. destruct (b64_val c); [|congruence]. now apply N.ltb_lt.
Qed.
Lemma tail_no_white e p : In p spaces -> forall c, In c p -> ~ In c (tail_of e).
Proof.
  intros I c K H. destruct (tail_chars e c H) as [V|V].
  - assert (F : forallb (forallb (fun c => match b64_val c with Some _ => false | None => true end)) spaces = true) by (vm_compute; reflexivity).
    rewrite forallb_forall in F. specialize (F p I). rewrite forallb_forall in F. specialize (F c K). destruct (b64_val c); [discriminate|now apply V].
  - assert (F : forallb (forallb (fun c => negb (Ascii.eqb c "," || Ascii.eqb c "-"))) spaces = true) by (vm_compute; reflexivity).
    rewrite forallb_forall in F. specialize (F p I). rewrite forallb_forall in F. specialize (F c K). destruct V as [<-|[<-|[]]]; discriminate F.
Qed.
Lemma tail_nonnil e : tail_of e <> [].
Proof. unfold tail_of. destruct (en_alg e); discriminate. Qed.
Lemma app_last {A} (s : list A) x (t p : list A) : p <> [] -> (s ++ [x] = t ++ p)%list -> In x p.
Proof.
  intros NE E. destruct (exists_last NE) as (q & y & ->). rewrite app_assoc in E. apply app_inj_tail in E. destruct E as (_ & <-). apply in_app_iff. right. now left.
Qed.
Lemma dump_trim u e : storable_user u -> trim (dump_line u e) = dump_line u e.
Proof.
  intros (_ & _ & NS). rewrite dump_tail. apply trim_same.
  - intros H. apply NS. apply (starts_blank_app u ":" (tail_of e)); [|exact H].
    intros p I K. assert (F : forallb (forallb (fun c => negb (Ascii.eqb c ":"))) spaces = true) by (vm_compute; reflexivity).
    rewrite forallb_forall in F. specialize (F p I). rewrite forallb_forall in F. specialize (F _ K). discriminate F.
  - intros (p & t & I & E). destruct (exists_last (tail_nonnil e)) as (s & x & T). rewrite T in E.
    assert (X : In x p).
    { apply (app_last (u ++ ":" :: s)%list x t p); [now apply spaces_nonempty|]. rewrite <- E, <- app_assoc. reflexivity. }
    apply (tail_no_white e p I x X). rewrite T. apply in_app_iff. right. now left.
Qed.
Lemma dump_no_lf u e : storable_user u -> ~ In "010" (dump_line u e).
Proof.
  intros (_ & NL & _). rewrite dump_tail. intros I. apply in_app_iff in I. destruct I as [I|[I|I]]; [contradiction|discriminate|].
  apply (tail_no_white e ["010"]) with (c := "010"); [now vm_compute; auto|now left|exact I].
Qed.
Lemma dump_utf8 u e : storable_user u -> utf8 (dump_line u e) = true.
Proof.
  intros (U & _). apply utf8_iff in U. rewrite dump_tail, utf8_app by exact U. apply utf8_ascii. intros c [<-|I]; [now vm_compute|now apply (tail_ascii e)].
Qed.
Lemma lines_dump t : Forall (fun x => storable_user (fst x)) t -> lines (dump_passwords t) = map (fun x => dump_line (fst x) (snd x)) t.
Proof.
  induction 1 as [|(u, e) t H F IH]; [reflexivity|]. unfold dump_passwords. cbn [flat_map map fst snd]. rewrite <- app_assoc. cbn [app].
  rewrite lines_cons by now apply dump_no_lf. f_equal. exact IH.
Qed.
Lemma load_dump_gen t : forall t0, Forall (fun x => storable_user (fst x) /\ storable_entry (snd x)) t -> NoDup (keys t) -> (forall u, In u (keys t) -> ~ In u (keys t0)) ->
  load_lines (map (fun x => dump_line (fst x) (snd x)) t) t0 = Some (t0 ++ t)%list.
Proof.
  induction t as [|(u, e) t IH]; intros t0 F ND DJ; cbn [map load_lines]; [now rewrite app_nil_r|]. inversion F as [|x y (SU & SE) F']; subst. inversion ND as [|x y NI ND']; subst.
  cbn [fst snd] in *. rewrite dump_utf8 by exact SU. cbn [negb]. rewrite dump_trim by exact SU.
  assert (P := wf_parse _ _ _ (dump_wf u e SE)). destruct (dump_line u e) as [|c r] eqn:E.
  { rewrite dump_tail in E. destruct u; discriminate. }
  rewrite P. rewrite aset_notin by (apply DJ; now left). rewrite IH; [now rewrite <- app_assoc|exact F'|exact ND'|].
  intros v I K. unfold keys in K. rewrite map_app in K. apply in_app_iff in K. destruct K as [K|[K|[]]]; [now apply (DJ v (or_intror I))|]. cbn in K. subst v. contradiction.
Qed.
Lemma round_trip t : storable t -> load_passwords (dump_passwords t) = Some t.
Proof.
  intros (ND & F). unfold load_passwords. rewrite lines_dump by (eapply Forall_impl; [|exact F]; intros x H; apply H).
  now rewrite (load_dump_gen t []).
Qed.

(** What is loaded can be stored again. *)
Lemma load_nodup ls : forall t0 t, load_lines ls t0 = Some t -> NoDup (keys t0) -> NoDup (keys t).
Proof.
  induction ls as [|l ls IH]; intros t0 t H ND; cbn [load_lines] in H; [now injection H as <-|]. destruct (utf8 l); [|discriminate]. cbn [negb] in H.
  destruct (trim l); [now apply (IH t0)|]. destruct (parse_line _) as [(u, e)|]; [|discriminate]. apply (IH _ _ H). now apply NoDup_aset.
Qed.
Lemma parse_storable line u e : parse_line line = Some (u, e) -> storable_entry e.
Proof. intros H. apply parse_wf in H. destruct H as [alg name ? salt h I L|alg name ? salt h it n I L NU B]; (split; [exact L|]); destruct I as [I|[I|[]]]; injection I as <- <-; cbn; auto. Qed.
Lemma lines_no_lf s : Forall (fun l => ~ In "010" l) (lines s).
Proof.
  induction s as [|x s IH]; cbn [lines]; [constructor|]. destruct (Ascii.eqb_spec x "010") as [->|D]; [constructor; auto|].
  destruct (lines s) as [|h t]; [repeat constructor; intros [E|[]]; now apply D|]. inversion IH; subst. constructor; [|assumption]. intros [E|E]; [now apply D|contradiction].
Qed.
Lemma sub_trim line c : In c (trim line) -> In c line.
Proof. destruct (trim_spec line) as (a & b & _ & _ & E & _). intros I. rewrite E. apply in_app_iff. right. apply in_app_iff. now left. Qed.
Lemma utf8_cut a : forall c b, (code c < 128)%N -> utf8 (a ++ c :: b) = true -> utf8 a = true.
Proof.
  assert (NC : forall c, (code c < 128)%N -> cont c = false) by (intros c L; unfold cont, between; lia).
  assert (NB : forall lo hi c, (128 <= lo)%N -> (code c < 128)%N -> between lo hi c = false) by (intros; unfold between; lia).
  assert (A : forall n a c b, (List.length a <= n)%nat -> (code c < 128)%N -> utf8 (a ++ c :: b) = true -> utf8 a = true); [|intros c b; apply (A (List.length a)); lia].
  induction n as [|n IH]; intros [|x a'] c b L C H; try reflexivity; cbn [List.length] in L; try lia. cbn [app utf8] in *.
  destruct (code x <? 128)%N; [apply (IH _ c b); [lia|exact C|exact H]|].
  destruct a' as [|y a']; cbn [app List.length] in *.
  { destruct (between 194 223 x); [now rewrite (NC c C) in H|]. destruct b as [|z b]; [discriminate|].
    destruct (between 224 239 x). { rewrite (NC c C), !NB in H by (lia || exact C). destruct (code x =? 224)%N, (code x =? 237)%N; discriminate. }
    destruct b as [|w b]; [discriminate|]. destruct (between 240 244 x); [|discriminate].
    rewrite (NC c C), !(NB _ _ c) in H by (lia || exact C). destruct (code x =? 240)%N, (code x =? 244)%N; discriminate. }
  destruct (between 194 223 x).
  { destruct (cont y); [|discriminate]. cbn [andb] in *. apply (IH _ c b); [lia|exact C|exact H]. }
  destruct a' as [|z a']; cbn [app List.length] in *.
  { destruct (between 224 239 x); [rewrite (NC c C), andb_false_r in H; discriminate|]. destruct b as [|w b]; [discriminate|].
    destruct (between 240 244 x); [|discriminate]. rewrite (NC c C), andb_false_r in H. discriminate. }
  destruct (between 224 239 x).
  { destruct ((if (code x =? 224)%N then _ else _) && cont z)%bool; [|discriminate]. cbn [andb] in *. apply (IH _ c b); [lia|exact C|exact H]. }
  destruct a' as [|w a']; cbn [app List.length] in *.
  { destruct (between 240 244 x); [|discriminate]. rewrite (NC c C), andb_false_r in H. discriminate. }
  destruct (between 240 244 x); [|discriminate].
  match goal with |- (?c && _)%bool = _ => destruct c end; [|discriminate]. cbn [andb] in *. apply (IH _ c b); [lia|exact C|exact H].
Qed.
Lemma utf8_white a : white a -> utf8 a = true.
Proof.
  intros (l & F & ->). induction F as [|p l I F IH]; [reflexivity|]. cbn [List.concat].
  assert (U : utf8 p = true). { assert (Q : forallb utf8 spaces = true) by (vm_compute; reflexivity). rewrite forallb_forall in Q. now apply Q. }
  now rewrite utf8_app.
Qed.
Lemma wf_head line u e : well_formed line u e -> exists r, line = (u ++ ":" :: r)%list.
Proof. intros H. destruct H; eauto. Qed.
Lemma user_storable line u e : utf8 line = true -> ~ In "010" line -> line_of line u e -> storable_user u.
Proof.
  intros U NL (P & NE). apply parse_wf, wf_head in P. destruct P as (r & P). destruct (trim_spec line) as (a & b & A & B & E & _ & G).
  split; [|split].
  - rewrite E in U. rewrite utf8_app in U by now apply utf8_white. rewrite P, <- app_assoc in U. cbn [app] in U. apply utf8_cut in U; [now apply utf8_iff|now vm_compute].
  - intros I. apply NL, sub_trim. rewrite P. apply in_app_iff. now left.
  - intros (p & t & I & ->). apply (G NE). exists p, (t ++ ":" :: r)%list. split; [exact I|]. now rewrite P, <- app_assoc.
Qed.
Lemma load_storable f t : load_passwords f = Some t -> storable t.
Proof.
  intros H. unfold load_passwords in H. assert (ND := load_nodup _ _ _ H (NoDup_nil _)). split; [exact ND|].
  destruct (load_lines_spec _ _ _ H) as (A & B). apply Forall_forall. intros (u, e) I. cbn [fst snd]. apply in_iff_aget in I; [|exact ND].
  destruct (B u) as [(l1 & line & l2 & e' & E & L & _ & K)|(_ & K)]; [|now rewrite I in K].
  rewrite I in K. injection K as <-. assert (M : In line (lines f)) by (rewrite E; apply in_app_iff; right; now left).
  split; [|destruct L as (L & _); eapply parse_storable; eauto]. eapply user_storable; [apply A, M| |exact L].
  assert (N := lines_no_lf f). rewrite Forall_forall in N. now apply N.
Qed.

(** ** The statements *)

(** The entry a line gives, from the specification. *)
Definition gives (line u : text) (e : entry) : Prop := well_formed (trim line) u e.
Lemma gives_line line u e : gives line u e <-> line_of line u e.
Proof.
  split.
  - intros W. split; [now apply wf_parse|]. apply wf_head in W. destruct W as (r & W). rewrite W. destruct u; discriminate.
  - intros (P & _). now apply parse_wf.
Qed.
Lemma load_iff f : (exists t, load_passwords f = Some t) <-> forall line, In line (lines f) -> utf8 line = true /\ (trim line = [] \/ exists u e, well_formed (trim line) u e).
Proof.
  split.
  - intros (t & H) line I. destruct (load_lines_spec _ _ _ H) as (A & _). destruct (A line I) as (U & [K|(u & e & K)]); split; auto. right. exists u, e. now apply gives_line.
  - intros H. apply load_lines_ok. intros line I. destruct (H line I) as (U & [K|(u & e & K)]); split; auto. right. exists u, e. now apply gives_line.
Qed.
Lemma load_accepts f : (exists t, load_passwords f = Some t) <->
  forall line, In line (lines f) -> unicode line /\ (trim line = [] \/ exists user e, well_formed (trim line) user e).
Proof.
  rewrite load_iff. split; intros H line I; destruct (H line I) as [U R]; (split; [now apply utf8_iff|exact R]).
Qed.
Lemma load_entry f t : load_passwords f = Some t -> forall u e, aget u t = Some e <->
  exists before line after, lines f = (before ++ line :: after)%list /\ well_formed (trim line) u e /\ (forall l e', In l after -> ~ well_formed (trim l) u e').
Proof.
  intros H u e. destruct (load_lines_spec _ _ _ H) as (_ & B). split.
  - intros G. destruct (B u) as [(l1 & line & l2 & e' & E & L & N & K)|(_ & K)]; [|rewrite G in K; discriminate].
    rewrite G in K. injection K as <-. exists l1, line, l2. split; [exact E|]. split; [now apply gives_line|]. intros l e' I W. apply (N l e' I). now apply gives_line.
  - intros (l1 & line & l2 & E & W & N). apply gives_line in W. destruct (B u) as [(m1 & l' & m2 & e' & E' & L & N' & K)|(N' & _)].
    2:{ destruct (N' line e); [|exact W]. rewrite E. apply in_app_iff. right. now left. }
    rewrite K. f_equal. rewrite E in E'. clear -E' W N L N'.
    assert (X : (l1 = m1 /\ line = l' /\ l2 = m2) \/ In line m2 \/ In l' l2).
    { revert m1 E'. induction l1 as [|x l1 IH]; intros [|y m1] E'.
      - injection E' as -> ->. now left.
      - injection E' as -> ->. right. right. apply in_app_iff. right. now left.
      - injection E' as -> E'. right. left. rewrite <- E'. apply in_app_iff. right. now left.
      - injection E' as -> E'. destruct (IH m1 E') as [(-> & A)|A]; [left; now split|now right]. }
    destruct X as [(-> & -> & ->)|[X|X]].
    + destruct L as (L & _), W as (W & _). congruence.
    + destruct (N' _ _ X W).
    + destruct (N _ e' X). now apply gives_line.
Qed.

(** ** The check *)
Section Check.
  Variable sha256 sha512 : text -> text.
  Variable pbkdf2 : bool -> N -> text -> text -> nat -> text.
  Lemma text_eqb_true a b : text_eqb a b = true <-> a = b.
  Proof. destruct (text_eqb_spec a b); split; congruence. Qed.
  Lemma verify_iff alg n salt password h : verify pbkdf2 alg n salt password h = true <-> h <> [] /\ h = pbkdf2 alg n salt password (List.length h).
  Proof. unfold verify. destruct h as [|c h]; [split; [discriminate|intros (K & _); congruence]|]. rewrite text_eqb_true. split; [intros E; split; [discriminate|now symmetry]|intros (_ & E); now symmetry]. Qed.
  Lemma check_iff t user password : check_password sha256 sha512 pbkdf2 t user password = true <-> exists e, aget user t = Some e /\ right_password sha256 sha512 pbkdf2 e password.
  Proof.
    unfold check_password, right_password. destruct (aget user t) as [e|]; [|split; [discriminate|intros (e & E & _); discriminate]].
    destruct (en_alg e) eqn:EA; [rewrite text_eqb_true|rewrite text_eqb_true|rewrite verify_iff|rewrite verify_iff]; (split; [intros K; exists e; rewrite EA; repeat split; try apply K; now symmetry|]);
      intros (e' & E & K); injection E as <-; rewrite EA in K; try (now symmetry); exact K.
  Qed.
  Lemma right_hashed alg salt password : (forall a n s p len, List.length (pbkdf2 a n s p len) = len) ->
    right_password sha256 sha512 pbkdf2 (Entry alg (hash_password sha256 sha512 pbkdf2 alg salt password) salt) password.
  Proof.
    intros LEN. unfold right_password, hash_password. cbn [en_alg en_hash en_salt].
    destruct alg as [| |n|n]; try reflexivity; rewrite LEN; (split; [|reflexivity]); intros E; apply (f_equal (@List.length ascii)) in E; rewrite LEN in E; discriminate.
  Qed.

  Lemma storable_aset t u e : storable t -> storable_user u -> storable_entry e -> storable (aset u e t).
  Proof.
    intros (ND & F) SU SE. split; [now apply NoDup_aset|]. rewrite Forall_forall in *. intros (v, x) I.
    assert (G : aget v (aset u e t) = Some x) by (apply in_iff_aget; [now apply NoDup_aset|exact I]).
    destruct (text_eqb_spec v u) as [->|D].
    - rewrite aget_aset_eq in G. injection G as <-. now split.
    - rewrite aget_aset_ne in G by congruence. apply (F (v, x)). now apply in_iff_aget.
  Qed.
  Lemma storable_adel t u : storable t -> storable (adel u t).
  Proof.
    intros (ND & F). split; [now apply NoDup_adel|]. rewrite Forall_forall in *. intros (v, x) I.
    assert (G : aget v (adel u t) = Some x) by (apply in_iff_aget; [now apply NoDup_adel|exact I]).
    destruct (text_eqb_spec v u) as [->|D].
    - now rewrite aget_adel_eq in G.
    - rewrite aget_adel_ne in G by congruence. apply (F (v, x)). now apply in_iff_aget.
  Qed.
  Lemma insert_spec file t alg salt user password :
    match file with None => t = [] | Some f => load_passwords f = Some t end -> storable_user user -> storable_entry (Entry alg [] salt) ->
    exists f' t', insert_password sha256 sha512 pbkdf2 file alg salt user password = Some f' /\ load_passwords f' = Some t' /\
      aget user t' = Some (Entry alg (hash_password sha256 sha512 pbkdf2 alg salt password) salt) /\ (forall u, u <> user -> aget u t' = aget u t).
  Proof.
    intros HT SU SE. set (e := Entry alg (hash_password sha256 sha512 pbkdf2 alg salt password) salt).
    assert (ST : storable t) by (destruct file as [f|]; [eapply load_storable; eauto|subst t; split; constructor]).
    exists (dump_passwords (aset user e t)), (aset user e t). split.
    - unfold insert_password. destruct file as [f|]; [now rewrite HT|now subst t].
    - split; [apply round_trip, storable_aset; [exact ST|exact SU|exact SE]|]. split; [apply aget_aset_eq|]. intros u D. now apply aget_aset_ne.
  Qed.
  Lemma remove_spec f t user : load_passwords f = Some t ->
    exists f' t', remove_password f user = Some f' /\ load_passwords f' = Some t' /\ aget user t' = None /\ (forall u, u <> user -> aget u t' = aget u t).
  Proof.
    intros H. assert (ST := load_storable _ _ H). unfold remove_password. rewrite H. destruct (aget user t) as [e|] eqn:G.
    - exists (dump_passwords (adel user t)), (adel user t). split; [reflexivity|]. split; [now apply round_trip, storable_adel|].
      split; [apply aget_adel_eq, ST|]. intros u D. now apply aget_adel_ne.
    - exists f, t. now repeat split.
  Qed.
End Check.
