(** What is in the password file if a command that rewrites it is stopped. *)
From Coq Require Import List Bool Arith NArith ZArith Ascii String Lia.
From Verif Require Import Base BaseLemmas TextModel TextSpec TextProofs Utf8Proofs PassModel PassSpec PassProofs.
Import ListNotations.
Local Open Scope char_scope.

Lemma dump_cons u e t : dump_passwords ((u, e) :: t) = ((dump_line u e ++ ["010"]) ++ dump_passwords t)%list.
Proof. reflexivity. Qed.
Lemma firstn_lines t : forall k, exists a x b p, t = (a ++ x ++ b)%list /\ firstn k (dump_passwords t) = (dump_passwords a ++ p)%list /\
  (x = [] /\ p = [] \/ exists u e r, x = [(u, e)] /\ dump_line u e = (p ++ r)%list).
Proof.
  induction t as [|(u, e) t IH]; intros k.
  { exists [], [], [], []. split; [reflexivity|]. split; [now destruct k|]. now left. }
  rewrite dump_cons. destruct (le_lt_dec k (List.length (dump_line u e))) as [L|L].
  - exists [], [(u, e)], t, (firstn k (dump_line u e)). split; [reflexivity|]. split.
    + rewrite <- app_assoc, firstn_app. replace (k - List.length (dump_line u e)) with 0 by lia. now rewrite app_nil_r.
    + right. exists u, e, (skipn k (dump_line u e)). split; [reflexivity|]. now rewrite firstn_skipn.
  - destruct (IH (k - List.length (dump_line u e ++ ["010"]))) as (a & x & b & p & -> & F & X).
    exists ((u, e) :: a), x, b, p. split; [reflexivity|]. split; [|exact X].
    rewrite firstn_app, F. rewrite firstn_all2 by (rewrite app_length; cbn [List.length]; lia). rewrite dump_cons. now rewrite <- !app_assoc.
Qed.

Lemma lines_none p : ~ In "010" p -> lines p = match p with [] => [] | _ => [p] end.
Proof.
  induction p as [|x p IH]; intros N; [reflexivity|]. cbn [lines]. destruct (Ascii.eqb_spec x "010") as [->|D]; [destruct N; now left|].
  rewrite IH by (intros I; apply N; now right). destruct p; reflexivity.
Qed.
Lemma lines_app t : forall p, Forall (fun x => storable_user (fst x)) t -> lines (dump_passwords t ++ p) = (map (fun x => dump_line (fst x) (snd x)) t ++ lines p)%list.
Proof.
  intros p. induction 1 as [|(u, e) t H F IH]; [reflexivity|]. unfold dump_passwords. cbn [flat_map map fst snd]. rewrite <- !app_assoc. cbn [app].
  rewrite lines_cons by now apply dump_no_lf. cbn [app]. f_equal. exact IH.
Qed.

(** ** A beginning of a base64 text *)
Lemma char_inj m n : (m < 64)%N -> (n < 64)%N -> b64_char m = b64_char n -> m = n.
Proof. intros A B E. assert (X := val_char m A). rewrite E, val_char in X by exact B. congruence. Qed.
Ltac Zify.zify_post_hook ::= Z.div_mod_to_equations.
Ltac same_char H :=
  match type of H with b64_char ?m = b64_char ?n =>
    apply (char_inj m n) in H; [|clear H; lia|clear H; lia] end.
Lemma prefix_decode h' : forall h r, (b64_encode false h' ++ r)%list = b64_encode false h -> exists r', h = (h' ++ r')%list.
Proof.
  induction h' as [|a|a b|a b c h' IH] using text_ind3; intros h r E.
  - exists h. reflexivity.
  - pose proof (code_lt a). destruct h as [|x [|y [|z h]]]; cbn [b64_encode app] in E; try discriminate E;
      pose proof (code_lt x); try pose proof (code_lt y); injection E as E1 E2 _; same_char E1; same_char E2;
      assert (X : a = x) by (apply code_inj; lia); subst; eexists; reflexivity.
  - pose proof (code_lt a); pose proof (code_lt b). destruct h as [|x [|y [|z h]]]; cbn [b64_encode app] in E; try discriminate E;
      pose proof (code_lt x); pose proof (code_lt y); try pose proof (code_lt z); injection E as E1 E2 E3 _; same_char E1; same_char E2; same_char E3;
      assert (X : a = x) by (apply code_inj; lia); assert (Y : b = y) by (apply code_inj; lia); subst; eexists; reflexivity.
  - pose proof (code_lt a); pose proof (code_lt b); pose proof (code_lt c). destruct h as [|x [|y [|z h]]]; cbn [b64_encode app] in E; try discriminate E.
    pose proof (code_lt x); pose proof (code_lt y); pose proof (code_lt z). injection E as E1 E2 E3 E4 E. same_char E1; same_char E2; same_char E3; same_char E4.
    assert (X : a = x) by (apply code_inj; lia); assert (Y : b = y) by (apply code_inj; lia); assert (Z : c = z) by (apply code_inj; lia). subst.
    destruct (IH _ _ E) as (r' & ->). exists r'. reflexivity.
Qed.
Ltac Zify.zify_post_hook ::= idtac.

(** ** A beginning of a line *)
Lemma cut_comma a X r b Y : ~ In "," a -> ~ In "," b -> ((a ++ "," :: X) ++ r = b ++ "," :: Y)%list -> a = b /\ (X ++ r)%list = Y.
Proof.
  intros A B E. rewrite <- app_assoc in E. cbn [app] in E.
  assert (P := proj2 (split_once_some "," _ a (X ++ r)%list) (conj eq_refl A)). assert (Q := proj2 (split_once_some "," _ b Y) (conj eq_refl B)).
  rewrite E, Q in P. injection P as <- <-. auto.
Qed.
Lemma b64_inj s t : b64_encode false s = b64_encode false t -> s = t.
Proof. intros E. assert (X := decode_encode false s). rewrite E, decode_encode in X. congruence. Qed.
Lemma show_inj it n n' : numeral it n' -> (0 < n' <= 4294967295)%N -> (0 < n <= 4294967295)%N -> it = show n -> n' = n.
Proof.
  intros A B C ->. assert (X := proj2 (parse_iterations_spec (show n) n') (conj A B)).
  assert (Y : numeral (show n) n) by (exists 0%nat; now left). rewrite (proj2 (parse_iterations_spec (show n) n) (conj Y C)) in X. congruence.
Qed.
Lemma tail_no_colon e : ~ In ":" (tail_of e).
Proof. intros I. destruct (tail_chars e _ I) as [V|[V|[V|[]]]]; try discriminate V. apply V. reflexivity. Qed.

Lemma cut_tail u e u' e' q r : storable_entry e -> (q ++ r)%list = tail_of e -> well_formed (u ++ ":" :: q)%list u' e' -> u' = u /\ shortened e' e.
Proof.
  intros SE T W. assert (NQ : ~ In ":" q) by (intros I; apply (tail_no_colon e); rewrite <- T; apply in_app_iff; now left).
  assert (RU := proj2 (rsplit_once_some ":" _ u q) (conj eq_refl NQ)).
  assert (CB : forall s, ~ In ":" (b64_encode false s)) by (intros; now apply b64_no).
  assert (MB : forall s, ~ In "," (b64_encode false s)) by (intros; now apply b64_no).
  assert (MS : forall n, ~ In "," (show n)) by (intros; now apply show_no).
  remember (u ++ ":" :: q)%list as line eqn:EL. destruct W as [alg name user salt h I L|alg name user salt h it n I L NU B].
  - assert (X : rsplit_once ":" (user ++ ":" :: name ++ "," :: b64_encode false salt ++ "," :: b64_encode false h)%list = Some (user, name ++ "," :: b64_encode false salt ++ "," :: b64_encode false h)%list).
    { apply rsplit_once_some. split; [reflexivity|]. intros K. apply in_app_iff in K. destruct K as [K|[K|K]]; try discriminate K.
      - destruct I as [I|[I|[]]]; injection I as <- <-; cbn in K; intuition discriminate.
      - apply in_app_iff in K. destruct K as [K|[K|K]]; try discriminate K; now apply CB in K. }
    rewrite X in RU. injection RU as -> <-. split; [reflexivity|].
    assert (NM : ~ In "," name) by (destruct I as [I|[I|[]]]; injection I as <- <-; cbn; intuition discriminate).
    unfold tail_of in T. unfold shortened. cbn [en_alg en_hash en_salt].
    destruct (en_alg e) as [| |m|m].
    + change (lit "sha256,") with (lit "sha256" ++ [","])%list in T. rewrite <- (app_assoc (lit "sha256")) in T. cbn [app] in T.
      apply cut_comma in T; [|exact NM|cbn; intuition discriminate]. destruct T as (N1 & T).
      apply cut_comma in T; [|apply MB..]. destruct T as (N2 & T). apply b64_inj in N2. apply prefix_decode in T.
      split; [destruct I as [I|[I|[]]]; injection I as <- <-; [reflexivity|discriminate N1]|auto].
    + change (lit "sha512,") with (lit "sha512" ++ [","])%list in T. rewrite <- (app_assoc (lit "sha512")) in T. cbn [app] in T.
      apply cut_comma in T; [|exact NM|cbn; intuition discriminate]. destruct T as (N1 & T).
      apply cut_comma in T; [|apply MB..]. destruct T as (N2 & T). apply b64_inj in N2. apply prefix_decode in T.
      split; [destruct I as [I|[I|[]]]; injection I as <- <-; [discriminate N1|reflexivity]|auto].
    + exfalso. change (lit "sha256-pkbdf2,") with (lit "sha256-pkbdf2" ++ [","])%list in T. rewrite <- !(app_assoc (lit "sha256-pkbdf2")) in T. cbn [app] in T.
      apply cut_comma in T; [|exact NM|cbn; intuition discriminate]. destruct T as (N1 & _). destruct I as [I|[I|[]]]; injection I as <- <-; discriminate N1.
    + exfalso. change (lit "sha512-pkbdf2,") with (lit "sha512-pkbdf2" ++ [","])%list in T. rewrite <- !(app_assoc (lit "sha512-pkbdf2")) in T. cbn [app] in T.
      apply cut_comma in T; [|exact NM|cbn; intuition discriminate]. destruct T as (N1 & _). destruct I as [I|[I|[]]]; injection I as <- <-; discriminate N1.
  - assert (CI : ~ In ":" it) by (apply (number_no _ _ n NU); [reflexivity|discriminate]).
    assert (MI : ~ In "," it) by (apply (number_no _ _ n NU); [reflexivity|discriminate]).
    assert (X : rsplit_once ":" (user ++ ":" :: name ++ "," :: it ++ "," :: b64_encode false salt ++ "," :: b64_encode false h)%list =
      Some (user, name ++ "," :: it ++ "," :: b64_encode false salt ++ "," :: b64_encode false h)%list).
    { apply rsplit_once_some. split; [reflexivity|]. intros K. apply in_app_iff in K. destruct K as [K|[K|K]]; try discriminate K.
      - destruct I as [I|[I|[]]]; injection I as <- <-; cbn in K; intuition discriminate.
      - apply in_app_iff in K. destruct K as [K|[K|K]]; try discriminate K; [now apply CI in K|].
        apply in_app_iff in K. destruct K as [K|[K|K]]; try discriminate K; now apply CB in K. }
    rewrite X in RU. injection RU as -> <-. split; [reflexivity|].
    assert (NM : ~ In "," name) by (destruct I as [I|[I|[]]]; injection I as <- <-; cbn; intuition discriminate).
    unfold tail_of in T. destruct SE as (_ & SE). unfold shortened. cbn [en_alg en_hash en_salt].
    destruct (en_alg e) as [| |m|m].
    + exfalso. change (lit "sha256,") with (lit "sha256" ++ [","])%list in T. rewrite <- (app_assoc (lit "sha256")) in T. cbn [app] in T.
      apply cut_comma in T; [|exact NM|cbn; intuition discriminate]. destruct T as (N1 & _). destruct I as [I|[I|[]]]; injection I as <- <-; discriminate N1.
    + exfalso. change (lit "sha512,") with (lit "sha512" ++ [","])%list in T. rewrite <- (app_assoc (lit "sha512")) in T. cbn [app] in T.
      apply cut_comma in T; [|exact NM|cbn; intuition discriminate]. destruct T as (N1 & _). destruct I as [I|[I|[]]]; injection I as <- <-; discriminate N1.
    + change (lit "sha256-pkbdf2,") with (lit "sha256-pkbdf2" ++ [","])%list in T. rewrite <- !(app_assoc (lit "sha256-pkbdf2")) in T. cbn [app] in T. rewrite <- !app_assoc in T. cbn [app] in T.
      assert (T1 : ((name ++ "," :: (it ++ "," :: b64_encode false salt ++ "," :: b64_encode false h)) ++ r = lit "sha256-pkbdf2" ++ "," :: (show m ++ "," :: b64_encode false (en_salt e) ++ "," :: b64_encode false (en_hash e)))%list)
        by (rewrite <- (app_assoc name); cbn [app]; exact T).
      clear T. apply cut_comma in T1; [|exact NM|cbn; intuition discriminate]. destruct T1 as (N1 & T).
      apply cut_comma in T; [|exact MI|apply MS]. destruct T as (N2 & T). apply cut_comma in T; [|apply MB..]. destruct T as (N3 & T). apply b64_inj in N3. apply prefix_decode in T.
      pose proof (show_inj it m n NU B SE N2) as <-.
      split; [destruct I as [I|[I|[]]]; injection I as <- <-; [reflexivity|discriminate N1]|auto].
    + change (lit "sha512-pkbdf2,") with (lit "sha512-pkbdf2" ++ [","])%list in T. rewrite <- !(app_assoc (lit "sha512-pkbdf2")) in T. cbn [app] in T. rewrite <- !app_assoc in T. cbn [app] in T.
      assert (T1 : ((name ++ "," :: (it ++ "," :: b64_encode false salt ++ "," :: b64_encode false h)) ++ r = lit "sha512-pkbdf2" ++ "," :: (show m ++ "," :: b64_encode false (en_salt e) ++ "," :: b64_encode false (en_hash e)))%list)
        by (rewrite <- (app_assoc name); cbn [app]; exact T).
      clear T. apply cut_comma in T1; [|exact NM|cbn; intuition discriminate]. destruct T1 as (N1 & T).
      apply cut_comma in T; [|exact MI|apply MS]. destruct T as (N2 & T). apply cut_comma in T; [|apply MB..]. destruct T as (N3 & T). apply b64_inj in N3. apply prefix_decode in T.
      pose proof (show_inj it m n NU B SE N2) as <-.
      split; [destruct I as [I|[I|[]]]; injection I as <- <-; [discriminate N1|reflexivity]|auto].
Qed.

Lemma wf_colon line u e : well_formed line u e -> In ":" line.
Proof. intros W. destruct (wf_head _ _ _ W) as (r & ->). apply in_app_iff. right. now left. Qed.
Lemma app_cut {A} (a : list A) : forall b c d, (a ++ b = c ++ d)%list -> (exists x, c = (a ++ x)%list) \/ (exists x, a = (c ++ x)%list /\ d = (x ++ b)%list).
Proof.
  induction a as [|x a IH]; intros b [|y c] d E; [left; now exists []|left; eexists; reflexivity|right; exists (x :: a); auto|].
  injection E as -> E. destruct (IH _ _ _ E) as [(z & ->)|(z & -> & ->)]; [left|right]; exists z; auto.
Qed.
Lemma cut_line u e u' e' p r : storable_user u -> ~ In ":" u -> storable_entry e -> dump_line u e = (p ++ r)%list -> well_formed (trim p) u' e' -> u' = u /\ shortened e' e.
Proof.
  intros SU NC SE E W. rewrite dump_tail in E. symmetry in E. destruct (app_cut _ _ _ _ E) as [(x & X)|(x & X & Y)].
  { destruct NC. rewrite X. apply in_app_iff. left. apply sub_trim. eapply wf_colon; eauto. }
  destruct x as [|c q].
  { destruct NC. rewrite app_nil_r in X. subst p. apply sub_trim. eapply wf_colon; eauto. }
  cbn [app] in Y. injection Y as <- Y. symmetry in Y. subst p.
  assert (T : trim (u ++ ":" :: q) = (u ++ ":" :: q)%list).
  { destruct SU as (_ & _ & NS). apply trim_same.
    - intros H. apply NS. apply (starts_blank_app u ":" q); [|exact H].
      intros p I K. assert (F : forallb (forallb (fun c => negb (Ascii.eqb c ":"))) spaces = true) by (vm_compute; reflexivity).
      rewrite forallb_forall in F. specialize (F p I). rewrite forallb_forall in F. specialize (F _ K). discriminate F.
    - intros (p & t & I & K). assert (NE : (":" :: q) <> []) by discriminate. destruct (exists_last NE) as (s & y & Q). rewrite Q in K.
      assert (P : In y p).
      { apply (app_last (u ++ s)%list y t p); [now apply spaces_nonempty|]. rewrite <- K, <- app_assoc. reflexivity. }
      assert (IY : In y (":" :: q)) by (rewrite Q; apply in_app_iff; right; now left). destruct IY as [<-|IY].
      + assert (F : forallb (forallb (fun c => negb (Ascii.eqb c ":"))) spaces = true) by (vm_compute; reflexivity).
        rewrite forallb_forall in F. specialize (F p I). rewrite forallb_forall in F. specialize (F _ P). discriminate F.
      + apply (tail_no_white e p I y P). rewrite <- Y. apply in_app_iff. now left. }
  rewrite T in W. eapply cut_tail; eauto.
Qed.

Lemma shortened_refl e : shortened e e.
Proof. split; [reflexivity|]. split; [reflexivity|]. exists []. now rewrite app_nil_r. Qed.
Lemma cut_file t k t' : storable t -> (forall u, In u (keys t) -> ~ In ":" u) -> load_passwords (firstn k (dump_passwords t)) = Some t' ->
  forall u e', aget u t' = Some e' -> exists e, aget u t = Some e /\ shortened e' e.
Proof.
  intros (ND & F) NC L u e' G. rewrite Forall_forall in F. apply (load_entry _ _ L) in G. destruct G as (l1 & line & l2 & LS & W & _).
  destruct (firstn_lines t k) as (a & x & b & p & T & E & X).
  assert (FA : Forall (fun x => storable_user (fst x)) a) by (apply Forall_forall; intros y Y; apply F; rewrite T; apply in_app_iff; now left).
  rewrite E, lines_app in LS by exact FA. assert (IL : In line (map (fun x => dump_line (fst x) (snd x)) a ++ lines p)%list) by (rewrite LS; apply in_app_iff; right; now left).
  assert (AG : forall v w, In (v, w) t -> aget v t = Some w) by (intros v w I; apply in_iff_aget; auto).
  apply in_app_iff in IL. destruct IL as [IL|IL].
  - apply in_map_iff in IL. destruct IL as ((v, w) & <- & IA). cbn [fst snd] in W. assert (IT : In (v, w) t) by (rewrite T; apply in_app_iff; now left).
    destruct (F _ IT) as (SU & SE). cbn [fst snd] in SU, SE. rewrite dump_trim in W by exact SU. apply wf_parse in W. rewrite (wf_parse _ _ _ (dump_wf v w SE)) in W. injection W as <- <-.
    exists w. split; [now apply AG|apply shortened_refl].
  - destruct X as [(-> & ->)|(v & w & r & -> & D)]; [destruct IL|]. assert (IT : In (v, w) t) by (rewrite T; apply in_app_iff; right; now left).
    destruct (F _ IT) as (SU & SE). cbn [fst snd] in SU, SE.
    assert (NL : ~ In "010" p) by (intros I; apply (dump_no_lf v w SU); rewrite D; apply in_app_iff; now left).
    rewrite lines_none in IL by exact NL. assert (EP : line = p) by (destruct p; [destruct IL|destruct IL as [<-|[]]; reflexivity]). subst line.
    destruct (cut_line v w u e' p r SU) as (-> & S); auto; [apply NC; unfold keys; apply in_map_iff; exists (v, w); auto|]. exists w. split; [now apply AG|exact S].
Qed.

(** ** The commands *)
Section Commands.
  Variable sha256 sha512 : text -> text.
  Variable pbkdf2 : bool -> N -> text -> text -> nat -> text.
  Notation insert_password := (insert_password sha256 sha512 pbkdf2).
  Notation hash_password := (hash_password sha256 sha512 pbkdf2).
  Notation check_password := (check_password sha256 sha512 pbkdf2).

  Lemma insert_cut file t alg salt user password new c t' :
    match file with None => t = [] | Some f => load_passwords f = Some t end -> storable_user user -> storable_entry (Entry alg [] salt) -> colon_free t -> ~ In ":" user ->
    insert_password file alg salt user password = Some new -> interrupted (match file with Some f => f | None => [] end) new c -> load_passwords c = Some t' ->
    forall v e', aget v t' = Some e' ->
      (exists e, aget v t = Some e /\ (e' = e \/ v <> user /\ shortened e' e)) \/
      v = user /\ shortened e' (Entry alg (hash_password alg salt password) salt).
  Proof.
    intros HT SU SE CF CU I [->|(k & ->)] L v e' G.
    - left. exists e'. split; [|auto]. destruct file as [f|]; [congruence|]. subst t. cbn in L. injection L as <-. discriminate G.
    - unfold PassModel.insert_password in I.
      assert (ST : storable t) by (destruct file as [f|]; [eapply load_storable; eauto|subst t; split; [constructor|constructor]]).
      assert (E : new = dump_passwords (aset user (Entry alg (hash_password alg salt password) salt) t)) by (destruct file as [f|]; [rewrite HT in I|subst t]; congruence). subst new.
      assert (SN : storable (aset user (Entry alg (hash_password alg salt password) salt) t)) by (apply storable_aset; auto).
      assert (CN : forall u, In u (keys (aset user (Entry alg (hash_password alg salt password) salt) t)) -> ~ In ":" u).
      { intros u IU. apply in_keys_aset in IU. destruct IU as [->|IU]; [exact CU|now apply CF]. }
      destruct (cut_file _ _ _ SN CN L v e' G) as (e & A & S). destruct (text_eqb_spec v user) as [->|NE].
      + rewrite aget_aset_eq in A. injection A as <-. right. auto.
      + rewrite aget_aset_ne in A by exact NE. left. exists e. auto.
  Qed.
  Lemma remove_cut file t user e0 new c t' :
    load_passwords file = Some t -> colon_free t -> aget user t = Some e0 -> remove_password file user = Some new -> interrupted file new c -> load_passwords c = Some t' ->
    forall v e', aget v t' = Some e' -> exists e, aget v t = Some e /\ (e' = e \/ v <> user /\ shortened e' e).
  Proof.
    intros HT CF AU I [->|(k & ->)] L v e' G.
    - exists e'. split; [congruence|auto].
    - unfold remove_password in I. rewrite HT, AU in I. injection I as <-. pose proof (load_storable _ _ HT) as ST.
      assert (CN : forall u, In u (keys (adel user t)) -> ~ In ":" u) by (intros u IU; apply CF; eapply in_keys_adel_sub; eauto).
      destruct (cut_file _ _ _ (storable_adel t user ST) CN L v e' G) as (e & A & S). destruct (text_eqb_spec v user) as [->|NE].
      + rewrite aget_adel_eq in A by apply ST. discriminate.
      + rewrite aget_adel_ne in A by exact NE. eauto.
  Qed.

  (** A plain digest of the wrong length accepts no password. *)
  Lemma plain_whole e' e password : (forall s, List.length (sha256 s) = 32) -> (forall s, List.length (sha512 s) = 64) ->
    match en_alg e with Sha256 => List.length (en_hash e) = 32 | Sha512 => List.length (en_hash e) = 64 | _ => False end ->
    shortened e' e -> right_password sha256 sha512 pbkdf2 e' password -> e' = e.
  Proof.
    intros A B L (EA & ES & r & EH) R. unfold right_password in R. rewrite EA in R. destruct e as [alg h s], e' as [alg' h' s']. cbn [en_alg en_hash en_salt] in *. subst alg' s' h.
    assert (Z : r = []).
    { destruct alg; try contradiction; rewrite app_length, R in L; rewrite ?A, ?B in L; destruct r; auto; cbn in L; lia. }
    subst r. now rewrite app_nil_r.
  Qed.
End Commands.
