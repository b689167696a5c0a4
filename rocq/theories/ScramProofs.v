From Coq Require Import List Bool Arith NArith Ascii String Lia.
From Coq Require Import ZifyBool ZifyNat ZifyN.
From Verif Require Import Base BaseLemmas TextModel TextSpec TextProofs Utf8Proofs ScramModel ScramSpec.
Import ListNotations.
Local Open Scope char_scope.

Lemma next_field_some p parts v r : next_field p parts = Some (v, r) <-> parts = (p ++ v)%list :: r.
Proof.
  unfold next_field. destruct parts as [|x parts]; [split; discriminate|]. destruct (after_prefix p x) as [t|] eqn:E.
  - apply after_prefix_some in E. subst x. split; [intros H; injection H as -> ->; reflexivity|]. intros H. injection H as H ->. apply app_inv_head in H. now subst.
  - split; [discriminate|]. intros H. injection H as -> ->. assert (A := proj2 (after_prefix_some p (p ++ v) v) eq_refl). congruence.
Qed.
(** Parts after a field: the rest of the message. *)
Definition tail_text (parts : list text) : text := match parts with [] => [] | _ => "," :: join "," parts end.
Lemma join_tail x parts : join "," (x :: parts) = (x ++ tail_text parts)%list.
Proof. destruct parts; [cbn; now rewrite app_nil_r|reflexivity]. Qed.
Lemma tail_ext parts : extension (tail_text parts).
Proof. destruct parts; [now left|right; eexists; reflexivity]. Qed.
Lemma split_ext x e : ~ In "," x -> extension e -> exists parts, split "," (x ++ e) = x :: parts.
Proof.
  intros N [->|(r & ->)]; [rewrite app_nil_r, split_nosep by exact N; eauto|rewrite split_app by exact N; eauto].
Qed.
Lemma no_comma_app (p v : text) : ~ In "," (p ++ v)%list -> ~ In "," v.
Proof. intros N I. apply N, in_app_iff. now right. Qed.

Lemma parse_final_iff d g n p : parse_client_final d = Some (g, n, p) <->
  ~ In "," g /\ ~ In "," n /\ ~ In "," p /\ exists ext, extension ext /\ d = (lit "c=" ++ g ++ lit ",r=" ++ n ++ lit ",p=" ++ p ++ ext)%list.
Proof.
  unfold parse_client_final. split.
  - destruct (next_field (lit "c=") (split "," d)) as [(g', r1)|] eqn:E1; [|discriminate]. apply next_field_some in E1.
    destruct (next_field (lit "r=") r1) as [(n', r2)|] eqn:E2; [|discriminate]. apply next_field_some in E2. subst r1.
    destruct (next_field (lit "p=") r2) as [(p', r3)|] eqn:E3; [|discriminate]. apply next_field_some in E3. subst r2.
    intros H. injection H as -> -> ->. assert (F := split_parts "," d). assert (J := split_join "," d). rewrite E1 in *.
    inversion F as [|x0 l0 F1 F']; subst. inversion F' as [|x1 l1 F2 F'']; subst. inversion F'' as [|x2 l2 F3 _]; subst.
    split; [(intros K; apply F1; right; right; exact K)|]. split; [(intros K; apply F2; right; right; exact K)|]. split; [(intros K; apply F3; right; right; exact K)|].
    exists (tail_text r3). split; [apply tail_ext|]. rewrite join_cons by discriminate. rewrite join_cons by discriminate. rewrite join_tail.
    cbn [lit app]. rewrite <- ?app_assoc. reflexivity.
  - intros (NG & NN & NP & ext & X & ->).
    change (lit "c=" ++ g ++ lit ",r=" ++ n ++ lit ",p=" ++ p ++ ext)%list with ("c" :: "=" :: g ++ "," :: lit "r=" ++ n ++ "," :: (lit "p=" ++ p ++ ext))%list.
    replace ("c" :: "=" :: g ++ "," :: lit "r=" ++ n ++ "," :: (lit "p=" ++ p ++ ext))%list with ((lit "c=" ++ g) ++ "," :: (lit "r=" ++ n) ++ "," :: (lit "p=" ++ p) ++ ext)%list
      by (cbn [lit app]; rewrite <- ?app_assoc; reflexivity).
    rewrite split_app by (intros [K|[K|K]]; [discriminate K|discriminate K|contradiction]).
    rewrite split_app by (intros [K|[K|K]]; [discriminate K|discriminate K|contradiction]).
    destruct (split_ext (lit "p=" ++ p)%list ext) as (parts & ->); [intros [K|[K|K]]; [discriminate K|discriminate K|contradiction]|exact X|].
    rewrite (proj2 (next_field_some _ _ g ((lit "r=" ++ n)%list :: (lit "p=" ++ p)%list :: parts)) eq_refl).
    rewrite (proj2 (next_field_some _ _ n ((lit "p=" ++ p)%list :: parts)) eq_refl).
    now rewrite (proj2 (next_field_some _ _ p parts) eq_refl).
Qed.

Lemma decode_first_iff d m : decode_client_first d = Some m <->
  exists flag az name nonce, (flag = lit "n" \/ flag = lit "y") /\ first_message d flag az name nonce /\ m = SPassword name az nonce.
Proof.
  unfold decode_client_first. split.
  - assert (F := split_parts "," d). assert (J := split_join "," d). destruct (split "," d) as [|flag parts]; [discriminate|].
    destruct (text_eqb flag (lit "n") || text_eqb flag (lit "y"))%bool eqn:EF; [|discriminate]. destruct parts as [|p parts1]; [discriminate|].
    assert (FL : flag = lit "n" \/ flag = lit "y").
    { apply orb_true_iff in EF. destruct EF as [EF|EF]; [left|right]; match type of EF with text_eqb ?a ?b = _ => destruct (text_eqb_spec a b); [assumption|discriminate] end. }
    set (az := match p with [] => Some None | _ => match after_prefix (lit "a=") p with Some z => Some (Some z) | None => None end end).
    destruct az as [authzid|] eqn:EA; [|discriminate].
    destruct (next_field (lit "n=") parts1) as [(name, r1)|] eqn:E1; [|discriminate]. apply next_field_some in E1. subst parts1.
    destruct (next_field (lit "r=") r1) as [(nonce, r2)|] eqn:E2; [|discriminate]. apply next_field_some in E2. subst r1.
    intros H. injection H as <-. exists flag, authzid, name, nonce. split; [exact FL|]. split; [|reflexivity].
    inversion F as [|x0 l0 F0 F']; subst. inversion F' as [|x1 l1 F1 F'']; subst. inversion F'' as [|x2 l2 F2 F3']; subst. inversion F3' as [|x3 l3 F3 _]; subst.
    assert (PA : p = match authzid with Some z => (lit "a=" ++ z)%list | None => [] end).
    { unfold az in EA. destruct p as [|x p]; [now injection EA as <-|]. destruct (after_prefix (lit "a=") (x :: p)) as [z|] eqn:EZ; [|discriminate].
      injection EA as <-. now apply after_prefix_some in EZ. }
    exists (tail_text r2). split; [apply tail_ext|]. split; [(intros K; apply F2; right; right; exact K)|]. split; [(intros K; apply F3; right; right; exact K)|].
    split; [destruct authzid as [z|]; [subst p; (intros K; apply F1; right; right; exact K)|exact I]|].
    destruct authzid as [z|]; subst p; (rewrite join_cons by discriminate); (rewrite join_cons by discriminate); (rewrite join_cons by discriminate); rewrite join_tail;
      cbn [lit app]; rewrite <- ?app_assoc; reflexivity.
  - intros (flag & az & name & nonce & FL & (ext & X & NN & NO & NZ & ->) & ->).
    replace ((lit "n=" ++ name ++ lit ",r=" ++ nonce) ++ ext)%list with ((lit "n=" ++ name) ++ "," :: (lit "r=" ++ nonce) ++ ext)%list
      by (cbn [lit app]; rewrite <- ?app_assoc; reflexivity).
    rewrite split_app by (destruct FL as [-> | ->]; cbn; intuition discriminate).
    rewrite split_app. 2:{ destruct az as [z|]; [|intros []]. intros [K|[K|K]]; [discriminate K|discriminate K|contradiction]. }
    rewrite split_app by (intros [K|[K|K]]; [discriminate K|discriminate K|contradiction]).
    destruct (split_ext (lit "r=" ++ nonce)%list ext) as (parts & ->); [intros [K|[K|K]]; [discriminate K|discriminate K|contradiction]|exact X|].
    replace (text_eqb flag (lit "n") || text_eqb flag (lit "y"))%bool with true by (destruct FL as [-> | ->]; reflexivity).
    rewrite (proj2 (next_field_some _ _ name ((lit "r=" ++ nonce)%list :: parts)) eq_refl).
    rewrite (proj2 (next_field_some _ _ nonce parts) eq_refl).
    destruct az as [z|]; [|reflexivity]. cbn [lit app].
    change ("a" :: "=" :: z) with (lit "a=" ++ z)%list. rewrite (proj2 (after_prefix_some _ _ z) eq_refl). reflexivity.
Qed.

Lemma b64_no_comma pad s : ~ In "," (b64_encode pad s).
Proof.
  destruct pad; intros I; [destruct (b64_pad_chars s _ I) as [K|K]; [now apply K|discriminate]|now apply (b64_chars s _ I)].
Qed.
Definition good_samples (l : list N) : Prop := Forall (fun x => (33 <= x < 125)%N) l.
Lemma nonce_no_comma l : good_samples l -> ~ In "," (nonce_of l).
Proof.
  intros F I. unfold nonce_of in I. apply in_map_iff in I. destruct I as (x & E & I).
  assert (G : (33 <= x < 125)%N). { unfold good_samples in F. rewrite Forall_forall in F. apply F. rewrite <- (firstn_skipn nonce_length l). apply in_app_iff. now left. }
  apply (f_equal code) in E. unfold nonce_char in E. change (code ",") with 44%N in E. destruct (N.ltb_spec 43 x) as [L|L]; rewrite code_byte in E by lia; lia.
Qed.

Lemma xor_eq a : forall b, xor a b = xor_text a b.
Proof. induction a as [|x a IH]; intros [|y b]; try reflexivity. cbn [xor]. now rewrite xor_byte_eq, IH. Qed.

Section S.
  Variable hmac : text -> text -> text.
  Variable sha256 : text -> text.
  Variable pbkdf2 : N -> text -> text -> text.

  Lemma find_proofs_eq gs2 bare sf salted nonce : find_proofs hmac sha256 gs2 bare sf salted nonce =
    (rfc_proof hmac sha256 salted (auth_message bare sf gs2 nonce), rfc_signature hmac salted (auth_message bare sf gs2 nonce)).
  Proof. unfold find_proofs, rfc_proof. rewrite xor_eq. reflexivity. Qed.

  Definition server_first_text (nonce salt : text) (iterations : N) : text :=
    (lit "r=" ++ nonce ++ lit ",s=" ++ b64_encode true salt ++ lit ",i=" ++ show iterations)%list.

  Lemma serve_first_iff users samples d w sf : serve_first users samples d = Some (w, sf) <->
    exists flag az name nonce u, (flag = lit "n" \/ flag = lit "y") /\ first_message d flag az name nonce /\ aget name users = Some u /\
      sf = server_first_text (nonce ++ nonce_of samples) (su_salt u) (su_iterations u) /\
      w = Waiting (su_hash u) (nonce ++ nonce_of samples) (gs2_header az) (lit "n=" ++ name ++ lit ",r=" ++ nonce) sf name az.
  Proof.
    unfold serve_first. split.
    - destruct (decode_client_first d) as [m|] eqn:E; [|discriminate]. apply decode_first_iff in E. destruct E as (flag & az & name & nonce & FL & FM & ->).
      destruct (aget name users) as [u|] eqn:G; [|discriminate]. cbn [encode_server_first]. intros H. injection H as <- <-.
      exists flag, az, name, nonce, u. auto 6.
    - intros (flag & az & name & nonce & u & FL & FM & G & -> & ->).
      rewrite (proj2 (decode_first_iff d (SPassword name az nonce))) by (exists flag, az, name, nonce; auto). rewrite G. reflexivity.
  Qed.

  Lemma serve_final_iff w d msg : ~ In "," (w_nonce w) -> serve_final hmac sha256 w d = Some (true, msg) <->
    (w_authzid w = None \/ w_authzid w = Some (w_authcid w)) /\
    (exists ext, extension ext /\ d = (lit "c=" ++ b64_encode true (w_gs2 w) ++ lit ",r=" ++ w_nonce w ++ lit ",p=" ++
       b64_encode true (rfc_proof hmac sha256 (w_hash w) (auth_message (w_bare w) (w_first w) (w_gs2 w) (w_nonce w))) ++ ext)%list) /\
    msg = (lit "v=" ++ b64_encode true (rfc_signature hmac (w_hash w) (auth_message (w_bare w) (w_first w) (w_gs2 w) (w_nonce w))))%list.
  Proof.
    intros NC. unfold serve_final, decode_client_final. cbn [snd]. rewrite find_proofs_eq.
    set (A := auth_message _ _ _ _). split.
    - destruct (parse_client_final d) as [((g, n), p)|] eqn:E; [|discriminate]. apply parse_final_iff in E. destruct E as (NG & NN & NP & ext & X & ->).
      destruct (text_eqb_spec (b64_encode true (w_gs2 w)) g) as [<-|]; [|discriminate]. cbn [negb].
      destruct (text_eqb_spec n (w_nonce w)) as [->|]; [|discriminate]. cbn [negb].
      destruct (b64_decode true p) as [bytes|] eqn:ED; [|discriminate]. destruct (text_eqb_spec bytes (rfc_proof hmac sha256 (w_hash w) A)) as [->|]; [|discriminate]. cbn [negb].
      apply encode_decode in ED. subst p. unfold opt_text_eqb. destruct (w_authzid w) as [z|].
      + destruct (text_eqb_spec (w_authcid w) z) as [<-|]; [|discriminate]. cbn [negb]. intros H. injection H as <-. split; [now right|]. split; [|reflexivity]. exists ext. now split.
      + cbn [negb]. intros H. injection H as <-. split; [now left|]. split; [|reflexivity]. exists ext. now split.
    - intros (AZ & (ext & X & ->) & ->).
      rewrite (proj2 (parse_final_iff _ (b64_encode true (w_gs2 w)) (w_nonce w) (b64_encode true (rfc_proof hmac sha256 (w_hash w) A)))).
      2:{ split; [apply b64_no_comma|]. split; [exact NC|]. split; [apply b64_no_comma|]. exists ext. now split. }
      destruct (text_eqb_spec (b64_encode true (w_gs2 w)) (b64_encode true (w_gs2 w))) as [_|K]; [|congruence]. cbn [negb].
      destruct (text_eqb_spec (w_nonce w) (w_nonce w)) as [_|K]; [|congruence]. cbn [negb]. rewrite decode_encode.
      destruct (text_eqb_spec (rfc_proof hmac sha256 (w_hash w) A) (rfc_proof hmac sha256 (w_hash w) A)) as [_|K]; [|congruence]. cbn [negb].
      unfold opt_text_eqb. destruct AZ as [-> | ->]; [reflexivity|]. destruct (text_eqb_spec (w_authcid w) (w_authcid w)) as [_|K]; [reflexivity|congruence].
  Qed.

  Lemma first_no_comma d flag az name nonce : first_message d flag az name nonce -> ~ In "," name /\ ~ In "," nonce.
  Proof. intros (e & _ & A & B & _). now split. Qed.
  Lemma no_comma_both (a b : text) : ~ In "," a -> ~ In "," b -> ~ In "," (a ++ b)%list.
  Proof. intros A B I. apply in_app_iff in I. tauto. Qed.

  (** ** Soundness *)
  Lemma sound users samples d1 w sf : good_samples samples -> serve_first users samples d1 = Some (w, sf) ->
    exists flag az name nonce u, (flag = lit "n" \/ flag = lit "y") /\ first_message d1 flag az name nonce /\ aget name users = Some u /\
      let full := (nonce ++ nonce_of samples)%list in
      let msg := auth_message (lit "n=" ++ name ++ lit ",r=" ++ nonce) sf (gs2_header az) full in
      sf = server_first_text full (su_salt u) (su_iterations u) /\
      forall d2 answer, serve_final hmac sha256 w d2 = Some (true, answer) <->
        (az = None \/ az = Some name) /\
        (exists ext, extension ext /\ d2 = (lit "c=" ++ b64_encode true (gs2_header az) ++ lit ",r=" ++ full ++ lit ",p=" ++
           b64_encode true (rfc_proof hmac sha256 (su_hash u) msg) ++ ext)%list) /\
        answer = (lit "v=" ++ b64_encode true (rfc_signature hmac (su_hash u) msg))%list.
  Proof.
    intros GS H. apply serve_first_iff in H. destruct H as (flag & az & name & nonce & u & FL & FM & G & E & ->).
    exists flag, az, name, nonce, u. split; [exact FL|]. split; [exact FM|]. split; [exact G|]. cbn zeta. split; [exact E|]. intros d2 answer.
    rewrite serve_final_iff; [reflexivity|]. cbn [w_nonce]. apply no_comma_both; [apply (first_no_comma _ _ _ _ _ FM)|now apply nonce_no_comma].
  Qed.

  (** ** Completeness *)
  Lemma complete_rfc users samples name u nonce az : good_samples samples -> aget name users = Some u -> ~ In "," name -> ~ In "," nonce ->
    az = None \/ az = Some name ->
    let bare := (lit "n=" ++ name ++ lit ",r=" ++ nonce)%list in
    let full := (nonce ++ nonce_of samples)%list in
    let sf := server_first_text full (su_salt u) (su_iterations u) in
    let msg := auth_message bare sf (gs2_header az) full in
    exists w, serve_first users samples (gs2_header az ++ bare) = Some (w, sf) /\
      serve_final hmac sha256 w (lit "c=" ++ b64_encode true (gs2_header az) ++ lit ",r=" ++ full ++ lit ",p=" ++ b64_encode true (rfc_proof hmac sha256 (su_hash u) msg))%list =
      Some (true, (lit "v=" ++ b64_encode true (rfc_signature hmac (su_hash u) msg))%list).
  Proof.
    intros GS G NN NO AZ bare full sf msg. eexists. split.
    - apply serve_first_iff. exists (lit "n"), az, name, nonce, u. split; [now left|]. split; [|split; [exact G|split; reflexivity]].
      exists []. split; [now left|]. split; [exact NN|]. split; [exact NO|]. split; [destruct AZ as [-> | ->]; [exact I|exact NN]|].
      unfold bare. rewrite app_nil_r. destruct AZ as [-> | ->]; cbn [gs2_header lit app]; [reflexivity|]. rewrite <- !app_assoc. reflexivity.
    - apply serve_final_iff; cbn [w_nonce w_authzid w_authcid w_gs2 w_hash w_bare w_first]; [now apply no_comma_both; [|apply nonce_no_comma]|].
      split; [exact AZ|]. split; [|reflexivity]. exists []. split; [now left|]. rewrite app_nil_r. reflexivity.
  Qed.

  (** The client of this crate *)
  Lemma client_name_same s : client_name s = s.
  Proof.
    unfold client_name. destruct (existsb _ s) eqn:E; [reflexivity|].
    assert (A : forall c by_ t, ~ In c t -> replace c by_ t = t).
    { intros c by_ t. induction t as [|x t IH]; intros N; [reflexivity|]. cbn. destruct (Ascii.eqb_spec x c) as [->|]; [destruct N; now left|]. rewrite IH; [reflexivity|]. intros I. apply N. now right. }
    assert (N : ~ In "," s /\ ~ In "=" s).
    { split; intros I; assert (T : existsb (fun c => Ascii.eqb c "," || Ascii.eqb c "=") s = true) by (apply existsb_exists; eexists; split; [exact I|reflexivity]); congruence. }
    rewrite (A "," _ s) by apply N. apply A, N.
  Qed.
  Lemma parse_server_first_ok nonce salt it : ~ In "," nonce -> (0 < it <= 4294967295)%N -> parse_server_first (server_first_text nonce salt it) = Some (nonce, salt, it).
  Proof.
    intros NN B. unfold parse_server_first, server_first_text. replace (Nat.ltb _ 2) with false by reflexivity.
    replace (lit "r=" ++ nonce ++ lit ",s=" ++ b64_encode true salt ++ lit ",i=" ++ show it)%list with ((lit "r=" ++ nonce) ++ "," :: (lit "s=" ++ b64_encode true salt) ++ "," :: (lit "i=" ++ show it))%list
      by (cbn [lit app]; rewrite <- ?app_assoc; reflexivity).
    assert (SH : ~ In "," (show it)).
    { intros I. destruct (show_chars it _ I) as (d & L & E). apply (f_equal code) in E. rewrite digit_code in E by exact L. change (code ",") with 44%N in E. lia. }
    rewrite split_app by (intros [K|[K|K]]; [discriminate K|discriminate K|contradiction]).
    rewrite split_app by (intros [K|[K|K]]; [discriminate K|discriminate K|now apply b64_no_comma in K]).
    rewrite split_nosep by (intros [K|[K|K]]; [discriminate K|discriminate K|contradiction]).
    change (after_prefix (lit "m=") (lit "r=" ++ nonce)%list) with (@None text).
    rewrite (proj2 (next_field_some _ _ nonce [(lit "s=" ++ b64_encode true salt)%list; (lit "i=" ++ show it)%list]) eq_refl).
    rewrite (proj2 (next_field_some _ _ (b64_encode true salt) [(lit "i=" ++ show it)%list]) eq_refl). rewrite decode_encode.
    rewrite (proj2 (next_field_some _ _ (show it) []) eq_refl).
    rewrite (proj2 (parse_u32_spec (show it) it)). 2:{ split; [lia|]. exists 0%nat. now left. }
    destruct (N.eqb_spec it 0); [lia|reflexivity].
  Qed.

  Lemma complete users cs ss name password it salt az : good_samples cs -> good_samples ss ->
    aget name users = Some (ScramUser (pbkdf2 it salt password) it salt) -> (0 < it <= 4294967295)%N -> ~ In "," name -> az = None \/ az = Some name ->
    exists c1 d1 w sf c2 d2 answer,
      encode_client_first (client_new name password az cs) = (c1, Some d1) /\
      serve_first users ss d1 = Some (w, sf) /\
      decode_server_first hmac sha256 pbkdf2 c1 sf = (c2, Some d2) /\
      serve_final hmac sha256 w d2 = Some (true, answer) /\
      decode_server_final c2 answer = (CDone, CAccept) /\
      exists proof, d2 = (lit "c=" ++ b64_encode true (gs2_header az) ++ lit ",r=" ++ (nonce_of cs ++ nonce_of ss) ++ lit ",p=" ++ b64_encode true proof)%list.
  Proof.
    intros GC GS G B NN AZ. set (u := ScramUser _ _ _) in G. set (nonce := nonce_of cs).
    assert (NO : ~ In "," nonce) by now apply nonce_no_comma.
    destruct (complete_rfc users ss name u nonce az GS G NN NO AZ) as (w & F & L).
    set (bare := (lit "n=" ++ name ++ lit ",r=" ++ nonce)%list) in *. set (full := (nonce ++ nonce_of ss)%list) in *.
    set (sf := server_first_text full (su_salt u) (su_iterations u)) in *. cbn zeta in F, L.
    exists (CFirst (gs2_header az) password nonce bare), (gs2_header az ++ bare)%list, w, sf.
    eexists (CFinal (rfc_signature hmac (su_hash u) (auth_message bare sf (gs2_header az) full))), _, _.
    split; [cbn [encode_client_first client_new]; now rewrite client_name_same|]. split; [exact F|]. split; [|split; [exact L|split; [|eexists; reflexivity]]].
    - cbn [decode_server_first]. unfold sf at 1. rewrite parse_server_first_ok; [|now apply no_comma_both; [|apply nonce_no_comma]|exact B].
      unfold full at 1. rewrite (proj2 (after_prefix_some nonce _ (nonce_of ss)) eq_refl). rewrite find_proofs_eq. reflexivity.
    - cbn [decode_server_final lit app]. set (sig := rfc_signature _ _ _). f_equal.
      assert (K : match b64_encode true sig with c :: _ => cont c | [] => false end = false).
      { destruct (b64_encode true sig) as [|c r] eqn:E; [reflexivity|]. destruct (b64_pad_chars sig c) as [V|V]; [rewrite E; now left| |now subst c].
        assert (A : forall c, (fun c => match b64_val c with Some _ => negb (cont c) | None => true end) c = true) by (apply all_bytes_spec; vm_compute; reflexivity).
        specialize (A c). cbn beta in A. destruct (b64_val c); [|congruence]. now apply negb_true_iff. }
      rewrite K. change ("v" :: "=" :: b64_encode true sig) with (lit "v=" ++ b64_encode true sig)%list. rewrite (proj2 (after_prefix_some _ _ (b64_encode true sig)) eq_refl).
      rewrite decode_encode. destruct (text_eqb_spec sig sig); [reflexivity|congruence].
  Qed.

  (** The client accepts only the signature for its own password and messages. *)
  Lemma client_sound c1 gs2 password nonce bare sf c2 d2 answer : c1 = CFirst gs2 password nonce bare ->
    decode_server_first hmac sha256 pbkdf2 c1 sf = (c2, Some d2) ->
    exists full salt it, parse_server_first sf = Some (full, salt, it) /\ (exists r, full = (nonce ++ r)%list) /\
      (snd (decode_server_final c2 answer) = CAccept <->
       answer = (lit "v=" ++ b64_encode true (rfc_signature hmac (pbkdf2 it salt password) (auth_message bare sf gs2 full)))%list).
  Proof.
    intros -> H. cbn [decode_server_first] in H. destruct (parse_server_first sf) as [((full, salt), it)|]; [|discriminate].
    destruct (after_prefix nonce full) as [r|] eqn:EP; [|discriminate]. rewrite find_proofs_eq in H. injection H as <- _. apply after_prefix_some in EP.
    exists full, salt, it. split; [reflexivity|]. split; [eauto|]. set (sig := rfc_signature _ _ _). cbn [decode_server_final snd]. split.
    - destruct answer as [|a [|b r0]]; try discriminate. destruct (match r0 with c :: _ => cont c | [] => false end); [discriminate|].
      destruct (after_prefix (lit "v=") (a :: b :: r0)) as [v|] eqn:EV; [|discriminate]. apply after_prefix_some in EV. rewrite EV.
      destruct (b64_decode true v) as [s|] eqn:ED; [|discriminate]. destruct (text_eqb_spec sig s) as [<-|]; [|discriminate]. apply encode_decode in ED. now rewrite ED.
    - intros ->. cbn [lit app].
      assert (K : match b64_encode true sig with c :: _ => cont c | [] => false end = false).
      { destruct (b64_encode true sig) as [|c r'] eqn:E; [reflexivity|]. destruct (b64_pad_chars sig c) as [V|V]; [rewrite E; now left| |now subst c].
        assert (A : forall c, (fun c => match b64_val c with Some _ => negb (cont c) | None => true end) c = true) by (apply all_bytes_spec; vm_compute; reflexivity).
        specialize (A c). cbn beta in A. destruct (b64_val c); [|congruence]. now apply negb_true_iff. }
      rewrite K. change ("v" :: "=" :: b64_encode true sig) with (lit "v=" ++ b64_encode true sig)%list. rewrite (proj2 (after_prefix_some _ _ (b64_encode true sig)) eq_refl).
      rewrite decode_encode. destruct (text_eqb_spec sig sig); [reflexivity|congruence].
  Qed.

  (** ** No replay *)
  Lemma final_nonce w d msg : serve_final hmac sha256 w d = Some (true, msg) -> exists g p, parse_client_final d = Some (g, w_nonce w, p).
  Proof.
    unfold serve_final, decode_client_final. cbn [snd]. rewrite find_proofs_eq. destruct (parse_client_final d) as [((g, n), p)|]; [|discriminate].
    destruct (text_eqb _ g); [|discriminate]. cbn [negb]. destruct (text_eqb_spec n (w_nonce w)) as [->|]; [|discriminate]. eauto.
  Qed.
  Lemma no_replay users1 users2 s1 s2 d1 d1' w1 w2 f1 f2 d2 m1 m2 :
    serve_first users1 s1 d1 = Some (w1, f1) -> serve_first users2 s2 d1' = Some (w2, f2) ->
    serve_final hmac sha256 w1 d2 = Some (true, m1) -> serve_final hmac sha256 w2 d2 = Some (true, m2) ->
    List.length s1 = nonce_length -> List.length s2 = nonce_length -> good_samples s1 -> good_samples s2 -> s1 = s2.
  Proof.
    intros A B C D L1 L2 G1 G2. apply serve_first_iff in A. destruct A as (? & ? & ? & n1 & ? & _ & _ & _ & _ & ->).
    apply serve_first_iff in B. destruct B as (? & ? & ? & n2 & ? & _ & _ & _ & _ & ->).
    apply final_nonce in C. destruct C as (? & ? & C). apply final_nonce in D. destruct D as (? & ? & D). rewrite C in D. injection D as _ D _. cbn [w_nonce] in D.
    assert (LEN : forall s, List.length s = nonce_length -> List.length (nonce_of s) = nonce_length) by (intros s L; unfold nonce_of; rewrite map_length, firstn_length; lia).
    assert (E : nonce_of s1 = nonce_of s2).
    { apply (f_equal (@rev ascii)) in D. rewrite !rev_app_distr in D.
      assert (R : forall (a b c d : text), List.length a = List.length b -> (a ++ c = b ++ d)%list -> a = b).
      { induction a as [|q a IH]; intros [|q2 b] c d LL EE; try discriminate LL; [reflexivity|]. cbn in EE. injection EE as -> EE. f_equal. eapply IH; [|exact EE]. now injection LL. }
      assert (Q := R (rev (nonce_of s1)) (rev (nonce_of s2)) _ _ ltac:(rewrite !rev_length, (LEN s1 L1), (LEN s2 L2); reflexivity) D).
      apply (f_equal (@rev ascii)) in Q. now rewrite !rev_involutive in Q. }
    unfold nonce_of in E. rewrite !firstn_all2 in E by lia. clear -E G1 G2. revert s2 E G2. induction s1 as [|x s1 IH]; intros [|y s2] E G2; try discriminate; [reflexivity|].
    inversion G1 as [|a1 b1 X G1']; subst. inversion G2 as [|a2 b2 Y G2']; subst. cbn [map] in E. injection E as E E2. f_equal; [|now apply IH].
    unfold nonce_char in E. apply (f_equal code) in E. destruct (N.ltb_spec 43 x), (N.ltb_spec 43 y); rewrite !code_byte in E by lia; lia.
  Qed.
End S.
