(** Proofs for C67. *)
From Coq Require Import List Bool Arith NArith Ascii String Lia.
From Coq Require Import ZifyBool ZifyNat ZifyN.
From Verif Require Import Base BaseLemmas MsgModel TopicModel PendingModel AliasModel OutModel GlobModel Sess5Model Sess3Model ConnModel
  BrokerModel TextModel TextSpec TextProofs Utf8Proofs PassModel PassSpec PassProofs ScramModel ScramSpec ScramProofs ConfModel ConnSpec ConnProofs ConnLast
  AdmitSpec.
Import ListNotations.
Local Open Scope N_scope.

Lemma bad_topic_iff s : (String.eqb s "" || starts_with_dollar s)%bool = true <-> bad_topic s.
Proof.
  unfold bad_topic. destruct s as [|x r]; cbn [starts_with_dollar].
  - split; [now left|reflexivity].
  - cbn [String.eqb orb]. rewrite Ascii.eqb_eq. split.
    + intros ->. right. now exists r.
    + intros [H|(q & H)]; [discriminate H|]. now injection H.
Qed.
Lemma iff_false (b : bool) (P : Prop) : (b = true <-> P) -> b = false -> ~ P.
Proof. intros H F p. apply H in p. congruence. Qed.

Section Admit.
  Variable sha256 sha512 : text -> text.
  Variable pbkdf2 : bool -> N -> text -> text -> nat -> text.
  Variable hmac : text -> text -> text.
  Notation phase5 := (phase5 sha256 sha512 pbkdf2 hmac).
  Notation phase3 := (phase3 sha256 sha512 pbkdf2).
  Variable c : full_config.
  Variable t : table.
  Notation entitled := (entitled sha256 sha512 pbkdf2 c t).
  Notation answer3 := (answer3 sha256 sha512 pbkdf2 c t).

  Lemma det3 p a b : answer3 p a -> answer3 p b -> a = b.
  Proof. intros [] []; try reflexivity; tauto. Qed.

  Lemma admit3_some uuid now p : exists a, answer3 p a /\ shows3 uuid p (phase3 c t uuid now p) a.
  Proof.
    unfold ConfModel.phase3, handle_connect3.
    pose proof (password_ok_right sha256 sha512 pbkdf2 c t (c3_user p) (c3_pass p)) as PW. fold (entitled (c3_user p) (c3_pass p)) in PW.
    set (i1 := (c3_v310 p && _)%bool). set (i2 := (_ && _ && _)%bool).
    assert (BI : (i1 || i2)%bool = true <-> bad_identifier c p).
    { unfold i1, i2, bad_identifier. change (ac_v310_len (auth_of c)) with (fc_v310_len c). unfold slen. destruct (c3_v310 p); cbn [andb negb orb].
      - rewrite orb_false_r, orb_true_iff, andb_true_iff, String.eqb_eq. rewrite N.ltb_lt.
        split; (intros [H|(H & L)]; [now left|right; split; [exact H|lia]]).
      - rewrite andb_true_iff, String.eqb_eq, negb_true_iff. reflexivity. }
    destruct (i1 || i2)%bool eqn:EI.
    { exists (Refusal 2). split; [apply A3_identifier; now apply BI|]. cbn [shows3]. destruct i1; [reflexivity|]. cbn [orb] in EI. now rewrite EI. }
    pose proof (iff_false _ _ BI eq_refl) as NI. apply orb_false_iff in EI. destruct EI as (-> & ->).
    destruct (password_ok _ _ _ _) eqn:EP; cbn [negb].
    2:{ exists (Refusal 4). split; [apply A3_password; [exact NI|now apply (iff_false _ _ PW)]|reflexivity]. }
    assert (EN : entitled (c3_user p) (c3_pass p)) by (now apply PW).
    set (bw := match c3_will p with Some _ => _ | None => _ end).
    assert (BW : bw = true <-> bad_will3 p).
    { unfold bw, bad_will3. destruct (c3_will p) as [w|].
      - rewrite bad_topic_iff. split; [intros H; now exists w|]. intros (w' & H & B). injection H as <-. exact B.
      - split; [discriminate|]. intros (w & H & _). discriminate H. }
    destruct bw eqn:EB.
    - exists Silence. split; [apply A3_will; auto; now apply BW|reflexivity].
    - exists Served. split; [apply A3_good; auto; now apply (iff_false _ _ BW)|]. eexists. split; [reflexivity|]. repeat split; reflexivity.
  Qed.

  Lemma shows3_det uuid p r a b : shows3 uuid p r a -> shows3 uuid p r b -> a = b.
  Proof.
    destruct a, b; cbn [shows3]; try reflexivity; try tauto; try congruence.
    - intros A (s & B & _). congruence.
    - intros A (s & B & _). congruence.
    - intros (s & B & _) A. congruence.
    - intros (s & B & _) A. congruence.
  Qed.

  Lemma admit3 uuid now p a : answer3 p a <-> shows3 uuid p (phase3 c t uuid now p) a.
  Proof.
    destruct (admit3_some uuid now p) as (b & B & S). split; intros H.
    - now rewrite (det3 p a b H B).
    - now rewrite (shows3_det _ _ _ _ _ H S).
  Qed.

  Lemma glue3 uuid now p s : phase3 c t uuid now p = PGo3 s -> s = connect_sess3 (fc_cfg c) uuid now p.
  Proof.
    unfold ConfModel.phase3, handle_connect3.
    repeat match goal with |- (if ?x then _ else _) = _ -> _ => destruct x; [discriminate|] end. intros H. injection H as <-. reflexivity.
  Qed.
  Lemma glue5 samples uuid now ask p l acts pkts s present :
    phase5 c t samples uuid now ask p l = (acts, pkts, COnline s present) ->
    exists rc data k, ask (if String.eqb (co_ident p) "" then uuid else co_ident p) = Some rc /\ In (AConnack k) acts /\ ka_present k = present /\
      session_connect5 unit (fc_cfg c) now rc data (connect_conn5 (fc_cfg c) uuid now p) = Some (s, k).
  Proof.
    intros H. unfold ConfModel.phase5 in H.
    destruct (phase_shape waiting (password_check sha256 sha512 pbkdf2 t) (scram_first_of (fc_users c) samples) (scram_final_of sha256 hmac) (fun d => utf8 (lit d)) (fc_cfg c) (auth_of c) uuid now ask p l)
      as [(A & _ & pre & data & cn & NP & C1 & C2 & C3 & C4 & E)|((_ & Q) & _)].
    2:{ rewrite H in Q. cbn [snd] in Q. destruct Q; discriminate. }
    rewrite E in H. unfold finish5 in H. destruct (ask (s_ident (cn_s cn))) as [rc|] eqn:EA; [|discriminate].
    destruct (session_connect5 _ _ _ _ _ _) as [(s', k)|] eqn:SC; [|discriminate].
    destruct (s_connected s') eqn:CO; [|discriminate]. injection H as <- <- -> <-.
    exists rc, data, k. split; [rewrite <- EA, C1; reflexivity|]. split; [apply in_app_iff; right; now left|]. split; [reflexivity|].
    rewrite <- SC. unfold session_connect5. rewrite C1, C2, C3, C4. reflexivity.
  Qed.

  (** ** v5 *)
  Variable samples : list N.
  Hypothesis GS : good_samples samples.
  Hypothesis V : is_valid c = true.
  Notation answer5 := (answer5 sha256 sha512 pbkdf2 hmac c t samples).
  Notation exchange_answer := (exchange_answer sha256 hmac c samples).
  Notation proof_right := (proof_right sha256 hmac c samples).

  Lemma final_det p k a b : final_answer c p k a -> final_answer c p k b -> a = b.
  Proof. intros [] []; try reflexivity; tauto. Qed.
  Lemma exchange_det p k l a b : exchange_answer p k l a -> exchange_answer p k l b -> a = b.
  Proof.
    intros [|x l' N|d l' N|d l' a' R F] H; inversion H; subst; try reflexivity; try tauto; try (exfalso; eapply N; reflexivity);
      try (exfalso; match goal with N : forall d, _ <> _ |- _ => eapply N; reflexivity end).
    eapply final_det; eauto.
  Qed.
  Lemma det5 p k l a b : answer5 p k l a -> answer5 p k l b -> a = b.
  Proof.
    intros [] []; try reflexivity;
      repeat match goal with
             | H : challenged _ _ _ _ _ _ |- _ => destruct H as (? & (? & ? & ?) & ?)
             | H : sound_connect _ _ _ _ _ _ |- _ => destruct H as (? & ? & ?)
             end; try tauto; try congruence;
      try (match goal with A : co_method p = Some ?x, B : co_method p = Some ?y |- _ => assert (x = y) by congruence; subst; tauto end).
    - eapply final_det; eauto.
    - eapply exchange_det; eauto.
  Qed.

  Lemma shows5_det r a b : shows5 r a -> shows5 r b -> a = b.
  Proof.
    destruct r as ((acts, pkts), e). intros (_ & u & x & E & FU & A) (_ & u' & x' & E' & FU' & B).
    assert (NA : forall (v : list cact5) y k, Forall is_auth v -> (v ++ [])%list = (y ++ [AConnack k])%list -> False).
    { intros v y k F EQ. rewrite app_nil_r in EQ. subst v. apply Forall_app in F. destruct F as (_ & F). inversion F; subst. contradiction. }
    destruct a, b; try reflexivity;
      repeat match goal with
             | H : _ /\ _ |- _ => destruct H
             | H : exists _, _ |- _ => destruct H
             end; subst; try discriminate; try congruence;
      try (exfalso; eapply NA; [|eassumption]; assumption); try (exfalso; eapply NA; [|symmetry; eassumption]; assumption).
    apply app_inj_tail in E'. destruct E' as (_ & E'). injection E' as ->. congruence.
  Qed.

  (** The end of the phase. *)
  Lemma finish_shows now ask data (cn : conn5 waiting) p : s_will (cn_s cn) = co_will p -> s_connected (cn_s cn) = false ->
    let '(acts, e) := finish5 waiting (fc_cfg c) now ask data cn in
    exists a, final_answer c p (ask (s_ident (cn_s cn)) <> None) a /\ shows5 (acts, [], e) a.
  Proof.
    intros W NC. unfold finish5. destruct (ask (s_ident (cn_s cn))) as [rc|].
    2:{ exists Silence. split; [apply F_registry; tauto|]. split; [reflexivity|]. exists [], []. split; [reflexivity|]. split; [constructor|now split]. }
    assert (KN : Some rc <> None) by discriminate.
    unfold session_connect5.
    set (sp := match rc with RcNew id => _ | RcPresent st => _ end).
    assert (SP : s_will (fst sp) = co_will p /\ s_connected (fst sp) = false).
    { unfold sp. destruct rc as [id|st]; [now split|]. destruct (negb (s_clean (cn_s cn))); now split. }
    destruct sp as (s1, present). cbn [fst] in SP. destruct SP as (W1 & N1).
    cbn zeta. set (s3 := if cf_max_expiry (fc_cfg c) <? _ then _ else _).
    assert (S3 : s_will s3 = co_will p /\ s_connected s3 = false) by (unfold s3; destruct (cf_max_expiry (fc_cfg c) <? _); now split).
    destruct S3 as (W3 & N3). clearbody s3.
    destruct (valid_facts sha256 sha512 hmac c V) as (MQ & _).
    destruct (max_allowed_qos (fc_cfg c)) as [mq|] eqn:EM; [|congruence].
    assert (QN : qos_num mq = cf_max_qos (fc_cfg c)).
    { unfold max_allowed_qos in EM. destruct (cf_max_qos (fc_cfg c)) as [|[[]|[]|]]; try discriminate EM; injection EM as <-; reflexivity. }
    rewrite W3. set (code := will_code (fc_cfg c) mq (co_will p)).
    assert (C : (code = RC_retain_not_supported /\ will_kept_unavailable c p) \/
                (code = RC_qos_not_supported /\ ~ will_kept_unavailable c p /\ will_qos_unavailable c p) \/
                (code = RC_success /\ ~ will_kept_unavailable c p /\ ~ will_qos_unavailable c p)).
    { unfold code, will_code, will_kept_unavailable, will_qos_unavailable. destruct (co_will p) as [w|].
      - destruct (wl_retain w && negb (cf_retain (fc_cfg c)))%bool eqn:ER.
        + left. split; [reflexivity|]. apply andb_true_iff in ER. destruct ER as (E1 & E2). apply negb_true_iff in E2. exists w. auto.
        + right. assert (NK : ~ exists w0, Some w = Some w0 /\ wl_retain w0 = true /\ cf_retain (fc_cfg c) = false).
          { intros (w0 & H & R1 & R2). injection H as <-. rewrite R1, R2 in ER. discriminate ER. }
          unfold qos_leb. rewrite QN. destruct (N.leb_spec (qos_num (wl_qos w)) (cf_max_qos (fc_cfg c))) as [L|L]; cbn [negb].
          * right. split; [reflexivity|]. split; [exact NK|]. intros (w0 & H & Q). injection H as <-. lia.
          * left. split; [reflexivity|]. split; [exact NK|]. exists w. auto.
      - right. right. split; [reflexivity|]. split; intros (w & H & _); discriminate H. }
    destruct C as [(EC & K)|[(EC & NK & Q)|(EC & NK & NQ)]]; rewrite EC; cbn [N.eqb Pos.eqb RC_retain_not_supported RC_qos_not_supported RC_success].
    - rewrite N3. exists (Refusal 0x9A). split; [now apply F_retain|]. split; [reflexivity|]. eexists [], _. split; [reflexivity|]. split; [constructor|].
      split; [discriminate|]. split; [|reflexivity]. eexists. split; [reflexivity|]. reflexivity.
    - rewrite N3. exists (Refusal 0x9B). split; [now apply F_qos|]. split; [reflexivity|]. eexists [], _. split; [reflexivity|]. split; [constructor|].
      split; [discriminate|]. split; [|reflexivity]. eexists. split; [reflexivity|]. reflexivity.
    - exists Served. split; [now apply F_good|]. split; [reflexivity|]. eexists [], _. split; [reflexivity|]. split; [constructor|].
      split; [eexists; split; [reflexivity|reflexivity]|]. cbn. eexists _, _. reflexivity.
  Qed.

  Lemma refuse_shows code r (s : sess5) : code <> 0 -> shows5 ([AConnack (snd (error_connack code r s))], [], CFail) (Refusal code).
  Proof.
    intros N. split; [reflexivity|]. eexists [], _. split; [reflexivity|]. split; [constructor|]. split; [exact N|]. split; [|reflexivity]. eexists. split; reflexivity.
  Qed.

  (** The machine of the first message decides the final one as the standard says. *)
  Lemma final_iff d1 w sf d2 : serve_first (fc_users c) samples (lit d1) = Some (w, sf) ->
    (exists m, serve_final hmac sha256 w (lit d2) = Some (true, m)) <-> scram_right sha256 hmac (fc_users c) samples (lit d1) (lit d2).
  Proof.
    intros SF. split.
    - intros (msg & SL). destruct (sound hmac sha256 _ _ _ _ _ GS SF) as (flag & az & name & nonce & u & FL & FM & G & SFE & IFF).
      apply IFF in SL. destruct SL as (AZ & (ext & X & D2) & _).
      exists flag, az, name, nonce, u, ext. split; [exact FL|]. split; [exact FM|]. split; [exact G|]. split; [exact AZ|]. split; [exact X|].
      cbn zeta. rewrite D2, SFE. reflexivity.
    - intros (flag & az & name & nonce & u & ext & FL & FM & G & AZ & X & D2). cbn zeta in D2.
      assert (SF' : serve_first (fc_users c) samples (lit d1) =
        Some (Waiting (su_hash u) (nonce ++ nonce_of samples) (gs2_header az) (lit "n=" ++ name ++ lit ",r=" ++ nonce)
                (server_first_text (nonce ++ nonce_of samples) (su_salt u) (su_iterations u)) name az,
              server_first_text (nonce ++ nonce_of samples) (su_salt u) (su_iterations u))).
      { apply serve_first_iff. exists flag, az, name, nonce, u. auto 6. }
      rewrite SF' in SF. injection SF as <- _. eexists. apply serve_final_iff.
      + cbn [w_nonce]. apply (no_comma_both hmac sha256); [apply (first_no_comma _ _ _ _ _ FM)|now apply nonce_no_comma].
      + cbn [w_authzid w_authcid w_gs2 w_nonce w_hash w_bare w_first]. split; [exact AZ|]. split; [|reflexivity]. exists ext. split; [exact X|]. exact D2.
  Qed.

  Lemma opening_iff p : opening c p <-> exists d w f, co_data p = Some d /\ utf8 (lit d) = true /\ serve_first (fc_users c) samples (lit d) = Some (w, f).
  Proof.
    split.
    - intros (d & flag & az & name & nonce & D & U & FL & FM & G). destruct (aget name (fc_users c)) as [u|] eqn:EG; [|congruence].
      exists d. eexists _, _. split; [exact D|]. split; [now apply utf8_iff|]. apply serve_first_iff. exists flag, az, name, nonce, u. auto.
    - intros (d & w & f & D & U & SF). apply serve_first_iff in SF. destruct SF as (flag & az & name & nonce & u & FL & FM & G & _).
      exists d, flag, az, name, nonce. split; [exact D|]. split; [now apply utf8_iff|]. split; [exact FL|]. split; [exact FM|]. congruence.
  Qed.

  Lemma exchange_shows now ask l (cn : conn5 waiting) p d1 w f data :
    s_will (cn_s cn) = co_will p -> s_connected (cn_s cn) = false -> cn_method cn = co_method p -> co_method p <> None ->
    cn_auth cn = true -> cn_mach cn = Some w -> co_data p = Some d1 -> serve_first (fc_users c) samples (lit d1) = Some (w, f) ->
    let '(acts, pkts, e) := auth_loop5 waiting (scram_first_of (fc_users c) samples) (scram_final_of sha256 hmac) (fun d => utf8 (lit d)) 2 (fc_cfg c) now ask l cn in
    exists a, exchange_answer p (ask (s_ident (cn_s cn)) <> None) l a /\ shows5 (AAuth data :: acts, pkts, e) a.
  Proof.
    intros W NC ME MS AU MA D1 SF.
    assert (PRE : forall acts e a, shows5 (acts, [], e) a -> shows5 (AAuth data :: acts, [], e) a).
    { intros acts e a (_ & u & r & -> & FA & S). split; [reflexivity|]. exists (AAuth data :: u), r. split; [reflexivity|]. split; [now constructor|exact S]. }
    destruct l as [|x l].
    { cbn [auth_loop5]. exists Pending. split; [constructor|]. apply PRE. split; [reflexivity|]. exists [], []. split; [reflexivity|]. split; [constructor|now split]. }
    destruct x as [au|].
    2:{ cbn [auth_loop5]. exists (Refusal 0x82). split; [apply E_other; discriminate|]. apply PRE. now apply refuse_shows. }
    cbn [auth_loop5]. unfold handle_auth5. rewrite ME. destruct (co_method p) as [m|] eqn:EMP; [|congruence].
    assert (OE : opt_eqb (Some m) (au_method au) = true <-> au_method au = Some m).
    { unfold opt_eqb. destruct (au_method au) as [m'|]; [|split; discriminate]. rewrite String.eqb_eq. split; congruence. }
    destruct (opt_eqb (Some m) (au_method au)) eqn:EO; cbn [negb].
    2:{ exists (Refusal 0x82). split; [|apply PRE; now apply refuse_shows]. apply E_other. intros d H. injection H as ->. rewrite EMP in OE.
        assert (X : false = true) by (apply OE; reflexivity). discriminate X. }
    assert (EO' : au_method au = Some m) by (now apply OE). clear EO OE. rename EO' into EO.
    destruct (N.eqb_spec (au_code au) 0) as [E0|N0].
    { exists (Refusal 0x82). split; [|apply PRE; now apply refuse_shows]. apply E_other. intros d H. injection H as ->. discriminate E0. }
    destruct (N.eqb_spec (au_code au) 24) as [E24|N24].
    2:{ rewrite AU. exists (Refusal 0x82). split; [|apply PRE; now apply refuse_shows]. apply E_other. intros d H. injection H as ->. now apply N24. }
    rewrite AU. cbn [negb].
    assert (EA : Some au = Some (Auth5 0x18 (co_method p) (au_data au))) by (rewrite EMP; destruct au; cbn in *; congruence).
    rewrite EA. destruct (au_data au) as [d2|].
    2:{ exists (Refusal 0x87). split; [|apply PRE; now apply refuse_shows]. apply E_wrong. intros (x & y & _ & H & _). discriminate H. }
    destruct (utf8 (lit d2)) eqn:EU; cbn [negb].
    2:{ exists (Refusal 0x87). split; [|apply PRE; now apply refuse_shows]. apply E_wrong. intros (x & y & _ & H & U & _). injection H as <-. apply utf8_iff in U. congruence. }
    rewrite MA. unfold scram_final_of. pose proof (final_iff d1 w f d2 SF) as FI.
    assert (PR : proof_right p (Some d2) <-> scram_right sha256 hmac (fc_users c) samples (lit d1) (lit d2)).
    { split.
      - intros (x & y & H1 & H2 & _ & R). rewrite D1 in H1. injection H1 as <-. injection H2 as <-. exact R.
      - intros R. exists d1, d2. split; [exact D1|]. split; [reflexivity|]. split; [now apply utf8_iff|exact R]. }
    assert (NO : (forall msg, serve_final hmac sha256 w (lit d2) <> Some (true, msg)) -> exists a, exchange_answer p (ask (s_ident (cn_s cn)) <> None) (Some (Auth5 0x18 (co_method p) (Some d2)) :: l) a /\
        shows5 ([AAuth data; AConnack (snd (error_connack RC_not_authorized "invalid client final data" (cn_s cn)))], [], CFail) a).
    { intros N. exists (Refusal 0x87). split; [|apply PRE; now apply refuse_shows]. apply E_wrong. rewrite PR, <- FI. intros (msg & H). exact (N _ H). }
    destruct (serve_final hmac sha256 w (lit d2)) as [([|], msg)|] eqn:EF.
    - match goal with |- context[finish5 ?M ?cf ?n ?a ?dt ?k] => pose proof (finish_shows n a dt k p W NC) as FS; destruct (finish5 M cf n a dt k) as (acts, e) end.
      destruct FS as (a & FA & S). exists a. split; [|now apply PRE]. apply E_right; [apply PR, FI; eauto|exact FA].
    - apply NO. discriminate.
    - apply NO. discriminate.
  Qed.

  Lemma admit5_some uuid now ask p l :
    exists a, answer5 p (ask (if String.eqb (co_ident p) "" then uuid else co_ident p) <> None) l a /\ shows5 (phase5 c t samples uuid now ask p l) a /\
      ((exists d, In (AAuth d) (fst (fst (phase5 c t samples uuid now ask p l)))) <-> challenged sha256 sha512 pbkdf2 c t p).
  Proof.
    unfold ConfModel.phase5, connect_phase5, handle_connect5.
    pose proof (password_ok_right sha256 sha512 pbkdf2 c t (co_user p) (co_pass p)) as PW. fold (entitled (co_user p) (co_pass p)) in PW.
    destruct (password_ok _ _ _ _) eqn:EP; cbn [negb].
    2:{ pose proof (iff_false _ _ PW eq_refl) as NE. exists (Refusal 0x86). split; [now apply A5_password|]. split; [now apply refuse_shows|].
        split; [intros (d & [H|[]]); discriminate H|intros ((E & _) & _); tauto]. }
    assert (EN : entitled (co_user p) (co_pass p)) by (now apply PW).
    set (S0 := connect_session _ _ _ _).
    assert (MAL : malformed p -> exists a, answer5 p (ask (if String.eqb (co_ident p) "" then uuid else co_ident p) <> None) l a /\
       a = Refusal 0x82 /\ ~ challenged sha256 sha512 pbkdf2 c t p).
    { intros M. exists (Refusal 0x82). split; [now apply A5_malformed|]. split; [reflexivity|]. intros ((_ & N & _) & _). tauto. }
    assert (FIN : forall r, malformed p -> exists a, answer5 p (ask (if String.eqb (co_ident p) "" then uuid else co_ident p) <> None) l a /\
       shows5 ([AConnack (snd (error_connack RC_protocol_error r S0))], [], CFail) a /\
       ((exists d, In (AAuth d) [AConnack (snd (error_connack RC_protocol_error r S0))]) <-> challenged sha256 sha512 pbkdf2 c t p)).
    { intros r M. destruct (MAL M) as (a & A & -> & NC). exists (Refusal 0x82). split; [exact A|]. split; [now apply refuse_shows|].
      split; [intros (d & [H|[]]); discriminate H|tauto]. }
    destruct (valid_facts sha256 sha512 hmac c V) as (_ & PC & _).
    assert (Z : forall X (a b : X), (match co_rmax p with Some 0 => a | _ => b end) = if match co_rmax p with Some 0 => true | _ => false end then a else b).
    { intros X a b. destruct (co_rmax p) as [[|]|]; reflexivity. }
    rewrite Z. destruct (match co_rmax p with Some 0 => true | _ => false end) eqn:ER.
    { apply FIN. left. destruct (co_rmax p) as [[|]|]; try discriminate ER. reflexivity. }
    assert (MP : (s_maxpkt S0 =? 0) = true <-> co_maxpkt p = Some 0).
    { unfold S0. cbn [connect_session s_maxpkt]. unfold opt_or. destruct (co_maxpkt p) as [n|].
      - rewrite N.eqb_eq. split; congruence.
      - rewrite N.eqb_eq. split; [lia|discriminate]. }
    destruct (s_maxpkt S0 =? 0) eqn:EMX.
    { apply FIN. right. left. now apply MP. }
    set (dm := match co_data p, co_method p with Some _, None => true | _, _ => false end).
    destruct dm eqn:ED.
    { apply FIN. right. right. unfold dm in ED. destruct (co_data p); [|discriminate ED]. destruct (co_method p); [discriminate ED|]. split; [discriminate|reflexivity]. }
    assert (NM : ~ malformed p).
    { intros [H|[H|(H1 & H2)]].
      - rewrite H in ER. discriminate ER.
      - apply MP in H. congruence.
      - unfold dm in ED. rewrite H2 in ED. destruct (co_data p); [discriminate ED|tauto]. }
    set (bw := match co_will p with Some _ => _ | None => _ end).
    assert (BW : bw = true <-> bad_will p).
    { unfold bw, bad_will. destruct (co_will p) as [w|].
      - rewrite bad_topic_iff. split; [intros H; now exists w|]. intros (w' & H & B). injection H as <-. exact B.
      - split; [discriminate|]. intros (w & H & _). discriminate H. }
    destruct bw eqn:EB.
    { exists Silence. split; [apply A5_will; auto; now apply BW|]. split.
      - split; [reflexivity|]. exists [], []. split; [reflexivity|]. split; [constructor|now split].
      - split; [intros (d & [])|intros ((_ & _ & N) & _); exfalso; apply N; now apply BW]. }
    assert (NB : ~ bad_will p) by (now apply (iff_false _ _ BW)).
    assert (SC : sound_connect sha256 sha512 pbkdf2 c t p) by (split; [exact EN|split; [exact NM|exact NB]]).
    assert (ID : s_ident S0 = if String.eqb (co_ident p) "" then uuid else co_ident p) by reflexivity.
    destruct (co_method p) as [m|] eqn:EM.
    2:{ match goal with |- context[finish5 ?M ?cf ?n ?a ?dt ?k] => pose proof (finish_shows n a dt k p eq_refl eq_refl) as FS; pose proof (eq_refl (finish5 M cf n a dt k)) as FE;
          unfold finish5 at 1 in FE; destruct (finish5 M cf n a dt k) as (acts, e) end.
        destruct FS as (a & FA & S). exists a. split; [apply A5_plain; auto|]. split; [exact S|]. cbn [fst]. split; [|intros (_ & (m & H & _) & _); congruence].
        intros (d & IN). exfalso. cbn [cn_s] in FE. destruct (ask (s_ident S0)) as [rc|]; [|injection FE as <- _; destruct IN].
        destruct (session_connect5 _ _ _ _ _ _) as [(s', k)|]; injection FE as <- _; [destruct IN as [H|[]]; discriminate H|destruct IN]. }
    set (off := existsb (String.eqb m) (ac_mechs (auth_of c))).
    assert (OF : off = true <-> offered c m).
    { unfold off, offered. rewrite existsb_exists. cbn [auth_of ac_mechs]. split.
      - intros (m' & I & E). apply String.eqb_eq in E. subst m'. apply in_map_iff in I. destruct I as (k & <- & K). eauto.
      - intros (k & K & ->). exists (mechanism_name k). split; [now apply in_map|now apply String.eqb_eq]. }
    destruct (negb (known_mechanism m) || negb off)%bool eqn:EX.
    { assert (NO : ~ offered c m).
      { intros O. apply OF in O as O'. rewrite O' in EX. cbn [negb] in EX. rewrite orb_false_r in EX. destruct O as ([|] & _ & ->); discriminate EX. }
      exists (Refusal 0x8C). split; [eapply A5_method; eauto|]. split; [now apply refuse_shows|].
      split; [intros (d & [H|[]]); discriminate H|]. intros (_ & (m' & H & O) & _). assert (m' = m) by congruence. subst m'. tauto. }
    assert (O : offered c m).
    { apply OF. apply orb_false_iff in EX. destruct EX as (_ & EX). now apply negb_false_iff in EX. }
    pose proof (opening_iff p) as OI. unfold scram_first.
    assert (NOP : forall r, ~ opening c p -> exists a, answer5 p (ask (if String.eqb (co_ident p) "" then uuid else co_ident p) <> None) l a /\
       shows5 ([AConnack (snd (error_connack RC_not_authorized r S0))], [], CFail) a /\
       ((exists d, In (AAuth d) [AConnack (snd (error_connack RC_not_authorized r S0))]) <-> challenged sha256 sha512 pbkdf2 c t p)).
    { intros r N. exists (Refusal 0x87). split; [eapply A5_first; eauto|]. split; [now apply refuse_shows|].
      split; [intros (d & [H|[]]); discriminate H|]. intros (_ & _ & OP). tauto. }
    destruct (co_data p) as [d1|] eqn:ED1.
    2:{ apply NOP. rewrite OI. intros (x & _ & _ & H & _). discriminate H. }
    destruct (utf8 (lit d1)) eqn:EU; cbn [negb].
    2:{ apply NOP. rewrite OI. intros (x & _ & _ & H & U & _). injection H as <-. congruence. }
    assert (SO : scram_first_of (fc_users c) samples d1 = match serve_first (fc_users c) samples (lit d1) with Some (w, f) => Some (w, string_of_list_ascii f) | None => None end) by reflexivity.
    destruct (serve_first (fc_users c) samples (lit d1)) as [(w, f)|] eqn:SF; rewrite SO.
    2:{ apply NOP. rewrite OI. intros (x & w & f & H & _ & SF'). injection H as <-. congruence. }
    assert (CH : challenged sha256 sha512 pbkdf2 c t p).
    { split; [exact SC|]. split; [exists m; now split|]. apply OI. exists d1, w, f. auto. }
    match goal with |- context[auth_loop5 ?M ?fi ?fn ?u ?q ?cf ?n ?ak ?ll ?k] =>
      pose proof (exchange_shows n ak ll k p d1 w f (string_of_list_ascii f) eq_refl eq_refl (eq_sym EM) ltac:(congruence) eq_refl eq_refl ED1 SF) as ES;
      destruct (auth_loop5 M fi fn u q cf n ak ll k) as ((acts, pkts), e) end.
    destruct ES as (a & EA & S). exists a. split; [now apply A5_exchange|]. split; [exact S|].
    split; [intros _; exact CH|]. intros _. cbn [fst]. eexists. left. reflexivity.
  Qed.

  Lemma admit5 uuid now ask p l a :
    answer5 p (ask (if String.eqb (co_ident p) "" then uuid else co_ident p) <> None) l a <-> shows5 (phase5 c t samples uuid now ask p l) a.
  Proof.
    destruct (admit5_some uuid now ask p l) as (b & B & S & _). split; intros H.
    - now rewrite (det5 _ _ _ a b H B).
    - now rewrite (shows5_det _ _ _ H S).
  Qed.
  Lemma admit5_challenge uuid now ask p l :
    (exists d, In (AAuth d) (fst (fst (phase5 c t samples uuid now ask p l)))) <-> challenged sha256 sha512 pbkdf2 c t p.
  Proof. destruct (admit5_some uuid now ask p l) as (b & _ & _ & C). exact C. Qed.

  Lemma answer_known p (k k' : Prop) l a : (k <-> k') -> answer5 p k l a -> answer5 p k' l a.
  Proof.
    intros K.
    assert (FA : forall b, final_answer c p k b -> final_answer c p k' b).
    { intros b []; [apply F_registry|apply F_retain|apply F_qos|apply F_good]; tauto. }
    intros [].
    - now apply A5_password.
    - now apply A5_malformed.
    - now apply A5_will.
    - apply A5_plain; auto.
    - eapply A5_method; eauto.
    - eapply A5_first; eauto.
    - apply A5_exchange; auto. match goal with H : exchange_answer _ _ _ _ |- _ => destruct H end; [constructor|now constructor|now constructor|now constructor; auto].
  Qed.
  Lemma one_answer_sec p known l : known \/ ~ known -> exists a, answer5 p known l a /\ forall b, answer5 p known l b -> b = a.
  Proof.
    intros K.
    assert (X : exists ask : string -> option receipt5, forall i, ask i <> None <-> known).
    { destruct K as [K|K].
      - exists (fun _ => Some (RcNew 0)). intros i. split; [auto|discriminate].
      - exists (fun _ => None). intros i. split; tauto. }
    destruct X as (ask & X). destruct (admit5_some "" 0 ask p l) as (a & A & _). exists a.
    split; [apply (answer_known _ _ _ _ _ (X _) A)|]. intros b B. apply (det5 p known l); [exact B|apply (answer_known _ _ _ _ _ (X _) A)].
  Qed.
End Admit.

Lemma one_answer sha256 sha512 pbkdf2 hmac c t samples known p l : good_samples samples -> is_valid c = true -> (known \/ ~ known) ->
  exists a, answer5 sha256 sha512 pbkdf2 hmac c t samples p known l a /\ forall b, answer5 sha256 sha512 pbkdf2 hmac c t samples p known l b -> b = a.
Proof. intros GS V. exact (one_answer_sec sha256 sha512 pbkdf2 hmac c t samples GS V p known l). Qed.
