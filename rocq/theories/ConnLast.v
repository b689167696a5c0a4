(** The connection phase with the real checks in place. *)
From Coq Require Import List Bool Arith NArith Ascii String Lia.
From Coq Require Import ZifyBool ZifyNat ZifyN.
From Verif Require Import Base BaseLemmas MsgModel TopicModel PendingModel AliasModel OutModel GlobModel Sess5Model Sess3Model ConnModel
  TextModel TextSpec TextProofs Utf8Proofs PassModel PassSpec PassProofs ScramModel ScramSpec ScramProofs ConfModel ConnSpec ConnProofs.
Import ListNotations.
Local Open Scope N_scope.

Section Last.
  Variable sha256 sha512 : text -> text.
  Variable pbkdf2 : bool -> N -> text -> text -> nat -> text.
  Variable hmac : text -> text -> text.
  Notation phase5 := (phase5 sha256 sha512 pbkdf2 hmac).
  Notation phase3 := (phase3 sha256 sha512 pbkdf2).
  Notation authenticated := (authenticated sha256 sha512 pbkdf2 hmac).
  Notation password_right := (password_right sha256 sha512 pbkdf2).

  Lemma password_ok_right c t user pass : password_ok (password_check sha256 sha512 pbkdf2 t) (auth_of c) user pass = true <-> (fc_auth c = true -> password_right t user pass).
  Proof.
    unfold password_ok. cbn [auth_of ac_enable]. destruct (fc_auth c).
    - split.
      + intros H _. destruct user as [u|]; [|discriminate]. destruct pass as [p|]; [|discriminate]. apply check_iff in H. destruct H as (e & G & R). exists u, p, e. auto.
      + intros H. destruct (H eq_refl) as (u & p & e & -> & -> & G & R). apply check_iff. eauto.
    - split; [discriminate|reflexivity].
  Qed.
  Lemma auth_gen_authenticated c t samples p l : good_samples samples ->
    auth_gen waiting (password_check sha256 sha512 pbkdf2 t) (scram_first_of (fc_users c) samples) (scram_final_of sha256 hmac) (auth_of c) p l -> authenticated c t samples p l.
  Proof.
    intros GS (PW & ME). split; [now apply password_ok_right|]. destruct (co_method p) as [m|]; [|exact I].
    destruct ME as (IM & d1 & w & ch & d2 & fin & rest & ED & EF & -> & EN). split.
    - cbn [auth_of ac_mechs] in IM. apply in_map_iff in IM. destruct IM as (k & <- & K). eauto.
    - exists d1, d2, rest. split; [exact ED|]. split; [reflexivity|]. unfold scram_first_of in EF. destruct (serve_first (fc_users c) samples (lit d1)) as [(w', f)|] eqn:SF; [|discriminate].
      injection EF as -> _. unfold scram_final_of in EN. destruct (serve_final hmac sha256 w (lit d2)) as [(b, msg)|] eqn:SL; [|discriminate]. injection EN as -> _.
      destruct (sound hmac sha256 _ _ _ _ _ GS SF) as (flag & az & name & nonce & u & FL & FM & G & SFE & IFF). apply IFF in SL. destruct SL as (AZ & (ext & X & D2) & _).
      exists flag, az, name, nonce, u, ext. split; [exact FL|]. split; [exact FM|]. split; [exact G|]. split; [exact AZ|]. split; [exact X|]. cbn zeta. rewrite D2, SFE. reflexivity.
  Qed.

  (** ** C41 *)
  Lemma not_served5 c t samples uuid now p l : good_samples samples -> ~ authenticated c t samples p l ->
    forall ask, (forall k, In (AConnack k) (fst (fst (phase5 c t samples uuid now ask p l))) -> ka_code k <> RC_success) /\
      (snd (phase5 c t samples uuid now ask p l) = CFail \/ snd (phase5 c t samples uuid now ask p l) = CWait) /\
      forall ask', phase5 c t samples uuid now ask' p l = phase5 c t samples uuid now ask p l.
  Proof.
    intros GS N ask. unfold ConfModel.phase5.
    destruct (phase_shape waiting (password_check sha256 sha512 pbkdf2 t) (scram_first_of (fc_users c) samples) (scram_final_of sha256 hmac) (fun d => utf8 (lit d)) (fc_cfg c) (auth_of c) uuid now ask p l)
      as [(A & _)|((Q1 & Q2) & AS)].
    - destruct N. now apply auth_gen_authenticated.
    - auto.
  Qed.
  Lemma not_served3 c t uuid now p : fc_auth c = true -> ~ password_right t (c3_user p) (c3_pass p) -> forall s, phase3 c t uuid now p <> PGo3 s.
  Proof.
    intros EN N s. unfold ConfModel.phase3, handle_connect3.
    assert (F : password_ok (password_check sha256 sha512 pbkdf2 t) (auth_of c) (c3_user p) (c3_pass p) = false).
    { destruct (password_ok _ _ _ _) eqn:E; [|reflexivity]. apply password_ok_right in E; [contradiction|exact EN]. }
    rewrite F. cbn [negb]. repeat match goal with |- context[if ?b then _ else _] => destruct b end; discriminate.
  Qed.

  (** ** C42 *)
  Lemma negotiated c t samples uuid now ask p l acts pkts s present :
    cf_inflight_server (fc_cfg c) <= 65535 -> cf_packet_server (fc_cfg c) <= 4294967295 ->
    phase5 c t samples uuid now ask p l = (acts, pkts, COnline s present) ->
    exists k, In (AConnack k) acts /\ (forall k', In (AConnack k') acts -> k' = k) /\ ka_code k = RC_success /\ ka_present k = present /\
      (* session expiry *)
      s_expiry s = N.min (match co_expiry p with Some e => e | None => 0 end) (cf_max_expiry (fc_cfg c)) /\ told_expiry p k = s_expiry s /\
      (* keep-alive *)
      s_keep s = clamp_keep (fc_cfg c) (co_keep p) /\ told_keep p k = s_keep s /\
      (* what the client may send *)
      told_receive_max k = cf_inflight_server (fc_cfg c) /\ told_max_packet k = cf_packet_server (fc_cfg c) /\ told_alias_max k = cf_alias_max (fc_cfg c) /\
      max_allowed_qos (fc_cfg c) = Some (told_max_qos k) /\ told (ka_retain k) = cf_retain (fc_cfg c) /\ told (ka_wild k) = cf_wildcard (fc_cfg c) /\
      told (ka_subid k) = cf_subid (fc_cfg c) /\ told (ka_shared k) = cf_shared (fc_cfg c) /\
      (* what the server may send *)
      pq_inflight (o5_q (s_out s)) = match co_rmax p with Some r => r | None => cf_inflight_client (fc_cfg c) end /\
      s_maxpkt s = match co_maxpkt p with Some m => m | None => cf_packet_client (fc_cfg c) end /\
      o5_amax (s_out s) = match co_alias p with Some m => m | None => 0 end /\
      (* identifier *)
      s_ident s = (if String.eqb (co_ident p) "" then uuid else co_ident p) /\
      ka_assigned k = (if String.eqb (co_ident p) "" then Some (s_ident s) else None).
  Proof.
    intros B1 B2 H. unfold ConfModel.phase5 in H.
    destruct (phase_shape waiting (password_check sha256 sha512 pbkdf2 t) (scram_first_of (fc_users c) samples) (scram_final_of sha256 hmac) (fun d => utf8 (lit d)) (fc_cfg c) (auth_of c) uuid now ask p l)
      as [(A & _ & pre & data & cn & NP & C1 & C2 & C3 & C4 & E)|((_ & Q) & _)].
    2:{ rewrite H in Q. cbn [snd] in Q. destruct Q; discriminate. }
    rewrite E in H. unfold finish5 in H. destruct (ask _) as [rc|]; [|discriminate]. destruct (session_connect5 _ _ _ _ _ _) as [(s', k)|] eqn:SC; [|discriminate].
    destruct (s_connected s') eqn:CO; [|discriminate]. injection H as <- <- -> <-.
    destruct (session_connect_told _ _ _ _ _ _ p s k SC) as (T1 & T2 & T3 & T4 & T5 & T6 & T7 & T8 & T9 & T10 & T11 & T12 & T13 & T14 & T15 & T16 & T17 & T18 & T19).
    { now rewrite C1. } { now rewrite C1, C3. } { exact B1. } { exact B2. }
    exists k. split; [apply in_app_iff; right; now left|]. split; [intros k' I; apply in_app_iff in I; destruct I as [I|[I|[]]]; [destruct (NP _ I)|now injection I]|].
    split. { apply T19 in CO. destruct CO as [K|K]; [rewrite C1 in K; discriminate|exact K]. }
    split; [reflexivity|]. split; [exact T1|]. split; [exact T2|]. split; [now rewrite T3, C1|]. split; [exact T4|]. split; [exact T5|]. split; [exact T6|]. split; [exact T7|].
    split; [exact T8|]. split; [exact T9|]. split; [exact T10|]. split; [exact T11|]. split; [exact T12|].
    split; [rewrite T14, T13, C1; reflexivity|]. split; [now rewrite T15, C1|]. split; [now rewrite T16, C1|]. split; [now rewrite T17, C1|].
    now rewrite T18, C2.
  Qed.
  Lemma clamp_within c k : cf_min_keep_alive c <= cf_max_keep_alive c -> cf_min_keep_alive c <= clamp_keep c k <= cf_max_keep_alive c.
  Proof. unfold clamp_keep. destruct (N.ltb_spec (cf_max_keep_alive c) k), (N.ltb_spec k (cf_min_keep_alive c)); lia. Qed.
  Lemma clamp_same c k : cf_min_keep_alive c <= k <= cf_max_keep_alive c -> clamp_keep c k = k.
  Proof. unfold clamp_keep. destruct (N.ltb_spec (cf_max_keep_alive c) k), (N.ltb_spec k (cf_min_keep_alive c)); lia. Qed.

  (** ** C43 *)
  Lemma valid_facts c : is_valid c = true ->
    max_allowed_qos (fc_cfg c) <> None /\ 0 < cf_packet_client (fc_cfg c) /\ 0 < cf_packet_server (fc_cfg c) /\
    (forall m, In m (fc_mechs c) -> m = MScram256) /\ (forall n u, In (n, u) (fc_users c) -> 4096 <= su_iterations u) /\
    (fc_auth c = true -> fc_password_file c = true) /\ In true (fc_listeners c).
  Proof.
    unfold is_valid. rewrite !andb_true_iff, !negb_true_iff. intros ((((((H1 & H2) & H3) & H4) & H5) & H6) & H7).
    split. { unfold max_allowed_qos. destruct (cf_max_qos (fc_cfg c)) as [|[[|[]|]|[[]|[]|]|]]; try discriminate; cbn in H2; try discriminate. }
    split; [lia|]. split; [lia|]. split.
    { rewrite forallb_forall in H5. intros m I. specialize (H5 m I). now destruct m. }
    split. { rewrite forallb_forall in H6. intros n u I. specialize (H6 (n, u) I). cbn [snd] in H6. lia. }
    split. { intros E. rewrite E in H1. destruct (fc_password_file c); [reflexivity|discriminate]. }
    apply existsb_exists in H7. destruct H7 as (b & I & ->). exact I.
  Qed.
  Lemma no_panic c t samples uuid now ask p l : is_valid c = true -> snd (phase5 c t samples uuid now ask p l) <> CCrash.
  Proof.
    intros V. destruct (valid_facts c V) as (QQ & _). unfold ConfModel.phase5.
    destruct (phase_shape waiting (password_check sha256 sha512 pbkdf2 t) (scram_first_of (fc_users c) samples) (scram_final_of sha256 hmac) (fun d => utf8 (lit d)) (fc_cfg c) (auth_of c) uuid now ask p l)
      as [(A & _ & pre & data & cn & NP & C1 & C2 & C3 & C4 & E)|((_ & Q) & _)].
    2:{ destruct Q as [-> | ->]; discriminate. }
    rewrite E. unfold finish5. destruct (ask _) as [rc|]; [|discriminate]. destruct (session_connect5 _ _ _ _ _ _) as [(s', k)|] eqn:SC.
    - cbn [snd]. destruct (s_connected s'); discriminate.
    - exfalso. unfold session_connect5 in SC. destruct (max_allowed_qos (fc_cfg c)); [|congruence]. destruct rc as [id|st]; [|destruct (negb (s_clean (cn_s cn)))]; discriminate.
  Qed.

  Lemma nonce_ascii l : good_samples l -> is_ascii (nonce_of l).
  Proof.
    intros F c I. unfold nonce_of in I. apply in_map_iff in I. destruct I as (x & <- & I).
    assert (G : 33 <= x < 125). { unfold good_samples in F. rewrite Forall_forall in F. apply F. rewrite <- (firstn_skipn nonce_length l). apply in_app_iff. now left. }
    unfold nonce_char. destruct (N.ltb_spec 43 x); rewrite code_byte by lia; lia.
  Qed.
  Lemma b64_ascii s : is_ascii (b64_encode true s).
  Proof.
    assert (A : forall c, (fun c => match b64_val c with Some _ => (code c <? 128)%N | None => true end) c = true) by (apply all_bytes_spec; vm_compute; reflexivity).
    intros c I. destruct (b64_pad_chars s c I) as [V| ->]; [|now vm_compute]. specialize (A c). cbn beta in A. destruct (b64_val c); [|congruence]. now apply N.ltb_lt.
  Qed.
  Lemma ascii_app a b : is_ascii a -> is_ascii b -> is_ascii (a ++ b)%list.
  Proof. intros A B c I. apply in_app_iff in I. destruct I; auto. Qed.
  Lemma ascii_lit s : forallb (fun c => (code c <? 128)%N) s = true -> is_ascii s.
  Proof. intros F c I. rewrite forallb_forall in F. apply N.ltb_lt. now apply F. Qed.

  Lemma usable c t cs ss uuid now ask p m name password u rc :
    is_valid c = true -> good_samples cs -> good_samples ss -> In m (fc_mechs c) ->
    aget name (fc_users c) = Some u -> su_iterations u <= 65535 -> su_hash u = pbkdf2 false (su_iterations u) (su_salt u) password 32 ->
    ~ In ","%char name -> unicode name ->
    (fc_auth c = true -> password_right t (co_user p) (co_pass p)) ->
    co_rmax p <> Some 0 -> co_maxpkt p <> Some 0 -> co_will p = None -> co_method p = Some (mechanism_name m) ->
    let hash i s w := pbkdf2 false i s w 32 in
    forall c1 d1, encode_client_first (client_new name password None cs) = (c1, Some d1) -> co_data p = Some (string_of_list_ascii d1) ->
    ask (if String.eqb (co_ident p) "" then uuid else co_ident p) = Some rc ->
    exists sf c2 d2 k s answer,
      decode_server_first hmac sha256 hash c1 sf = (c2, Some d2) /\
      phase5 c t ss uuid now ask p [Some (Auth5 0x18 (Some (mechanism_name m)) (Some (string_of_list_ascii d2)))] =
        ([AAuth (string_of_list_ascii sf); AConnack k], [], COnline s (ka_present k)) /\
      ka_code k = RC_success /\ ka_data k = Some (string_of_list_ascii answer) /\ decode_server_final c2 answer = (CDone, CAccept).
  Proof.
    intros V GC GS IM G BI HU NC U8 PW RM MP WI ME hash c1 d1 E1 ED ASK. apply utf8_iff in U8.
    destruct (valid_facts c V) as (QQ & PC & _ & MM & UU & _). assert (m = MScram256) by now apply MM. subst m.
    assert (IT : 4096 <= su_iterations u) by (apply (UU name u); now apply aget_Some_in).
    assert (G' : aget name (fc_users c) = Some (ScramUser (hash (su_iterations u) (su_salt u) password) (su_iterations u) (su_salt u))).
    { rewrite G. f_equal. destruct u as [h i s]. cbn in *. unfold hash. now rewrite HU. }
    destruct (complete hmac sha256 hash (fc_users c) cs ss name password (su_iterations u) (su_salt u) None GC GS G' ltac:(lia) NC (or_introl eq_refl))
      as (c1' & d1' & w & sf & c2 & d2 & answer & A1 & A2 & A3 & A4 & A5 & proof & D2).
    assert (AA := eq_trans (eq_sym E1) A1). injection AA as <- <-.
    (* the messages are text *)
    assert (D1 : d1 = (lit "n,,n=" ++ name ++ lit ",r=" ++ nonce_of cs)%list).
    { cbn [encode_client_first client_new] in E1. injection E1 as _ <-. rewrite client_name_same. reflexivity. }
    assert (T1 : utf8 d1 = true).
    { rewrite D1, utf8_app by reflexivity. rewrite utf8_app by exact U8. apply utf8_ascii, ascii_app; [now apply ascii_lit|now apply nonce_ascii]. }
    assert (NO : ~ In ","%char (nonce_of cs)) by now apply nonce_no_comma.
    assert (T2 : utf8 d2 = true).
    { rewrite D2. apply utf8_ascii. repeat first [apply ascii_app|apply b64_ascii|now apply nonce_ascii|now apply ascii_lit]. }
    exists sf, c2, d2.
    assert (PK : password_ok (password_check sha256 sha512 pbkdf2 t) (auth_of c) (co_user p) (co_pass p) = true) by now apply password_ok_right.
    assert (FI : scram_first_of (fc_users c) ss (string_of_list_ascii d1) = Some (w, string_of_list_ascii sf)).
    { unfold scram_first_of. rewrite list_ascii_of_string_of_list_ascii. now rewrite A2. }
    assert (FN : scram_final_of sha256 hmac w (string_of_list_ascii d2) = Some (true, string_of_list_ascii answer)).
    { unfold scram_final_of. rewrite list_ascii_of_string_of_list_ascii. now rewrite A4. }
    set (cn := Conn5 (connect_session (fc_cfg c) uuid p (sess5_new (fc_cfg c) now)) (String.eqb (co_ident p) "") (negb (clamp_keep (fc_cfg c) (co_keep p) =? co_keep p))
                 (co_method p) true (Some w)).
    assert (HC : handle_connect5 waiting (password_check sha256 sha512 pbkdf2 t) (scram_first_of (fc_users c) ss) (fun d => utf8 (lit d)) (fc_cfg c) (auth_of c) uuid now p =
                 PChallenge waiting cn (string_of_list_ascii sf)).
    { unfold handle_connect5. rewrite PK. cbn [negb]. rewrite ED, WI.
      assert (Z : s_maxpkt (connect_session (fc_cfg c) uuid p (sess5_new (fc_cfg c) now)) =? 0 = false).
      { cbn [connect_session s_maxpkt]. unfold opt_or. destruct (co_maxpkt p) as [[|x]|]; [congruence|reflexivity|lia]. }
      rewrite Z. assert (RR : forall A (x y : A), match co_rmax p with Some 0 => x | _ => y end = y) by (intros A x y; destruct (co_rmax p) as [[|]|]; [congruence|reflexivity|reflexivity]).
      rewrite RR. unfold cn. rewrite ME. cbn [known_mechanism mechanism_name]. change (known_mechanism (mechanism_name MScram256)) with true. cbn [negb orb].
      assert (EX : existsb (String.eqb "SCRAM-SHA-256") (ac_mechs (auth_of c)) = true).
      { apply existsb_exists. exists "SCRAM-SHA-256"%string. split; [|apply String.eqb_refl]. cbn [auth_of ac_mechs]. apply in_map_iff. exists MScram256. now split. }
      cbn [mechanism_name]. rewrite EX. cbn [negb]. unfold scram_first. rewrite list_ascii_of_string_of_list_ascii, T1. cbn [negb]. rewrite FI. reflexivity. }
    set (cn' := Conn5 (cn_s cn) (cn_assigned cn) (cn_srv_keep cn) (cn_method cn) false (Some w)).
    assert (HA : handle_auth5 waiting (scram_first_of (fc_users c) ss) (scram_final_of sha256 hmac) (fun d => utf8 (lit d)) (Auth5 0x18 (Some (mechanism_name MScram256)) (Some (string_of_list_ascii d2))) cn =
                 ADone waiting cn' (string_of_list_ascii answer)).
    { unfold handle_auth5. change (cn_method cn) with (co_method p). rewrite ME. cbn [au_method au_code au_data]. unfold opt_eqb. rewrite String.eqb_refl. cbn [negb].
      change (0x18 =? 0) with false. change (0x18 =? 0x18) with true. cbn [cn_auth cn negb cn_mach]. rewrite list_ascii_of_string_of_list_ascii, T2. cbn [negb]. rewrite FN. unfold cn'. cbn [cn cn_method cn_s cn_assigned cn_srv_keep]. rewrite ME. reflexivity. }
    destruct (session_connect5 waiting (fc_cfg c) now rc (Some (string_of_list_ascii answer)) cn') as [(s, k)|] eqn:SC.
    2:{ exfalso. unfold session_connect5 in SC. destruct (max_allowed_qos (fc_cfg c)); [|congruence]. destruct rc as [id|st]; [|destruct (negb (s_clean (cn_s cn')))]; discriminate. }
    assert (OK : ka_code k = RC_success /\ ka_data k = Some (string_of_list_ascii answer) /\ s_connected s = true).
    { unfold session_connect5 in SC. destruct (max_allowed_qos (fc_cfg c)) as [mq|]; [|congruence].
      assert (W0 : s_will (cn_s cn') = None) by (cbn; exact WI).
      destruct rc as [id|st]; [|destruct (negb (s_clean (cn_s cn')))]; cbv zeta in SC; injection SC as <- <-; cbn [ka_code ka_data];
        (match goal with |- context[will_code _ _ ?w] => replace w with (@None will5) by (destruct (_ <? _); cbn; symmetry; exact WI) end); repeat split. }
    destruct OK as (K1 & K2 & K3).
    exists k, s, answer. split; [exact A3|]. split; [|auto].
    unfold ConfModel.phase5, connect_phase5. rewrite HC. cbn [auth_loop5]. rewrite HA. unfold finish5.
    change (s_ident (cn_s cn')) with (if String.eqb (co_ident p) "" then uuid else co_ident p). rewrite ASK, SC, K3. reflexivity.
  Qed.
End Last.
