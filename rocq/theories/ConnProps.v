(** Properties C40 - C43: SCRAM, authentication before service, negotiation, configuration. *)
From Coq Require Import List Bool Arith NArith Ascii String Lia.
From Verif Require Import Base BaseLemmas MsgModel PendingModel OutModel GlobModel Sess5Model Sess3Model ConnModel
  TextModel TextSpec TextProofs Utf8Proofs PassModel PassSpec PassLast ScramModel ScramSpec ScramProofs ConfModel ConnSpec ConnProofs ConnLast.
Import ListNotations.
Local Open Scope char_scope.

(** ** Example data: toy digests of the right shape, two users. *)
Definition ex_hmac (k m : text) : text := firstn 32 (rev m ++ k ++ repeat "0" 32)%list.
Definition ex_samples (x : N) : list N := repeat x 24.
Definition ex_scram : list (text * scram_user) := [(lit "ann", ScramUser (toy_pbkdf2 false 4096 ex_salt (lit "secret") 32) 4096 ex_salt)].
Definition ex_conf : full_config := FullConfig config_default true true ex_scram [MScram256] false [true; false; false; false; false].
Definition ex_ptable : table := [(lit "ann", Entry (Sha256Pk 10) (toy_pbkdf2 false 10 ex_salt (lit "pw") 32) ex_salt)].
Definition ex_first (flag : string) : string := (flag ++ ",,n=ann,r=PPPPPPPPPPPPPPPPPPPPPPPP")%string.
Definition ex_auth_connect (data : option string) : connect5 :=
  Connect5 true 5 "" (Some "ann"%string) (Some "pw"%string) None (Some 7%N) None None None None (Some "SCRAM-SHA-256"%string) data.
Lemma ex_good x : (33 <= x < 125)%N -> good_samples (ex_samples x).
Proof. intros H. unfold good_samples, ex_samples. apply Forall_forall. intros y I. apply repeat_spec in I. now subst y. Qed.
Definition ex_client (password : string) := client_new (lit "ann") (lit password) None (ex_samples 79).
(** The final message of the client of this crate. *)
Definition ex_final (password : string) : text :=
  match serve_first ex_scram (ex_samples 81) (lit (ex_first "n")) with
  | Some (_, sf) => match snd (decode_server_first ex_hmac toy (fun i s p => toy_pbkdf2 false i s p 32) (fst (encode_client_first (ex_client password))) sf) with Some d => d | None => [] end
  | None => []
  end.

(** * C40: completeness.
    The client of this crate and the server accept each other if the password is right.
    The name must have no comma; with a name containing a comma or an equals sign, or a
    client that says it supports channel binding, the exchange of RFC 5802 fails (below). *)
Theorem C40_complete_partial : forall hmac sha256 pbkdf2 users client_samples server_samples name password iterations salt authzid,
  good_samples client_samples -> good_samples server_samples ->
  aget name users = Some (ScramUser (pbkdf2 iterations salt password) iterations salt) -> (0 < iterations <= 4294967295)%N ->
  ~ In "," name -> authzid = None \/ authzid = Some name ->
  exists c1 d1 w sf c2 d2 answer,
    encode_client_first (client_new name password authzid client_samples) = (c1, Some d1) /\
    serve_first users server_samples d1 = Some (w, sf) /\
    decode_server_first hmac sha256 pbkdf2 c1 sf = (c2, Some d2) /\
    serve_final hmac sha256 w d2 = Some (true, answer) /\
    decode_server_final c2 answer = (CDone, CAccept).
Proof.
  intros hmac sha256 pbkdf2 users cs ss name password it salt az A B C D E F.
  destruct (complete hmac sha256 pbkdf2 users cs ss name password it salt az A B C D E F) as (c1 & d1 & w & sf & c2 & d2 & answer & X1 & X2 & X3 & X4 & X5 & _).
  exists c1, d1, w, sf, c2, d2, answer. auto 6.
Qed.
Print Assumptions C40_complete_partial.

(** Any client that follows RFC 5802, with any nonce it likes. *)
Theorem C40_complete_rfc_partial : forall hmac sha256 users samples name u nonce authzid,
  good_samples samples -> aget name users = Some u -> ~ In "," name -> ~ In "," nonce -> authzid = None \/ authzid = Some name ->
  let bare := (lit "n=" ++ name ++ lit ",r=" ++ nonce)%list in
  let full := (nonce ++ nonce_of samples)%list in
  let sf := (lit "r=" ++ full ++ lit ",s=" ++ b64_encode true (su_salt u) ++ lit ",i=" ++ show (su_iterations u))%list in
  let msg := auth_message bare sf (gs2_header authzid) full in
  exists w, serve_first users samples (gs2_header authzid ++ bare) = Some (w, sf) /\
    serve_final hmac sha256 w (lit "c=" ++ b64_encode true (gs2_header authzid) ++ lit ",r=" ++ full ++ lit ",p=" ++ b64_encode true (rfc_proof hmac sha256 (su_hash u) msg))%list =
    Some (true, (lit "v=" ++ b64_encode true (rfc_signature hmac (su_hash u) msg))%list).
Proof. exact complete_rfc. Qed.
Print Assumptions C40_complete_rfc_partial.

Example C40_complete_case : exists w sf, serve_first ex_scram (ex_samples 81) (lit (ex_first "n")) = Some (w, sf) /\
  snd (encode_client_first (ex_client "secret")) = Some (lit (ex_first "n")) /\
  (exists answer, serve_final ex_hmac toy w (ex_final "secret") = Some (true, answer)) /\
  serve_final ex_hmac toy w (ex_final "guess") = Some (false, lit "e=Invalid Password") /\ good_samples (ex_samples 79) /\ good_samples (ex_samples 81).
Proof.
  eexists _, _. split; [vm_compute; reflexivity|]. split; [vm_compute; reflexivity|]. split; [eexists; vm_compute; reflexivity|]. split; [vm_compute; reflexivity|].
  split; apply ex_good; split; vm_compute; congruence.
Qed.

(** * C40: soundness.
    The first message is understood exactly as RFC 5802 reads it, and the final message is
    accepted exactly if it repeats the header and the nonce of this exchange and carries
    the proof, for the stored hash, over the very messages exchanged. *)
Theorem C40_sound : forall hmac sha256 users samples d1 w sf, good_samples samples -> serve_first users samples d1 = Some (w, sf) ->
  exists flag authzid name nonce u, (flag = lit "n" \/ flag = lit "y") /\ first_message d1 flag authzid name nonce /\ aget name users = Some u /\
    let full := (nonce ++ nonce_of samples)%list in
    let msg := auth_message (lit "n=" ++ name ++ lit ",r=" ++ nonce) sf (gs2_header authzid) full in
    sf = (lit "r=" ++ full ++ lit ",s=" ++ b64_encode true (su_salt u) ++ lit ",i=" ++ show (su_iterations u))%list /\
    forall d2 answer, serve_final hmac sha256 w d2 = Some (true, answer) <->
      (authzid = None \/ authzid = Some name) /\
      (exists ext, extension ext /\ d2 = (lit "c=" ++ b64_encode true (gs2_header authzid) ++ lit ",r=" ++ full ++ lit ",p=" ++
         b64_encode true (rfc_proof hmac sha256 (su_hash u) msg) ++ ext)%list) /\
      answer = (lit "v=" ++ b64_encode true (rfc_signature hmac (su_hash u) msg))%list.
Proof. exact sound. Qed.
Print Assumptions C40_sound.

(** A final message accepted in one exchange is not accepted in another one with
    different random numbers, whoever it is for. *)
Theorem C40_no_replay : forall hmac sha256 users1 users2 samples1 samples2 d1 d1' w1 w2 f1 f2 d2 m1 m2,
  serve_first users1 samples1 d1 = Some (w1, f1) -> serve_first users2 samples2 d1' = Some (w2, f2) ->
  serve_final hmac sha256 w1 d2 = Some (true, m1) -> serve_final hmac sha256 w2 d2 = Some (true, m2) ->
  List.length samples1 = nonce_length -> List.length samples2 = nonce_length -> good_samples samples1 -> good_samples samples2 -> samples1 = samples2.
Proof. exact (fun hmac sha256 => no_replay hmac sha256 (fun _ s _ => s)). Qed.
Print Assumptions C40_no_replay.

(** The machine takes one final message only. *)
Theorem C40_one_attempt : forall hmac sha256 w d d', decode_client_final hmac sha256 (fst (decode_client_final hmac sha256 (SFinal w) d)) d' = (SDone, None).
Proof. reflexivity. Qed.
Print Assumptions C40_one_attempt.

(** The client accepts exactly the server's signature for its own password and messages,
    and only a nonce that continues its own. *)
Theorem C40_client_sound : forall hmac sha256 pbkdf2 c1 gs2 password nonce bare sf c2 d2 answer, c1 = CFirst gs2 password nonce bare ->
  decode_server_first hmac sha256 pbkdf2 c1 sf = (c2, Some d2) ->
  exists full salt iterations, parse_server_first sf = Some (full, salt, iterations) /\ (exists r, full = (nonce ++ r)%list) /\
    (snd (decode_server_final c2 answer) = CAccept <->
     answer = (lit "v=" ++ b64_encode true (rfc_signature hmac (pbkdf2 iterations salt password) (auth_message bare sf gs2 full)))%list).
Proof. exact client_sound. Qed.
Print Assumptions C40_client_sound.

(** ** Where the full claim fails *)
(** A client that supports channel binding says "y,,"; the server answers, but compares the
    final message with "n,,", so that the header of the exchange is never accepted. *)
Theorem C40_flag_y_refuted : forall hmac sha256 users samples name u nonce, good_samples samples -> aget name users = Some u -> ~ In "," name -> ~ In "," nonce ->
  exists w sf, serve_first users samples (lit "y,," ++ lit "n=" ++ name ++ lit ",r=" ++ nonce) = Some (w, sf) /\
    forall rest answer, serve_final hmac sha256 w (lit "c=" ++ b64_encode true (lit "y,,") ++ lit "," ++ rest) <> Some (true, answer).
Proof.
  intros hmac sha256 users samples name u nonce GS G NN NO. eexists _, _. split.
  - apply serve_first_iff. exists (lit "y"), None, name, nonce, u. split; [now right|]. split; [|split; [exact G|split; reflexivity]].
    exists []. split; [now left|]. split; [exact NN|]. split; [exact NO|]. split; [exact I|]. rewrite app_nil_r. reflexivity.
  - intros rest answer H. assert (NC : ~ In "," (nonce ++ nonce_of samples)%list) by (intros K; apply in_app_iff in K; destruct K as [K|K]; [exact (NO K)|exact (nonce_no_comma _ GS K)]).
    match type of H with serve_final _ _ ?w ?d = _ => pose proof (proj1 (serve_final_iff hmac sha256 w d answer NC) H) as H1 end.
    cbn [w_gs2] in H1. clear H. rename H1 into H.
    destruct H as (_ & (ext & _ & E) & _). apply (f_equal (fun l => nth 2 l "0")) in E. lazy in E. discriminate E.
Qed.
Print Assumptions C40_flag_y_refuted.

(** A conforming client escapes the comma in its name; the server looks up the escaped
    name. *)
Theorem C40_escaped_name_refuted : exists name users, aget name users <> None /\
  forall samples nonce, ~ In "," nonce -> serve_first users samples (lit "n,,n=" ++ saslname name ++ lit ",r=" ++ nonce) = None.
Proof.
  exists (lit "a,b"), [(lit "a,b", ScramUser [] 4096 [])]. split; [vm_compute; discriminate|]. intros samples nonce NO.
  assert (A : decode_client_first (lit "n,,n=" ++ saslname (lit "a,b") ++ lit ",r=" ++ nonce) = Some (SPassword (lit "a=2Cb") None nonce)).
  { apply decode_first_iff. exists (lit "n"), None, (lit "a=2Cb"), nonce. split; [now left|]. split; [|reflexivity].
    exists []. split; [now left|]. split; [cbn; intuition discriminate|]. split; [exact NO|]. split; [exact I|]. rewrite app_nil_r. reflexivity. }
  unfold serve_first. rewrite A. reflexivity.
Qed.
Print Assumptions C40_escaped_name_refuted.

(** The client of this crate sends such a name as it is, and is refused. *)
Theorem C40_client_comma_refuted : exists name users, aget name users <> None /\
  forall password samples server_samples, match snd (encode_client_first (client_new name password None samples)) with
    | Some d1 => serve_first users server_samples d1 = None | None => False end.
Proof.
  exists (lit "a,b"), [(lit "a,b", ScramUser [] 4096 [])]. split; [vm_compute; discriminate|]. intros password samples ss. cbn [encode_client_first client_new snd]. reflexivity.
Qed.
Print Assumptions C40_client_comma_refuted.

(** The client panics on some answers of a server, for instance the euro sign. *)
Theorem C40_client_panic_refuted : exists answer, unicode answer /\ forall signature, snd (decode_server_final (CFinal signature) answer) = CPanic.
Proof. exists ["226"; "130"; "172"]. split; [now apply utf8_iff|reflexivity]. Qed.
Print Assumptions C40_client_panic_refuted.

(** * C41: nobody is served before it is authenticated.
    Without the right password (if authentication is on) or without the SCRAM exchange (if
    a mechanism is named), the registry is not asked, no success CONNACK is sent and the
    connection does not come online. *)
Theorem C41_v5_not_served : forall sha256 sha512 pbkdf2 hmac c t samples uuid now p l,
  good_samples samples -> ~ authenticated sha256 sha512 pbkdf2 hmac c t samples p l ->
  forall ask, let r := phase5 sha256 sha512 pbkdf2 hmac c t samples uuid now ask p l in
    (forall k, In (AConnack k) (fst (fst r)) -> ka_code k <> RC_success) /\ (snd r = CFail \/ snd r = CWait) /\
    forall ask', phase5 sha256 sha512 pbkdf2 hmac c t samples uuid now ask' p l = r.
Proof. exact not_served5. Qed.
Print Assumptions C41_v5_not_served.

Theorem C41_v3_not_served : forall sha256 sha512 pbkdf2 c t uuid now p,
  fc_auth c = true -> ~ password_right sha256 sha512 pbkdf2 t (c3_user p) (c3_pass p) -> forall s, phase3 sha256 sha512 pbkdf2 c t uuid now p <> PGo3 s.
Proof. exact not_served3. Qed.
Print Assumptions C41_v3_not_served.

(** A client with the right password and proof comes online; with a wrong proof, a missing
    final message or another packet instead, it does not. *)
Definition ex_phase (l : list (option auth5)) :=
  phase5 toy toy toy_pbkdf2 ex_hmac ex_conf ex_ptable (ex_samples 81) "id-1" 5%N (fun _ => Some (RcNew 3%N)) (ex_auth_connect (Some (ex_first "n"))) l.
Definition ex_auth (password : string) : option auth5 := Some (Auth5 24%N (Some "SCRAM-SHA-256"%string) (Some (string_of_list_ascii (ex_final password)))).
Example C41_case :
  match snd (ex_phase [ex_auth "secret"]) with COnline s pr => s_id s = 3%N /\ pr = false | _ => False end /\
  snd (ex_phase [ex_auth "guess"]) = CFail /\ snd (ex_phase []) = CWait /\ snd (ex_phase [None; ex_auth "secret"]) = CFail.
Proof. vm_compute. auto 6. Qed.

(** * C42: negotiation.
    For every connection that comes online: exactly one CONNACK, what it tells the client
    is what applies, and the expiry and keep-alive are within the configured limits. *)
Theorem C42_negotiated : forall sha256 sha512 pbkdf2 hmac c t samples uuid now ask p l acts pkts s present,
  (cf_inflight_server (fc_cfg c) <= 65535)%N -> (cf_packet_server (fc_cfg c) <= 4294967295)%N ->
  phase5 sha256 sha512 pbkdf2 hmac c t samples uuid now ask p l = (acts, pkts, COnline s present) ->
  exists k, In (AConnack k) acts /\ (forall k', In (AConnack k') acts -> k' = k) /\ ka_code k = RC_success /\ ka_present k = present /\
    s_expiry s = N.min (match co_expiry p with Some e => e | None => 0%N end) (cf_max_expiry (fc_cfg c)) /\ told_expiry p k = s_expiry s /\
    s_keep s = clamp_keep (fc_cfg c) (co_keep p) /\ told_keep p k = s_keep s /\
    told_receive_max k = cf_inflight_server (fc_cfg c) /\ told_max_packet k = cf_packet_server (fc_cfg c) /\ told_alias_max k = cf_alias_max (fc_cfg c) /\
    max_allowed_qos (fc_cfg c) = Some (told_max_qos k) /\ told (ka_retain k) = cf_retain (fc_cfg c) /\ told (ka_wild k) = cf_wildcard (fc_cfg c) /\
    told (ka_subid k) = cf_subid (fc_cfg c) /\ told (ka_shared k) = cf_shared (fc_cfg c) /\
    pq_inflight (o5_q (s_out s)) = match co_rmax p with Some r => r | None => cf_inflight_client (fc_cfg c) end /\
    s_maxpkt s = match co_maxpkt p with Some m => m | None => cf_packet_client (fc_cfg c) end /\
    o5_amax (s_out s) = match co_alias p with Some m => m | None => 0%N end /\
    s_ident s = (if String.eqb (co_ident p) "" then uuid else co_ident p) /\
    ka_assigned k = (if String.eqb (co_ident p) "" then Some (s_ident s) else None).
Proof. exact negotiated. Qed.
Print Assumptions C42_negotiated.

(** The keep-alive is within the limits, if there are any, and unchanged if it was. *)
Theorem C42_keep_alive_partial : forall c k, (cf_min_keep_alive c <= cf_max_keep_alive c)%N -> (cf_min_keep_alive c <= clamp_keep c k <= cf_max_keep_alive c)%N.
Proof. exact (clamp_within toy_pbkdf2). Qed.
Print Assumptions C42_keep_alive_partial.
Theorem C42_keep_alive_kept : forall c k, (cf_min_keep_alive c <= k <= cf_max_keep_alive c)%N -> clamp_keep c k = k.
Proof. exact (clamp_same toy_pbkdf2). Qed.
Print Assumptions C42_keep_alive_kept.

(** Validation accepts a minimum above the maximum; then no keep-alive is within limits.
    It also accepts a receive maximum of 0, which CONNACK then announces although the
    protocol forbids the value. *)
Theorem C42_limits_refuted : exists c, is_valid c = true /\ (cf_max_keep_alive (fc_cfg c) < cf_min_keep_alive (fc_cfg c))%N /\ cf_inflight_server (fc_cfg c) = 0%N /\
  exists k, fst (fst (phase5 toy toy toy_pbkdf2 ex_hmac c [] [] "id-1" 5%N (fun _ => Some (RcNew 3%N)) (ex_connect5 None None) [])) = [AConnack k] /\
    ka_code k = RC_success /\ ka_rmax k = Some 0%N.
Proof.
  exists (FullConfig (Config 2 15 10 0 256 100 50 4294967295 268435460 268435460 65535 true true true true) false false [] [] false [true]).
  split; [reflexivity|]. split; [vm_compute; reflexivity|]. split; [reflexivity|]. eexists. split; [vm_compute; reflexivity|]. split; reflexivity.
Qed.
Print Assumptions C42_limits_refuted.

Example C42_case : exists k s, ex_phase [ex_auth "secret"] = ([AAuth (string_of_list_ascii (match serve_first ex_scram (ex_samples 81) (lit (ex_first "n")) with Some (_, f) => f | None => [] end)); AConnack k], [], COnline s false) /\
  ka_keep k = Some 10%N /\ ka_assigned k = Some "id-1"%string /\ s_expiry s = 7%N /\ ka_expiry k = None.
Proof. eexists _, _. split; [vm_compute; reflexivity|]. vm_compute. repeat split. Qed.

(** * C43: a valid configuration does not make the connection phase panic, and each
    mechanism it lists works for every configured user. *)
Theorem C43_no_panic : forall sha256 sha512 pbkdf2 hmac c t samples uuid now ask p l, is_valid c = true ->
  max_allowed_qos (fc_cfg c) <> None /\ snd (phase5 sha256 sha512 pbkdf2 hmac c t samples uuid now ask p l) <> CCrash.
Proof. intros. split; [now eapply valid_facts|now apply no_panic]. Qed.
Print Assumptions C43_no_panic.

Theorem C43_mechanisms_usable : forall sha256 sha512 pbkdf2 hmac c t cs ss uuid now ask p m name password u rc,
  is_valid c = true -> good_samples cs -> good_samples ss -> In m (fc_mechs c) ->
  aget name (fc_users c) = Some u -> (su_iterations u <= 65535)%N -> su_hash u = pbkdf2 false (su_iterations u) (su_salt u) password 32 ->
  ~ In "," name -> unicode name ->
  (fc_auth c = true -> password_right sha256 sha512 pbkdf2 t (co_user p) (co_pass p)) ->
  co_rmax p <> Some 0%N -> co_maxpkt p <> Some 0%N -> co_will p = None -> co_method p = Some (mechanism_name m) ->
  let hash i s w := pbkdf2 false i s w 32 in
  forall c1 d1, encode_client_first (client_new name password None cs) = (c1, Some d1) -> co_data p = Some (string_of_list_ascii d1) ->
  ask (if String.eqb (co_ident p) "" then uuid else co_ident p) = Some rc ->
  exists sf c2 d2 k s answer,
    decode_server_first hmac sha256 hash c1 sf = (c2, Some d2) /\
    phase5 sha256 sha512 pbkdf2 hmac c t ss uuid now ask p [Some (Auth5 0x18 (Some (mechanism_name m)) (Some (string_of_list_ascii d2)))] =
      ([AAuth (string_of_list_ascii sf); AConnack k], [], COnline s (ka_present k)) /\
    ka_code k = RC_success /\ ka_data k = Some (string_of_list_ascii answer) /\ decode_server_final c2 answer = (CDone, CAccept).
Proof. exact usable. Qed.
Print Assumptions C43_mechanisms_usable.

(** The other checks of validation. *)
Theorem C43_valid_facts : forall c, is_valid c = true ->
  (0 < cf_packet_client (fc_cfg c))%N /\ (0 < cf_packet_server (fc_cfg c))%N /\
  (forall m, In m (fc_mechs c) -> m = MScram256) /\ (forall n u, In (n, u) (fc_users c) -> (4096 <= su_iterations u)%N) /\
  (fc_auth c = true -> fc_password_file c = true) /\ In true (fc_listeners c).
Proof. intros c V. now eapply valid_facts. Qed.
Print Assumptions C43_valid_facts.

Example C43_case : is_valid ex_conf = true /\ (exists k, ex_auth "secret" = Some k) /\
  is_valid (FullConfig (Config 3 15 10 10 256 10 65535 4294967295 268435460 268435460 65535 true true true true) false false [] [] false [true]) = false.
Proof. split; [reflexivity|]. split; [eexists; reflexivity|reflexivity]. Qed.

(** The hypotheses of [C43_mechanisms_usable] are met by the example. *)
Example C43_usable_case : exists c1 d1, encode_client_first (ex_client "secret") = (c1, Some d1) /\ co_data (ex_auth_connect (Some (ex_first "n"))) = Some (string_of_list_ascii d1) /\
  password_right toy toy toy_pbkdf2 ex_ptable (Some "ann"%string) (Some "pw"%string) /\ unicode (lit "ann") /\
  exists u, aget (lit "ann") (fc_users ex_conf) = Some u /\ su_hash u = toy_pbkdf2 false (su_iterations u) (su_salt u) (lit "secret") 32.
Proof.
  eexists _, _. split; [reflexivity|]. split; [vm_compute; reflexivity|]. split; [|split; [now apply utf8_iff|eexists; split; vm_compute; reflexivity]].
  exists "ann"%string, "pw"%string. eexists. split; [reflexivity|]. split; [reflexivity|]. split; [vm_compute; reflexivity|]. split; [vm_compute; discriminate|vm_compute; reflexivity].
Qed.
