(** C67: which answer a CONNECT gets. *)
From Coq Require Import List Bool NArith String Ascii Lia.
From Verif Require Import Base BaseLemmas TopicModel MsgModel PendingModel OutModel RouteModel RetainModel GlobModel Sess5Model Sess3Model ConnModel RegModel BrokerModel
  TextModel TextSpec ScramModel ScramSpec ScramProofs PassModel PassSpec ConfModel OutSpec InSpec BrokerSpec BrokerFacts ConnSpec FrameProofs CoreProofs BrokerInv TaskMove StepProofs RunProofs RegProofs AdmitSpec AdmitProofs PassLast BrokerProps ConnProps OfferProps.
Import ListNotations.
Local Open Scope N_scope.
Local Open Scope list_scope.

(** MQTT 3: the server does what the rules say, and nothing else. *)
Theorem C67_v3 : forall sha256 sha512 pbkdf2 c t uuid now p a,
  answer3 sha256 sha512 pbkdf2 c t p a <-> shows3 uuid p (phase3 sha256 sha512 pbkdf2 c t uuid now p) a.
Proof. exact admit3. Qed.
Print Assumptions C67_v3.

(** MQTT 5, with or without an authentication exchange; [l] is what the client
    sends after CONNECT and [ask] the registry. *)
Theorem C67_v5 : forall sha256 sha512 pbkdf2 hmac c t samples uuid now ask p l a, good_samples samples -> is_valid c = true ->
  answer5 sha256 sha512 pbkdf2 hmac c t samples p (ask (if String.eqb (co_ident p) "" then uuid else co_ident p) <> None) l a <->
  shows5 (phase5 sha256 sha512 pbkdf2 hmac c t samples uuid now ask p l) a.
Proof. intros sha256 sha512 pbkdf2 hmac c t samples uuid now ask p l a GS V. exact (admit5 sha256 sha512 pbkdf2 hmac c t samples GS V uuid now ask p l a). Qed.
Print Assumptions C67_v5.

(** The rules leave no CONNECT without an answer and give no CONNECT two. *)
Theorem C67_one_answer : forall sha256 sha512 pbkdf2 hmac c t samples known p l, good_samples samples -> is_valid c = true -> (known \/ ~ known) ->
  exists a, answer5 sha256 sha512 pbkdf2 hmac c t samples p known l a /\ forall b, answer5 sha256 sha512 pbkdf2 hmac c t samples p known l b -> b = a.
Proof. exact one_answer. Qed.
Print Assumptions C67_one_answer.

(** AUTH is sent to those who began an exchange properly, and to nobody else. *)
Theorem C67_challenge : forall sha256 sha512 pbkdf2 hmac c t samples uuid now ask p l, good_samples samples -> is_valid c = true ->
  (exists d, In (AAuth d) (fst (fst (phase5 sha256 sha512 pbkdf2 hmac c t samples uuid now ask p l)))) <-> challenged sha256 sha512 pbkdf2 c t p.
Proof. intros sha256 sha512 pbkdf2 hmac c t samples uuid now ask p l GS V. exact (admit5_challenge sha256 sha512 pbkdf2 hmac c t samples GS V uuid now ask p l). Qed.
Print Assumptions C67_challenge.

(** Those who are served get the session that the theorems about the whole
    broker start from. *)
Theorem C67_v3_session : forall sha256 sha512 pbkdf2 c t uuid now p s,
  phase3 sha256 sha512 pbkdf2 c t uuid now p = PGo3 s -> s = connect_sess3 (fc_cfg c) uuid now p.
Proof. exact glue3. Qed.
Print Assumptions C67_v3_session.
Theorem C67_v5_session : forall sha256 sha512 pbkdf2 hmac c t samples uuid now ask p l acts pkts s present,
  phase5 sha256 sha512 pbkdf2 hmac c t samples uuid now ask p l = (acts, pkts, COnline s present) ->
  exists rc data k, ask (if String.eqb (co_ident p) "" then uuid else co_ident p) = Some rc /\ In (AConnack k) acts /\ ka_present k = present /\
    session_connect5 unit (fc_cfg c) now rc data (connect_conn5 (fc_cfg c) uuid now p) = Some (s, k).
Proof. exact glue5. Qed.
Print Assumptions C67_v5_session.

(** Every answer occurs. *)
Definition ad_conf (auth len : bool) (cf : config) : full_config := FullConfig cf auth auth ex_scram [MScram256] len [true].
Definition ad_c3 (v310 clean : bool) (i : string) (w : option will3) : connect3 := Connect3 v310 clean 60 i None None w.
Definition ad_phase3 (auth len : bool) p := phase3 toy toy toy_pbkdf2 (ad_conf auth len config_default) [] "id-1" 5 p.
Definition ad_23 : string := "abcdefghijklmnopqrstuvw".
Example C67_v3_case :
  ad_phase3 false false (ad_c3 true true "" None) = PRefuse3 (Connack3 false 2) /\
  ad_phase3 false true (ad_c3 true true (ad_23 ++ "x") None) = PRefuse3 (Connack3 false 2) /\
  (exists s, ad_phase3 false true (ad_c3 true true ad_23 None) = PGo3 s) /\
  (exists s, ad_phase3 false false (ad_c3 true true (ad_23 ++ "x") None) = PGo3 s) /\
  ad_phase3 false false (ad_c3 false false "" None) = PRefuse3 (Connack3 false 2) /\
  (exists s, ad_phase3 false false (ad_c3 false true "" None) = PGo3 s /\ z_ident s = "id-1"%string) /\
  ad_phase3 true false (ad_c3 false true "a" None) = PRefuse3 (Connack3 false 4) /\
  ad_phase3 false false (ad_c3 false true "a" (Some (Will3 L0 false "$a" "x"))) = PErr3.
Proof.
  split; [reflexivity|]. split; [reflexivity|]. split; [eexists; reflexivity|]. split; [eexists; reflexivity|]. split; [reflexivity|].
  split; [eexists; split; reflexivity|]. split; reflexivity.
Qed.

Definition ad_c5 (w : option will5) (rmax maxpkt : option N) (method data : option string) : connect5 :=
  Connect5 true 60 "a" None None w None rmax maxpkt None None method data.
Definition ad_phase5 (auth : bool) (cf : config) (known : bool) p l :=
  phase5 toy toy toy_pbkdf2 ex_hmac (ad_conf auth false cf) [] (ex_samples 81) "id-1" 5 (fun _ => if known then Some (RcNew 3) else None) p l.
Definition ad_codes (r : list cact5 * list pkt5 * cend5) : list (option N) :=
  map (fun x => match x with AConnack k => Some (ka_code k) | AAuth _ => None end) (fst (fst r)).
Definition ad_scram : option string := Some "SCRAM-SHA-256"%string.
Definition ad_will (q : qos) (retain : bool) (tp : string) : option will5 := Some (Will5 q retain tp "bye" None (PProps None None [] "")).
Example C67_v5_case :
  ad_codes (ad_phase5 true config_default true (ad_c5 None None None None None) []) = [Some 0x86] /\
  ad_codes (ad_phase5 false config_default true (ad_c5 None (Some 0) None None None) []) = [Some 0x82] /\
  ad_codes (ad_phase5 false config_default true (ad_c5 None None (Some 0) None None) []) = [Some 0x82] /\
  ad_codes (ad_phase5 false config_default true (ad_c5 None None None None (Some "d"%string)) []) = [Some 0x82] /\
  ad_codes (ad_phase5 false config_default true (ad_c5 None None None (Some "PLAIN"%string) None) []) = [Some 0x8C] /\
  ad_codes (ad_phase5 false config_default true (ad_c5 None None None ad_scram None) []) = [Some 0x87] /\
  ad_codes (ad_phase5 false config_default true (ad_c5 None None None ad_scram (Some (ex_first "n"))) []) = [None] /\
  ad_codes (ad_phase5 false config_default true (ad_c5 None None None ad_scram (Some (ex_first "n"))) [None]) = [None; Some 0x82] /\
  ad_codes (ad_phase5 false config_default true (ad_c5 None None None ad_scram (Some (ex_first "n"))) [ex_auth "guess"]) = [None; Some 0x87] /\
  ad_codes (ad_phase5 false config_default true (ad_c5 None None None ad_scram (Some (ex_first "n"))) [ex_auth "secret"]) = [None; Some 0] /\
  ad_codes (ad_phase5 false config_default true (ad_c5 (ad_will L0 false "") None None None None) []) = [] /\
  ad_codes (ad_phase5 false x_off true (ad_c5 (ad_will L0 true "w") None None None None) []) = [Some 0x9A] /\
  ad_codes (ad_phase5 false x_off true (ad_c5 (ad_will L1 false "w") None None None None) []) = [Some 0x9B] /\
  ad_codes (ad_phase5 false x_off true (ad_c5 (ad_will L0 false "w") None None None None) []) = [Some 0] /\
  ad_codes (ad_phase5 false config_default false (ad_c5 None None None None None) []) = [] /\
  is_valid (ad_conf false false x_off) = true /\ is_valid (ad_conf true false config_default) = true /\ good_samples (ex_samples 81).
Proof.
  repeat (split; [vm_compute; reflexivity|]). apply ex_good. split; vm_compute; congruence.
Qed.

(** "Whoever is refused is told why" is false: a will that may not be published
    closes the connection without a CONNACK, in both versions, and so does an
    identifier in use by a session of the other version. *)
Theorem C67_told_refuted : exists p, ad_phase5 false config_default true p [] = ([], [], CFail) /\ co_will p = ad_will L0 false "$SYS/a" /\
  ad_phase3 false false (ad_c3 false true "a" (Some (Will3 L0 false "$SYS/a" "bye"))) = PErr3 /\
  ad_phase5 false config_default false (ad_c5 None None None None None) [] = ([], [], CFail).
Proof. exists (ad_c5 (ad_will L0 false "$SYS/a") None None None None). repeat split. Qed.
Print Assumptions C67_told_refuted.

Ltac run_off es :=
  let r := eval vm_compute in (trace x_h5 x_h3 x_pick es [] (broker_new x_off)) in
  match r with Some (?h, ?b) => exists h, b; split; [apply (trace_new x_h5 x_h3 x_pick x_off es); vm_compute; reflexivity|] end.
(** "A CONNECT that is refused changes nothing" is false: one whose will asks for
    what the server does not offer is refused only after it has taken over the
    session.  The client that was connected is thrown out, its session with its
    subscription is lost, and nobody can use the identifier again. *)
Theorem C67_refused_changes_nothing_refuted : exists h b, brun x_h5 x_h3 x_pick x_off h b /\
  (exists a q, In q h /\ sess_at (w_b q) 0 = Some a /\ a_ident a = "a"%string /\ a_filters a = ["t"%string]) /\
  exists b' k, bstep x_h5 x_h3 x_pick (EJoin 1) b = BOk b' [OConnack5 1 k; OClosed 1] /\ ka_code k = 0x9A /\ b_tasks b' = [] /\
  forall h' b'', BrokerSpec.bgo x_h5 x_h3 x_pick b' h' b'' -> forall j a, sess_at b'' j = Some a -> a_ident a <> "a"%string.
Proof.
  assert (X : exists h b, brun x_h5 x_h3 x_pick x_off h b /\
    (exists a q, In q h /\ sess_at (w_b q) 0 = Some a /\ a_ident a = "a"%string /\ a_filters a = ["t"%string]) /\
    exists b' k, bstep x_h5 x_h3 x_pick (EJoin 1) b = BOk b' [OConnack5 1 k; OClosed 1] /\ ka_code k = 0x9A /\ b_tasks b' = [] /\
      known b' "a" 0 /\ exists ms, aget 0 (b_chans b') = Some (Chan [] ms false)).
  { run_off (x_a true :: x_up 0 ++ [x_sub 0 "t"; EConnect5 0 "u" (ad_c5 (ad_will L0 true "w") None None None None) None; EPut 1; EControl 0; ETick 1]).
    split; [eexists; eexists; split; [do 3 right; left; reflexivity|]; split; [vm_compute; reflexivity|]; split; reflexivity|].
    eexists. eexists. split; [vm_compute; reflexivity|]. split; [reflexivity|]. split; [reflexivity|]. split; [reflexivity|]. eexists. reflexivity. }
  destruct X as (h & b & R & S & b' & k & E & C & T & K & ms & CH). exists h, b. split; [exact R|]. split; [exact S|].
  exists b', k. split; [exact E|]. split; [exact C|]. split; [exact T|]. intros h' b'' G j a.
  pose proof (good_step _ _ _ _ _ _ _ (run_good _ _ _ _ _ _ R) E) as GB.
  assert (D : dead b' "a" 0). { split; [exact K|]. exists []. exact (f_equal (option_map cview) CH). }
  apply (dead_for_good x_h5 x_h3 x_pick b' h' b'' "a" 0 GB D); auto.
  intros i x A. unfold sess_at in A. rewrite T in A. discriminate.
Qed.
Print Assumptions C67_refused_changes_nothing_refuted.
