From Coq Require Import List Bool Arith NArith Ascii String Lia.
From Coq Require Import ZifyBool ZifyNat ZifyN.
From Verif Require Import Base BaseLemmas MsgModel TopicModel PendingModel AliasModel OutModel GlobModel Sess5Model Sess3Model ConnModel
  TextModel TextProofs PassModel PassSpec PassProofs ScramModel ScramSpec ScramProofs ConfModel ConnSpec.
Import ListNotations.
Local Open Scope N_scope.

Section Gen.
  Variable M : Type.
  Variable pw : string -> string -> bool.
  Variable first : string -> option (M * string).
  Variable final : M -> string -> option (bool * string).
  Variable u8 : string -> bool.
  Notation hc := (handle_connect5 M pw first u8).
  Notation phase := (connect_phase5 M pw first final u8).

  (** What [handle_connect5] lets through. *)
  Lemma hc_go c a uuid now p cn : hc c a uuid now p = PGo M cn ->
    password_ok pw a (co_user p) (co_pass p) = true /\ co_method p = None /\ co_rmax p <> Some 0 /\
    cn = Conn5 (connect_session c uuid p (sess5_new c now)) (String.eqb (co_ident p) "")
           (negb (clamp_keep c (co_keep p) =? co_keep p)) None false None.
  Proof.
    unfold handle_connect5. destruct (password_ok pw a (co_user p) (co_pass p)); [|discriminate]. cbn [negb].
    intros H. split; [reflexivity|].
    destruct (co_rmax p) as [[|rm]|] eqn:ER; try discriminate H;
    (destruct (s_maxpkt _ =? 0); [discriminate H|]);
    (destruct (match co_data p, co_method p with Some _, None => true | _, _ => false end); [discriminate H|]);
    (destruct (match co_will p with Some _ => _ | None => _ end); [discriminate H|]);
    (destruct (co_method p) as [m|] eqn:EM;
     [exfalso; destruct (negb (known_mechanism m) || _)%bool; [discriminate H|]; destruct (scram_first _ _ _ _ _) as [(mach, d)|]; discriminate H|]);
    injection H as <-; (split; [reflexivity|]); (split; [discriminate|reflexivity]).
  Qed.
  Lemma hc_challenge c a uuid now p cn d : hc c a uuid now p = PChallenge M cn d ->
    password_ok pw a (co_user p) (co_pass p) = true /\ co_rmax p <> Some 0 /\
    exists m d1 mach, co_method p = Some m /\ In m (ac_mechs a) /\ known_mechanism m = true /\ co_data p = Some d1 /\ u8 d1 = true /\ first d1 = Some (mach, d) /\
      cn = Conn5 (connect_session c uuid p (sess5_new c now)) (String.eqb (co_ident p) "")
           (negb (clamp_keep c (co_keep p) =? co_keep p)) (Some m) true (Some mach).
  Proof.
    unfold handle_connect5. destruct (password_ok pw a (co_user p) (co_pass p)); [|discriminate]. cbn [negb].
    intros H. split; [reflexivity|].
    destruct (co_rmax p) as [[|rm]|] eqn:ER; try discriminate H;
    (destruct (s_maxpkt _ =? 0); [discriminate H|]);
    (destruct (match co_data p, co_method p with Some _, None => true | _, _ => false end); [discriminate H|]);
    (destruct (match co_will p with Some _ => _ | None => _ end); [discriminate H|]);
    (split; [discriminate|]);
    (destruct (co_method p) as [m|] eqn:EM; [|discriminate H]);
    (destruct (known_mechanism m) eqn:EK; [|discriminate H]); cbn [negb orb] in H;
    (destruct (existsb (String.eqb m) (ac_mechs a)) eqn:EX; [|discriminate H]); cbn [negb] in H;
    unfold scram_first in H; (destruct (co_data p) as [d1|]; [|discriminate H]);
    (destruct (u8 d1) eqn:EU; [|discriminate H]); cbn [negb] in H; (destruct (first d1) as [(mach, d')|] eqn:EF; [|discriminate H]);
    injection H as <- <-; apply existsb_exists in EX; destruct EX as (m' & IM & EQ); apply String.eqb_eq in EQ; subst m';
    exists m, d1, mach; repeat split; auto.
  Qed.

  Definition auth_gen (a : authcfg) (p : connect5) (l : list (option auth5)) : Prop :=
    password_ok pw a (co_user p) (co_pass p) = true /\
    match co_method p with
    | None => True
    | Some m => In m (ac_mechs a) /\ exists d1 mach ch d2 fin rest, co_data p = Some d1 /\ first d1 = Some (mach, ch) /\
                l = Some (Auth5 0x18 (Some m) (Some d2)) :: rest /\ final mach d2 = Some (true, fin)
    end.

  (** The phase either fails without asking the registry, waits, or goes on to
      [finish5] after authentication. *)
  Definition quiet (x : list cact5 * list pkt5 * cend5) : Prop :=
    (forall k, In (AConnack k) (fst (fst x)) -> ka_code k <> RC_success) /\ (snd x = CFail \/ snd x = CWait).
  Lemma error_code code r s : ka_code (snd (error_connack code r s)) = code.
  Proof. reflexivity. Qed.

  Lemma loop_shape q c now ask l cn mach m : cn_auth cn = true -> cn_mach cn = Some mach -> cn_method cn = Some m ->
    (exists d2 fin rest, l = Some (Auth5 0x18 (Some m) (Some d2)) :: rest /\ final mach d2 = Some (true, fin) /\
       auth_loop5 M first final u8 (S q) c now ask l cn =
       (let '(a, e) := finish5 M c now ask (Some fin) (Conn5 (cn_s cn) (cn_assigned cn) (cn_srv_keep cn) (cn_method cn) false (Some mach)) in (a, [], e))) \/
    (quiet (auth_loop5 M first final u8 (S q) c now ask l cn) /\ forall ask', auth_loop5 M first final u8 (S q) c now ask' l cn = auth_loop5 M first final u8 (S q) c now ask l cn).
  Proof.
    intros HA HM HMe. cbn [auth_loop5].
    assert (Q1 : forall r, quiet ([AConnack (snd (error_connack RC_protocol_error r (cn_s cn)))], [], CFail)) by (intros r; split; [intros k [E|[]]; injection E as <-; discriminate|now left]).
    assert (Q2 : forall r, quiet ([AConnack (snd (error_connack RC_not_authorized r (cn_s cn)))], [], CFail)) by (intros r; split; [intros k [E|[]]; injection E as <-; discriminate|now left]).
    destruct l as [|[p|] r].
    - right. split; [|reflexivity]. split; [intros k []|now right].
    - unfold handle_auth5. rewrite HMe, HA, HM. destruct (opt_eqb (Some m) (au_method p)) eqn:EQ; cbn [negb]; [|right; split; [apply Q1|reflexivity]].
      destruct (au_code p =? 0) eqn:E0; [right; split; [apply Q1|reflexivity]|].
      destruct (au_code p =? 24) eqn:E1; [|right; split; [apply Q1|reflexivity]].
      destruct (au_data p) as [d2|] eqn:ED; [|right; split; [apply Q2|reflexivity]].
      destruct (u8 d2); cbn [negb]; [|right; split; [apply Q2|reflexivity]].
      destruct (final mach d2) as [([|], fin)|] eqn:EF; [|right; split; [apply Q2|reflexivity]|right; split; [apply Q2|reflexivity]].
      left. exists d2, fin, r. split; [|split; [exact EF|reflexivity]].
      destruct p as [co me da]. cbn [au_code au_method au_data] in *. cbn [opt_eqb] in EQ. destruct me as [m'|]; [|discriminate]. apply String.eqb_eq in EQ. subst m' da.
      apply N.eqb_eq in E1. now subst co.
    - right. split; [apply Q1|reflexivity].
  Qed.

  Lemma phase_shape c a uuid now ask p l :
    (auth_gen a p l /\ co_rmax p <> Some 0 /\ exists pre data cn, (forall k, ~ In (AConnack k) pre) /\
       cn_s cn = connect_session c uuid p (sess5_new c now) /\ cn_assigned cn = String.eqb (co_ident p) "" /\ cn_srv_keep cn = negb (clamp_keep c (co_keep p) =? co_keep p) /\
       cn_method cn = co_method p /\
       phase c a uuid now ask p l = (let '(x, e) := finish5 M c now ask data cn in (pre ++ x, [], e)%list)) \/
    (quiet (phase c a uuid now ask p l) /\ forall ask', phase c a uuid now ask' p l = phase c a uuid now ask p l).
  Proof.
    unfold connect_phase5. destruct (hc c a uuid now p) as [|k|cn d|cn] eqn:E.
    - right. split; [|reflexivity]. split; [intros k []|now left].
    - right. split; [|reflexivity]. split; [|now left]. intros k' [K|[]]. injection K as <-. clear -E. unfold handle_connect5 in E.
      unfold scram_first in E.
      repeat (match type of E with context[match ?x with _ => _ end] =>
        lazymatch x with context[match _ with _ => _ end] => fail | _ => let E' := fresh "E'" in destruct x eqn:E' end end; try discriminate E);
      inversion E; subst k; discriminate.
    - destruct (hc_challenge _ _ _ _ _ _ _ E) as (PW & RM & m & d1 & mach & EM & IM & KM & ED & _ & EF & ->).
      set (cn := Conn5 _ _ _ _ true _).
      destruct (loop_shape 1 c now ask l cn mach m eq_refl eq_refl eq_refl) as [(d2 & fin & rest & -> & FI & ->)|(Q & AS)].
      + left. split.
        * split; [exact PW|]. rewrite EM. split; [exact IM|]. exists d1, mach, d, d2, fin, rest. auto.
        * split; [exact RM|]. exists [AAuth d], (Some fin), (Conn5 (cn_s cn) (cn_assigned cn) (cn_srv_keep cn) (cn_method cn) false (Some mach)).
          split; [intros k [K|[]]; discriminate|]. split; [reflexivity|]. split; [reflexivity|]. split; [reflexivity|]. split; [now rewrite EM|].
          destruct (finish5 _ _ _ _ _ _). reflexivity.
      + right. split.
        * destruct Q as (Q1 & Q2). destruct (auth_loop5 M first final u8 2 c now ask l cn) as ((x, k), e). cbn [fst snd] in *. split; [|exact Q2]. intros k' [K|K]; [discriminate|now apply Q1].
        * intros ask'. now rewrite AS.
    - destruct (hc_go _ _ _ _ _ _ E) as (PW & EM & RM & ->). left. split; [split; [exact PW|now rewrite EM]|]. split; [exact RM|].
      exists [], None, (Conn5 (connect_session c uuid p (sess5_new c now)) (String.eqb (co_ident p) "") (negb (clamp_keep c (co_keep p) =? co_keep p)) None false None).
      split; [intros k []|]. split; [reflexivity|]. split; [reflexivity|]. split; [reflexivity|]. split; [now rewrite EM|reflexivity].
  Qed.
End Gen.

(** What [session_connect5] establishes. *)
Lemma session_connect_told M c now rc data (cn : conn5 M) p s k :
  session_connect5 M c now rc data cn = Some (s, k) ->
  s_expiry (cn_s cn) = match co_expiry p with Some e => e | None => 0 end -> cn_srv_keep cn = negb (s_keep (cn_s cn) =? co_keep p) ->
  cf_inflight_server c <= 65535 -> cf_packet_server c <= 4294967295 ->
  s_expiry s = N.min (match co_expiry p with Some e => e | None => 0 end) (cf_max_expiry c) /\ told_expiry p k = s_expiry s /\
  s_keep s = s_keep (cn_s cn) /\ told_keep p k = s_keep s /\
  told_receive_max k = cf_inflight_server c /\ told_max_packet k = cf_packet_server c /\ told_alias_max k = cf_alias_max c /\
  max_allowed_qos c = Some (told_max_qos k) /\ told (ka_retain k) = cf_retain c /\ told (ka_wild k) = cf_wildcard c /\
  told (ka_subid k) = cf_subid c /\ told (ka_shared k) = cf_shared c /\
  s_rmax s = s_rmax (cn_s cn) /\ pq_inflight (o5_q (s_out s)) = s_rmax s /\ s_maxpkt s = s_maxpkt (cn_s cn) /\ o5_amax (s_out s) = o5_amax (s_out (cn_s cn)) /\
  s_ident s = s_ident (cn_s cn) /\ ka_assigned k = (if cn_assigned cn then Some (s_ident s) else None) /\
  (s_connected s = true <-> s_connected (cn_s cn) = true \/ ka_code k = RC_success).
Proof.
  intros H HE HK B1 B2. unfold session_connect5 in H.
  set (s1p := match rc with RcNew id => (with_id id (cn_s cn), false) | RcPresent st => _ end) in H.
  assert (S1 : exists s1 pr, s1p = (s1, pr) /\ s_expiry s1 = s_expiry (cn_s cn) /\ s_keep s1 = s_keep (cn_s cn) /\ s_rmax s1 = s_rmax (cn_s cn) /\
     s_maxpkt s1 = s_maxpkt (cn_s cn) /\ o5_amax (s_out s1) = o5_amax (s_out (cn_s cn)) /\ s_ident s1 = s_ident (cn_s cn) /\ s_connected s1 = s_connected (cn_s cn)).
  { unfold s1p. destruct rc as [id|st]; [|destruct (negb (s_clean (cn_s cn)))]; eexists _, _; (split; [reflexivity|]); repeat split. }
  destruct S1 as (s1 & pr & E & X1 & X2 & X3 & X4 & X5 & X6 & X7). rewrite E in H. clear E s1p.
  destruct (max_allowed_qos c) as [mq|] eqn:EQ; [|discriminate].
  set (s2 := with_out _ s1) in H. set (over := cf_max_expiry c <? s_expiry s2) in H. set (s3 := if over then with_expiry (cf_max_expiry c) s2 else s2) in H.
  set (code := will_code c mq (s_will s3)) in H. injection H as Hs Hk.
  assert (P : s_expiry s3 = N.min (s_expiry (cn_s cn)) (cf_max_expiry c) /\ s_keep s3 = s_keep (cn_s cn) /\ s_rmax s3 = s_rmax (cn_s cn) /\
     s_maxpkt s3 = s_maxpkt (cn_s cn) /\ o5_amax (s_out s3) = o5_amax (s_out (cn_s cn)) /\ s_ident s3 = s_ident (cn_s cn) /\ s_connected s3 = s_connected (cn_s cn) /\
     pq_inflight (o5_q (s_out s3)) = s_rmax (cn_s cn)).
  { unfold s3, over. change (s_expiry s2) with (s_expiry s1). rewrite X1. destruct (N.ltb_spec (cf_max_expiry c) (s_expiry (cn_s cn))) as [L|L].
    - change (s_expiry (with_expiry (cf_max_expiry c) s2)) with (cf_max_expiry c). split; [lia|].
      change (s_keep s1 = s_keep (cn_s cn) /\ s_rmax s1 = s_rmax (cn_s cn) /\ s_maxpkt s1 = s_maxpkt (cn_s cn) /\ o5_amax (s_out s1) = o5_amax (s_out (cn_s cn)) /\ s_ident s1 = s_ident (cn_s cn) /\ s_connected s1 = s_connected (cn_s cn) /\ s_rmax s1 = s_rmax (cn_s cn)). tauto.
    - change (s_expiry s2) with (s_expiry s1). split; [lia|].
      change (s_keep s1 = s_keep (cn_s cn) /\ s_rmax s1 = s_rmax (cn_s cn) /\ s_maxpkt s1 = s_maxpkt (cn_s cn) /\ o5_amax (s_out s1) = o5_amax (s_out (cn_s cn)) /\ s_ident s1 = s_ident (cn_s cn) /\ s_connected s1 = s_connected (cn_s cn) /\ s_rmax s1 = s_rmax (cn_s cn)). tauto. }
  destruct P as (P1 & P2 & P3 & P4 & P5 & P6 & P7 & P8).
  assert (Q : s_expiry s = s_expiry s3 /\ s_keep s = s_keep s3 /\ s_rmax s = s_rmax s3 /\ s_maxpkt s = s_maxpkt s3 /\ s_out s = s_out s3 /\ s_ident s = s_ident s3 /\
     s_connected s = (if code =? RC_success then true else s_connected s3)).
  { subst s. destruct (code =? RC_success); repeat split. }
  destruct Q as (Q1 & Q2 & Q3 & Q4 & Q5 & Q6 & Q7).
  rewrite Q1, Q2, Q3, Q4, Q5, Q6, Q7. subst k.
  unfold told_expiry, told_keep, told_receive_max, told_max_packet, told_alias_max, told_max_qos, told.
  cbn [ka_expiry ka_keep ka_rmax ka_maxpkt ka_alias ka_maxqos ka_retain ka_wild ka_subid ka_shared ka_assigned ka_code].
  rewrite P1, HE. split; [reflexivity|]. split.
  { unfold over. change (s_expiry s2) with (s_expiry s1). rewrite X1, HE. destruct (N.ltb_spec (cf_max_expiry c) (match co_expiry p with Some e => e | None => 0 end)); [reflexivity|lia]. }
  split; [exact P2|]. split. { rewrite HK, P2. destruct (N.eqb_spec (s_keep (cn_s cn)) (co_keep p)) as [K|K]; cbn [negb]; [now rewrite K|reflexivity]. }
  split. { destruct (N.eqb_spec (cf_inflight_server c) 65535); [now symmetry|reflexivity]. }
  split. { destruct (N.ltb_spec (cf_packet_server c) 4294967295); [reflexivity|lia]. }
  split. { destruct (N.ltb_spec 0 (cf_alias_max c)); [reflexivity|lia]. }
  split. { destruct mq; reflexivity. }
  split; [now destruct (cf_retain c)|]. split; [now destruct (cf_wildcard c)|]. split; [now destruct (cf_subid c)|]. split; [now destruct (cf_shared c)|].
  split; [exact P3|]. split; [now rewrite P8, P3|]. split; [exact P4|]. split; [exact P5|]. split; [exact P6|]. split; [reflexivity|].
  rewrite P7. destruct (N.eqb_spec code RC_success) as [K|K]; [rewrite K; tauto|]. split; [tauto|]. intros [A|A]; [exact A|contradiction].
Qed.
