(** Reason strings: sent only when wanted and when they fit. *)
From Coq Require Import List Bool NArith ZArith String Ascii Lia.
From Verif Require Import Base BaseLemmas TopicModel MsgModel PendingModel OutModel RouteModel RouteSpec RouteInv RetainModel GlobModel Sess5Model Sess3Model ConnModel
  OutSpec InSpec InProofs InRun RecvSpec SubFacts LinkSpec LinkProofs LinkProofs3 LinkFacts RegModel BrokerModel
  BrokerSpec FrameProofs CoreProofs BrokerInv TaskMove StepProofs RunProofs RegProofs EvolProofs HistProofs LifeSpec TabProofs TabInv RouteRun LifeProofs LifeFacts
  ReplySpec ReplyProofs ReasonSpec.
Import ListNotations.
Local Open Scope N_scope.
Local Open Scope list_scope.

(** ** Sizes *)
Ltac Zify.zify_post_hook ::= Z.div_mod_to_equations.
Lemma varint_size n : n <= varint_max -> size (varint n) = var_len n.
Proof.
  intros H. unfold varint, varint_max, var_len, size in *. cbn [varint_bytes].
  assert (D : forall a, (a / 128 =? 0) = (a <? 128)).
  { intros a. destruct (N.eqb_spec (a / 128) 0) as [E|E]; symmetry; [apply N.ltb_lt|apply N.ltb_ge].
    - apply N.div_small_iff in E; lia.
    - destruct (N.le_gt_cases 128 a); auto. exfalso. apply E. now apply N.div_small. }
  rewrite !D. clear D.
  destruct (N.ltb_spec n 128); [reflexivity|]. cbn [List.length].
  destruct (N.ltb_spec (n / 128) 128), (N.ltb_spec n 16384); try lia; [reflexivity|]. cbn [List.length].
  destruct (N.ltb_spec (n / 128 / 128) 128), (N.ltb_spec n 2097152); try lia; [reflexivity|]. cbn [List.length].
  destruct (N.ltb_spec (n / 128 / 128 / 128) 128); try lia. reflexivity.
Qed.
Ltac Zify.zify_post_hook ::= idtac.
Lemma size_app a b : size (a ++ b) = size a + size b.
Proof. unfold size. rewrite app_length. lia. Qed.
Lemma size_cons a b : size (a :: b) = 1 + size b.
Proof. unfold size. cbn [List.length]. lia. Qed.
Lemma size_chars s : size (chars s) = slen s.
Proof. unfold size, chars, slen. rewrite map_length. f_equal. induction s; cbn; congruence. Qed.
Lemma size_counted s : size (counted s) = 2 + slen s.
Proof. unfold counted. rewrite size_app, size_chars. reflexivity. Qed.
Lemma var_len_le n : 1 <= var_len n <= 4.
Proof. unfold var_len. repeat match goal with |- context [if ?y then _ else _] => destruct y end; lia. Qed.

Lemma disconnect_size code r : slen r < 65536 -> size (disconnect_bytes code r) = disconnect_len r.
Proof.
  intros H. unfold disconnect_bytes, packet, properties, disconnect_len. pose proof (var_len_le (3 + slen r)).
  assert (P : size (31 :: counted r) = 3 + slen r) by (rewrite size_cons, size_counted; lia).
  assert (Q : size (varint (size (31 :: counted r)) ++ 31 :: counted r) = var_len (3 + slen r) + (3 + slen r)).
  { rewrite size_app, P, varint_size; unfold varint_max; lia. }
  rewrite size_cons, size_app, size_cons, Q, varint_size; unfold varint_max; [|lia].
  replace (1 + var_len (3 + slen r) + (3 + slen r)) with (1 + (var_len (3 + slen r) + (3 + slen r))) by lia. lia.
Qed.
Lemma connack_size code r : slen r < 65536 -> size (connack_bytes (connack_plain code (Some r))) = connack_len r.
Proof.
  intros H. unfold connack_bytes, packet, properties, connack_len, connack_plain, connack_props. cbn [ka_expiry ka_rmax ka_maxqos ka_retain ka_maxpkt ka_assigned ka_alias ka_reason ka_wild ka_subid ka_shared ka_keep ka_method ka_data ka_present ka_code field app flag].
  pose proof (var_len_le (3 + slen r)).
  assert (P : size (31 :: counted r ++ []) = 3 + slen r) by (rewrite app_nil_r, size_cons, size_counted; lia).
  assert (Q : size (varint (size (31 :: counted r ++ [])) ++ 31 :: counted r ++ []) = var_len (3 + slen r) + (3 + slen r)).
  { rewrite size_app, P, varint_size; unfold varint_max; lia. }
  rewrite size_cons, size_app, size_cons, size_cons, Q, varint_size; unfold varint_max; [|lia].
  replace (1 + (1 + (var_len (3 + slen r) + (3 + slen r)))) with (2 + var_len (3 + slen r) + (3 + slen r)) by lia. lia.
Qed.

(** ** What a session knows about the client's wishes does not change *)
Definition wishes (s : sess5) := (s_maxpkt s, s_problem s).
Definition allowed (s : sess5) (r : string) : Prop := s_problem s = true /\ disconnect_len r <= s_maxpkt s.
Definition proper (s : sess5) (k : pkt5) : Prop := match k with KDisconnect _ (Some r) => allowed s r /\ slen r < 65536 | _ => True end.

Lemma error_allowed code r s s' k : slen r < 65536 -> error_disconnect code r s = (s', k) -> wishes s' = wishes s /\ proper s k.
Proof.
  intros L. unfold error_disconnect. intros E. injection E as <- <-. split; [reflexivity|].
  destruct (s_problem s) eqn:P; cbn [andb]; [|exact I]. destruct (N.leb_spec (disconnect_len r) (s_maxpkt s)); [|exact I]. cbn. unfold allowed. auto.
Qed.
Lemma own_proper s l : Forall own_kind l -> Forall (proper s) l.
Proof. intros F. eapply Forall_impl; [|exact F]. intros []; cbn; tauto. Qed.
Lemma proper_ext s s' k : wishes s = wishes s' -> proper s k -> proper s' k.
Proof. unfold wishes, proper, allowed. intros E. injection E as -> ->. auto. Qed.

Section Facts.
  Variables (hash5 : wpub5 -> N) (hash3 : wpub3 -> N) (pick : draw -> broker -> string -> string -> N).
  Notation bstep := (bstep hash5 hash3 pick).
  Notation brun := (brun hash5 hash3 pick).
  Notation evol := (evol hash5 hash3 pick).

  Lemma resolve_wishes a w s s1 r : resolve_topic a w s = (s1, r) -> wishes s1 = wishes s /\ match r with inr (_, m) => slen m < 65536 | _ => True end.
  Proof.
    unfold resolve_topic. destruct (pp_alias _).
    - destruct (_ =? 0); [intros H; inversion H; subst; split; reflexivity|]. destruct (_ <? _); [intros H; inversion H; subst; split; reflexivity|].
      destruct (String.eqb _ _); [destruct (aget _ _); intros H; inversion H; subst; split; solve [reflexivity|exact I]|].
      intros H; inversion H; subst; split; solve [reflexivity|exact I].
    - destruct (String.eqb _ _); intros H; inversion H; subst; split; solve [reflexivity|exact I].
  Qed.
  Lemma check_wishes lim w s s1 v : check_qos2 hash5 lim w s = (s1, v) -> wishes s1 = wishes s /\ match v with V_refuse _ m => slen m < 65536 | _ => True end.
  Proof.
    unfold check_qos2. destruct (w5_qp w); try (intros H; inversion H; subst; split; solve [reflexivity|exact I]).
    destruct (aget p (s_qos2 s)).
    - destruct (negb _); [intros H; inversion H; subst; split; solve [reflexivity|exact I]|]. destruct (negb _); intros H; inversion H; subst; split; solve [reflexivity|exact I].
    - destruct (_ <=? _); intros H; inversion H; subst; split; solve [reflexivity|exact I].
  Qed.
  Lemma publish_wishes pk w s g s' g' out : handle_publish5 hash5 pk w s g = Done (s', g', out) -> wishes s' = wishes s /\ Forall (proper s) out.
  Proof.
    unfold handle_publish5. cbv zeta.
    assert (RF : forall code r s1, wishes s1 = wishes s -> slen r < 65536 -> (let '(s'0, k) := error_disconnect code r s1 in Done (s'0, g, [k])) = Done (s', g', out) ->
      wishes s' = wishes s /\ Forall (proper s) out).
    { intros code r s1 W L. destruct (error_disconnect code r s1) as [s2 k] eqn:ED. intros E. injection E as <- _ <-. destruct (error_allowed _ _ _ _ _ L ED) as (W2 & P).
      split; [congruence|]. repeat constructor. eapply proper_ext; eauto. }
    assert (AK : forall n, Forall (proper s) (publish_ack (w5_qp w) n)) by (intros n; unfold publish_ack; destruct (w5_qp w); repeat constructor).
    destruct (starts_with_dollar _); [apply RF; reflexivity|]. destruct (_ && _); [apply RF; reflexivity|].
    destruct (resolve_topic _ _ _) as [s1 [topic|[code r]]] eqn:RT; destruct (resolve_wishes _ _ _ _ _ RT) as (W1 & L1); [|apply RF; auto].
    destruct (negb _); [apply RF; auto; reflexivity|].
    destruct (check_qos2 _ _ _ _) as [s2 v] eqn:CQ. destruct (check_wishes _ _ _ _ _ CQ) as (W2 & L2). assert (W : wishes s2 = wishes s) by congruence.
    destruct v; [|intros E; injection E as <- _ <-; split; [auto|repeat constructor]|apply RF; auto].
    destruct (_ && _); [intros E; injection E as <- _ <-; auto|]. destruct (enc_len5 w); [|discriminate].
    destruct (send_publish5 _ _ _ _) as [((s3, g3), m)|] eqn:SP; [|discriminate]. intros E. injection E as <- _ <-.
    destruct (send_publish5_frame _ _ _ _ _ _ _ SP) as ((bc & nn & ->) & _). auto.
  Qed.
  Lemma disconnect_wishes code expiry s s' out : handle_disconnect5 code expiry s = (s', out) -> wishes s' = wishes s /\ Forall (proper s) out.
  Proof.
    assert (D : forall r, slen r < 65536 -> (let '(s1, k) := error_disconnect RC_protocol_error r s in (s1, [k])) = (s', out) -> wishes s' = wishes s /\ Forall (proper s) out).
    { intros r L. destruct (error_disconnect _ _ _) as [s1 k] eqn:ED. intros E. injection E as <- <-. destruct (error_allowed _ _ _ _ _ L ED). split; auto. }
    unfold handle_disconnect5. destruct expiry as [v|]; [destruct ((0 <? v) && (s_expiry s =? 0))|]; try (apply D; reflexivity); intros E; injection E as <- <-; destruct (code =? 0); split; auto.
  Qed.

  Lemma packet_wishes pk t len x s g s' g' out : packet_step5 hash5 pk t len x s g = Go s' g' out -> wishes s' = wishes s /\ Forall (proper s) out.
  Proof.
    unfold packet_step5, handle_packet5.
    assert (AFT : forall s1 g1 o, wishes s1 = wishes s -> Forall (proper s) o -> (let '(s2, out') := after_packet5 t s1 in Go s2 g1 (o ++ out')) = Go s' g' out ->
      wishes s' = wishes s /\ Forall (proper s) out).
    { intros s1 g1 o R F. destruct (after_packet5 t s1) as (s2, k) eqn:A. intros E. injection E as <- _ <-. apply after_frame in A.
      destruct A as ((o' & t' & ->) & A). split; [exact R|]. apply Forall_app. split; auto. now apply own_proper. }
    assert (ONE : forall k, (forall code r, k <> KDisconnect code r) -> Forall (proper s) [k]).
    { intros k K. constructor; [|constructor]. destruct k; try exact I. destruct (K _ _ eq_refl). }
    destruct (_ <? len).
    { destruct (error_disconnect _ _ _) as [s1 k] eqn:ED. destruct ((fun L => error_allowed _ _ _ _ _ L ED) eq_refl). apply AFT; auto. }
    destruct x as [w|p|p|p|p|p id fs|p fs| |code expiry|].
    - destruct (handle_publish5 hash5 pk w s g) as [((s1, g1), o1)|] eqn:P; [|discriminate]. apply publish_wishes in P. apply AFT; apply P.
    - apply AFT; auto.
    - unfold handle_pubrec5. destruct (out5_on_queue _ _). apply AFT; [reflexivity|apply ONE; discriminate].
    - unfold handle_pubrel5. destruct (aget p (s_qos2 s)); apply AFT; try reflexivity; apply ONE; discriminate.
    - apply AFT; auto.
    - destruct (handle_subscribe5 t p id fs s g) as [((s1, g1), o1)|] eqn:P; [|discriminate].
      assert (W : wishes s1 = wishes s /\ Forall (proper s) o1); [|apply AFT; apply W]. unfold handle_subscribe5 in P.
      assert (G : (if negb (cf_subid (g_cfg g)) && match id with Some _ => true | None => false end
        then Done (s, g, [KSuback p (map (fun _ => RC_subid_not_supported) fs)])
        else match subscribe_all t id fs s g with
          | Panic => Panic
          | Done (s', g', codes, out) => Done (s', g', (out ++ [KSuback p codes])%list)
          end) = Done (s1, g1, o1) -> wishes s1 = wishes s /\ Forall (proper s) o1).
      { destruct (_ && _); [intros E; injection E as <- _ <-; split; [reflexivity|apply ONE; discriminate]|].
        destruct (subscribe_all _ _ _ _ _) as [(((s2, g2), cs), o2)|] eqn:A; [|discriminate]. apply subscribe_all_frame in A.
        destruct A as ((? & ? & ->) & A). intros E. injection E as <- _ <-. split; [reflexivity|]. apply Forall_app. split; [now apply own_proper|apply ONE; discriminate]. }
      destruct id as [[|i]|]; [|exact (G P)..]. destruct (error_disconnect _ _ _) as [s2 k] eqn:ED. destruct ((fun L => error_allowed _ _ _ _ _ L ED) eq_refl). injection P as <- _ <-. auto.
    - unfold handle_unsubscribe5. destruct (unsubscribe_all fs s g) as [((s1, g1), cs)|] eqn:P; [|discriminate]. apply unsubscribe_all_frame in P.
      destruct P as (? & ? & ->). apply AFT; [reflexivity|apply ONE; discriminate].
    - apply AFT; [reflexivity|apply ONE; discriminate].
    - destruct (handle_disconnect5 code expiry s) as (s1, o1) eqn:P. apply disconnect_wishes in P. apply AFT; apply P.
    - discriminate.
  Qed.

  Lemma normal_wishes now c m s s' r : handle_normal5 now c m s = (s', r) -> wishes s' = wishes s.
  Proof. intros H. destruct (normal_frame _ _ _ _ _ _ H) as (o & ->). reflexivity. Qed.
  Lemma pendings_wishes now s s' o : pendings5 now s = (s', o) -> wishes s' = wishes s.
  Proof. intros H. destruct (pendings_frame _ _ _ _ H) as (x & ->). reflexivity. Qed.
  Lemma evol_wishes b e out k s s' : evol b e out k (A5 s) (A5 s') -> wishes s' = wishes s.
  Proof.
    intros V. remember (A5 s) as a eqn:EA. remember (A5 s') as a' eqn:EA'.
    destruct V as [a ID|len x s1 s2 g o E A D PS O|len x s1 s2 g E A D PS O|reason s1 s2 p E D ED O|len x s1 s2 g o E A D PS O|len x s1 s2 g E A D PS O
      |on a a' cs [c0 m] r o E A D CH NM|d a bc n E O|s1 s2 o E A PE O|s1 s2 o E A PE O|a a' b0 b1 ok GB E SW|a E O]; try discriminate EA; try discriminate EA'.
    - congruence.
    - injection EA as ->. injection EA' as ->. eapply packet_wishes; eauto.
    - injection EA as ->. injection EA' as ->. unfold packet_step5 in PS. destruct (handle_packet5 _ _ _ _ _ _ _) eqn:HP; [destruct (after_packet5 _ _); discriminate| |discriminate]. inversion PS; subst.
      unfold handle_packet5 in HP. destruct (_ <? _); [destruct (error_disconnect _ _ _); discriminate|]. destruct x; try discriminate; [| | | | | |inversion HP; auto];
          repeat match goal with H : match ?y with _ => _ end = _ |- _ => destruct y; try discriminate end.
    - injection EA as ->. injection EA' as ->. unfold error_disconnect in ED. inversion ED; reflexivity.
    - subst a a'. cbn [snd normal] in NM. destruct (handle_normal5 (seconds b) (b_cfg b) m s) as [s1 res] eqn:HN. apply normal_wishes in HN. rewrite <- HN.
      destruct res as [[q pk]|]; [|injection NM as -> _; auto]. destruct on; [|injection NM as -> _; auto]. destruct (qos_eqb q L0); [injection NM as -> _; auto|].
      destruct (pendings5 (seconds b) s1) as [s2 more] eqn:PE. injection NM as -> _. eapply pendings_wishes; eauto.
    - subst a. injection EA' as <-. reflexivity.
    - injection EA as ->. injection EA' as ->. apply pendings_wishes in PE. exact PE.
    - destruct (will_steps5 _ _ _ _ _ _ _ _ _ SW EA') as (s0 & bc & n & X & ->). rewrite X in EA. injection EA as ->. reflexivity.
    - subst a. injection EA' as <-. reflexivity.
  Qed.

  Lemma wishes_from c h b k s : brun c h b -> sess_at b k = Some (A5 s) -> exists q t0 uuid p data, made_by h q k /\ w_e q = EConnect5 t0 uuid p data /\
    s_maxpkt s = client_limit c p /\ s_problem s = opt_or (co_problem p) true.
  Proof.
    intros R. revert s. induction R as [|h b e b' out R IH S]; [discriminate|]. intros s A'. pose proof (run_good _ _ _ _ _ _ R) as G. destruct (run_glob _ _ _ _ _ _ R) as (CF & _).
    destruct (step_evol _ _ _ _ _ _ _ G S k _ A') as [(a & A & V)|(x & r & o & A & E & O & J)].
    - pose proof (evol_v _ _ _ _ _ _ _ _ _ V) as AV. destruct a as [s0|s0]; [|discriminate]. destruct (IH _ A) as (q & t0 & uuid & p & data & Q1 & Q2 & Q3). exists q, t0, uuid, p, data. split; [apply made_cons; auto|]. split; auto.
      pose proof (evol_wishes _ _ _ _ _ _ V) as W. unfold wishes in W. injection W as -> ->. auto.
    - destruct x as [cn data|s0]; cbn in J; [|destruct J as (? & ? & ? & _ & _ & X & _); discriminate]. destruct J as (rc & s1 & ack & RC & SC & _ & X & _). injection X as <-.
      pose proof (conn_from _ _ _ _ _ _ _ _ R A) as CO. cbn in CO.
      assert (Y : exists q, made_by h q k /\ connecting (w_b q) (w_e q) (B5 cn data)) by (destruct r; destruct CO as (q & Q1 & Q & _); eauto).
      destruct Y as (q & Q1 & Q2). destruct Q2 as [(t0 & uuid & p & data' & E1 & _ & X)|(t0 & uuid & p & _ & _ & X)]; [|discriminate]. injection X as X1 X2. subst data'.
      exists q, t0, uuid, p, data. split; [apply made_cons; auto|]. split; auto.
      destruct (run_at _ _ _ _ _ _ _ R (proj1 Q1)) as (h2 & h1 & _ & RQ). pose proof (proj1 (run_glob _ _ _ _ _ _ RQ)) as CQ.
      assert (W : wishes s = wishes (cn_s cn)).
      { clear - SC. unfold session_connect5 in SC. destruct rc; [|destruct (negb _)]; (destruct (max_allowed_qos (b_cfg b)); [|discriminate]); injection SC as SC _; subst s;
        repeat match goal with |- context [if ?y then _ else _] => destruct y end; reflexivity. }
      unfold wishes in W. injection W as -> ->. rewrite X1, CQ. split; reflexivity.
  Qed.

  Lemma in_pkts5 k x out : In (OPkt5 k x) out -> In x (pkts5 k out).
  Proof. intros H. unfold pkts5. apply in_flat_map. exists (OPkt5 k x). split; auto. cbn. rewrite N.eqb_refl. left. reflexivity. Qed.

  Lemma asked_reason c h b e b' out k code r : brun c h b -> bstep e b = BOk b' out -> In (OPkt5 k (KDisconnect code (Some r))) out ->
    exists s, sess_at b k = Some (A5 s) /\ allowed s r.
  Proof.
    intros R S I. pose proof (in_pkts5 _ _ _ I) as IK.
    assert (NO : (forall len x, e <> EPacket5 k len x) -> (forall reason, e <> EMalformed k reason) -> False).
    { intros N5 NM. assert (N3 : forall len x, e <> EPacket3 k len x).
      { intros len x ->. cbn [BrokerModel.bstep] in S. unfold do_packet3 in S. destruct (aget k (b_tasks b)) as [[| | | |[s|s]| | | |]|]; try discriminate.
        destruct (z_disc s); [discriminate|]. destruct (packet_step3 _ _ _ _ _ _); try discriminate; inversion S; subst; [rewrite pkts5_map3 in IK|]; destruct IK. }
      destruct (unasked_lemma _ _ _ _ _ _ _ _ S N5 N3) as (M & _).
      assert (MS : messages5 (pkts5 k out) -> False) by (intros F; unfold messages5 in F; rewrite Forall_forall in F; apply (F _ IK)).
      destruct e; auto. destruct M as [(_ & M)|(-> & _)]; [rewrite M in IK; destruct IK|]. eapply NM; reflexivity. }
    destruct e as [| | | | | |j len x| |j reason| | | | | | | |]; try (exfalso; apply NO; intros; discriminate).
    - destruct (N.eq_dec j k) as [->|NE]; [|exfalso; apply NO; congruence]. cbn [BrokerModel.bstep] in S. unfold do_packet5 in S. unfold sess_at.
      destruct (aget k (b_tasks b)) as [[| | | |[s|s]| | | |]|]; try discriminate. destruct (is_disconnected5 s); [discriminate|].
      destruct (packet_step5 _ _ _ _ _ _ _) as [s1 g o|s1 g|] eqn:P; try discriminate; inversion S; subst; [|destruct IK]. rewrite pkts5_map in IK.
      apply packet_wishes in P. destruct P as (_ & P). rewrite Forall_forall in P. exists s. split; [reflexivity|]. apply (P _ IK).
    - destruct (N.eq_dec j k) as [->|NE]; [|exfalso; apply NO; congruence]. cbn [BrokerModel.bstep] in S. unfold do_malformed in S. unfold sess_at.
      destruct (aget k (b_tasks b)) as [[| | | |[s|s]| | | |]|]; try discriminate. destruct (is_disconnected5 s); [discriminate|]. unfold error_disconnect in S. inversion S; subst.
      destruct I as [X|[]]. injection X as <- X. exists s. split; [reflexivity|]. unfold allowed. destruct (s_problem s); cbn [andb] in X; [|discriminate]. destruct (N.leb_spec (disconnect_len reason) (s_maxpkt s)); [|discriminate].
      injection X as <-. auto.
  Qed.

  Lemma wants_iff p : wants_reasons p <-> opt_or (co_problem p) true = true.
  Proof. unfold wants_reasons. destruct (co_problem p) as [[]|]; cbn; split; congruence. Qed.

  Lemma disconnect_reason c h b e b' out k code r : brun c h b -> bstep e b = BOk b' out -> slen r < 65536 -> In (OPkt5 k (KDisconnect code (Some r))) out ->
    exists q t0 uuid p data, made_by h q k /\ w_e q = EConnect5 t0 uuid p data /\ wants_reasons p /\ size (disconnect_bytes code r) <= client_limit c p.
  Proof.
    intros R S L I. destruct (asked_reason _ _ _ _ _ _ _ _ _ R S I) as (s & A & P1 & P2). destruct (wishes_from _ _ _ _ _ R A) as (q & t0 & uuid & p & data & Q1 & Q2 & Q3 & Q4).
    exists q, t0, uuid, p, data. repeat (split; [assumption|]). split; [apply wants_iff; congruence|]. rewrite disconnect_size by auto. congruence.
  Qed.

  (** A packet that cannot be read is answered with its reason exactly if that is wanted and fits. *)
  Lemma malformed_reason c h b k r b' out : brun c h b -> bstep (EMalformed k r) b = BOk b' out -> slen r < 65536 ->
    exists q t0 uuid p data, made_by h q k /\ w_e q = EConnect5 t0 uuid p data /\
      ((wants_reasons p /\ size (disconnect_bytes RC_malformed r) <= client_limit c p) /\ out = [OPkt5 k (KDisconnect RC_malformed (Some r))] \/
       ~ (wants_reasons p /\ size (disconnect_bytes RC_malformed r) <= client_limit c p) /\ out = [OPkt5 k (KDisconnect RC_malformed None)]).
  Proof.
    intros R S L. cbn [BrokerModel.bstep] in S. unfold do_malformed in S.
    destruct (aget k (b_tasks b)) as [[| | | |[s|s]| | | |]|] eqn:T; try discriminate. destruct (is_disconnected5 s); [discriminate|]. unfold error_disconnect in S. inversion S; subst. clear S.
    assert (A : sess_at b k = Some (A5 s)) by (unfold sess_at; rewrite T; reflexivity).
    destruct (wishes_from _ _ _ _ _ R A) as (q & t0 & uuid & p & data & Q1 & Q2 & Q3 & Q4). exists q, t0, uuid, p, data. split; [assumption|]. split; [assumption|].
    rewrite disconnect_size by auto. rewrite wants_iff, <- Q3, <- Q4. destruct (s_problem s); cbn [andb]; [|right; split; [intros (X & _); discriminate|reflexivity]].
    destruct (N.leb_spec (disconnect_len r) (s_maxpkt s)); [left; auto|right]. split; [intros (_ & X); lia|reflexivity].
  Qed.
End Facts.

(** ** The connect phase *)
Section Phase.
  Variable M : Type.
  Variable pw : string -> string -> bool.
  Variable first : string -> option (M * string).
  Variable final : M -> string -> option (bool * string).
  Variable utf8 : string -> bool.
  Notation connect_phase5 := (connect_phase5 M pw first final utf8).

  Definition fits (s : sess5) (k : connack5) : Prop :=
    forall r, ka_reason k = Some r -> s_problem s = true /\ size (connack_bytes k) <= s_maxpkt s.
  Lemma error_fits code r s : slen r < 65536 -> fits s (snd (error_connack code r s)).
  Proof.
    intros L x. unfold error_connack. cbn [snd]. destruct (s_problem s) eqn:P; cbn [andb]; [|discriminate]. destruct (N.leb_spec (connack_len r) (s_maxpkt s)) as [H|H]; [|discriminate].
    intros E. injection E as <-. split; auto. rewrite connack_size; auto.
  Qed.
  Lemma first_fits d s k : scram_first M first utf8 d s = inr k -> fits s k.
  Proof.
    unfold scram_first. destruct d as [d|]; [|intros E; injection E as <-; apply error_fits; reflexivity].
    destruct (negb _); [intros E; injection E as <-; apply error_fits; reflexivity|]. destruct (first d); [discriminate|]. intros E; injection E as <-; apply error_fits; reflexivity.
  Qed.
  Lemma finish_fits c now ask data (cn : conn5 M) k : In (AConnack k) (fst (finish5 M c now ask data cn)) -> ka_reason k = None.
  Proof.
    unfold finish5. destruct (ask _) as [rc|]; [|intros []]. destruct (session_connect5 _ _ _ _ _ _) as [[s1 k1]|] eqn:S; [|intros []]. intros [E|[]]. injection E as ->.
    unfold session_connect5 in S. destruct (match rc with RcNew id => _ | RcPresent st => _ end). destruct (max_allowed_qos c); [|discriminate]. injection S as _ <-. reflexivity.
  Qed.

  Lemma auth_wishes p (cn : conn5 M) : match handle_auth5 M first final utf8 p cn with
    | AStop _ (inl k) => proper (cn_s cn) k
    | AStop _ (inr k) => fits (cn_s cn) k
    | AMore _ cn' _ | ADone _ cn' _ => cn_s cn' = cn_s cn
    | APanic _ => True end.
  Proof.
    assert (RF : forall code r, slen r < 65536 -> fits (cn_s cn) (snd (error_connack code r (cn_s cn)))) by (intros; apply error_fits; auto).
    assert (RD : forall code r, slen r < 65536 -> proper (cn_s cn) (snd (error_disconnect code r (cn_s cn)))).
    { intros code r L. destruct (error_disconnect code r (cn_s cn)) eqn:E. eapply error_allowed; eauto. }
    unfold handle_auth5. destruct (cn_method cn) as [m|]; [|apply RD; reflexivity].
    destruct (negb _); [apply RF; reflexivity|]. destruct (_ =? 0); [apply RF; reflexivity|]. destruct (_ =? 24).
    - destruct (negb _); [apply RD; reflexivity|]. destruct (au_data p) as [d|]; [|apply RF; reflexivity]. destruct (negb _); [apply RF; reflexivity|].
      destruct (cn_mach cn); [|exact I]. destruct (final _ _) as [[[] y]|]; [reflexivity|apply RF; reflexivity..].
    - destruct (cn_auth cn); [apply RF; reflexivity|]. destruct (scram_first _ _ _ _ _) as [[mach data]|k] eqn:F; [reflexivity|]. eapply first_fits; eauto.
  Qed.
  Lemma loop_wishes quota : forall c now ask l (cn : conn5 M) acts pkts e, auth_loop5 M first final utf8 quota c now ask l cn = (acts, pkts, e) ->
    (forall k, In (AConnack k) acts -> fits (cn_s cn) k) /\ Forall (proper (cn_s cn)) pkts.
  Proof.
    induction quota as [|n IH]; intros c now ask l cn acts pkts e; cbn [auth_loop5]; [intros E; injection E as <- <- _; split; [intros ? []|constructor]|].
    destruct l as [|[p|] l]; [intros E; injection E as <- <- _; split; [intros ? []|constructor]| |intros E; injection E as <- <- _; split; [intros k [X|[]]; injection X as <-; apply error_fits; reflexivity|constructor]].
    pose proof (auth_wishes p cn) as W. destruct (handle_auth5 _ _ _ _ _ _) as [[k|k]|cn' data|cn' data|].
    - intros E; injection E as <- <- _. split; [intros ? []|auto].
    - intros E; injection E as <- <- _. split; [intros k' [X|[]]; injection X as <-; exact W|constructor].
    - destruct (auth_loop5 _ _ _ _ _ _ _ _ _ _) as [[a x] e0] eqn:L. intros E; injection E as <- <- _. rewrite <- W. destruct (IH _ _ _ _ _ _ _ _ L) as (A & B). split; auto. intros k [X|X]; [discriminate|auto].
    - pose proof (finish_fits c now ask (Some data) cn') as F. destruct (finish5 _ _ _ _ _ _) as [a e0]. intros E; injection E as <- <- _. split; [|constructor]. intros k K r X. rewrite (F k K) in X. discriminate.
    - intros E; injection E as <- <- _; split; [intros ? []|constructor].
  Qed.

  Lemma phase_reason c a uuid now ask p l acts pkts e : connect_phase5 c a uuid now ask p l = (acts, pkts, e) -> password_ok pw a (co_user p) (co_pass p) = true ->
    (forall k r, In (AConnack k) acts -> ka_reason k = Some r -> wants_reasons p /\ size (connack_bytes k) <= client_limit c p) /\
    (forall code r, In (KDisconnect code (Some r)) pkts -> wants_reasons p /\ size (disconnect_bytes code r) <= client_limit c p).
  Proof.
    intros H PW. set (s := connect_session c uuid p (sess5_new c now)).
    assert (T : (forall k, In (AConnack k) acts -> fits s k) /\ Forall (proper s) pkts).
    { unfold ConnModel.connect_phase5, handle_connect5 in H. rewrite PW in H. cbn [negb] in H. fold s in H. cbv zeta in H.
      assert (RF : forall code r, slen r < 65536 -> ([AConnack (snd (error_connack code r s))], [], CFail) = (acts, pkts, e) -> (forall k, In (AConnack k) acts -> fits s k) /\ Forall (proper s) pkts).
      { intros code r L E. injection E as <- <- _. split; [intros k [X|[]]; injection X as <-; apply error_fits; auto|constructor]. }
      assert (K : match (if s_maxpkt s =? 0 then PRefuse M (snd (error_connack RC_protocol_error "MaximumPacketSize value=0 is not allowed"%string s))
          else if match co_data p, co_method p with Some _, None => true | _, _ => false end
          then PRefuse M (snd (error_connack RC_protocol_error "AuthenticationMethod is missing"%string s))
          else if match co_will p with Some w => String.eqb (wl_topic w) "" || starts_with_dollar (wl_topic w) | None => false end then PErr M
          else match co_method p with
               | None => PGo M (Conn5 s (String.eqb (co_ident p) "") (negb (s_keep s =? co_keep p)) (co_method p) false None)
               | Some m => if negb (known_mechanism m) || negb (existsb (String.eqb m) (ac_mechs a)) then PRefuse M (snd (error_connack RC_bad_auth_method "auth method not supported"%string s))
                  else match scram_first M first utf8 (co_data p) s with
                    | inr k => PRefuse M k
                    | inl (mach, data) => PChallenge M (Conn5 s (String.eqb (co_ident p) "") (negb (s_keep s =? co_keep p)) (co_method p) true (Some mach)) data
                    end
               end) with
        | PErr _ => ([], [], CFail)
        | PRefuse _ k => ([AConnack k], [], CFail)
        | PGo _ cn => let '(x, e) := finish5 M c now ask None cn in (x, [], e)
        | PChallenge _ cn data => let '(x, k, e) := auth_loop5 M first final utf8 2 c now ask l cn in (AAuth data :: x, k, e)
        end = (acts, pkts, e) -> (forall k, In (AConnack k) acts -> fits s k) /\ Forall (proper s) pkts).
      { destruct (_ =? 0); [apply RF; reflexivity|]. destruct (match co_data p with Some _ => _ | None => _ end); [apply RF; reflexivity|].
        destruct (match co_will p with Some _ => _ | None => _ end); [intros E; injection E as <- <- _; split; [intros ? []|constructor]|].
        destruct (co_method p) as [m|].
        - destruct (_ || _); [apply RF; reflexivity|]. destruct (scram_first _ _ _ _ _) as [[mach data]|k] eqn:F.
          + destruct (auth_loop5 _ _ _ _ _ _ _ _ _ _) as [[x y] e0] eqn:L. intros E. injection E as <- <- _. apply loop_wishes in L. cbn [cn_s] in L. destruct L as (A & B). split; auto.
            intros k [X|X]; [discriminate|auto].
          + intros E. injection E as <- <- _. split; [|constructor]. intros k' [X|[]]. injection X as <-. eapply first_fits; eauto.
        - match goal with |- context [finish5 M c now ask None ?cn] => pose proof (finish_fits c now ask None cn) as F end. destruct (finish5 _ _ _ _ _ _) as [x e0]. intros E. injection E as <- <- _.
          split; [|constructor]. intros k K r X. rewrite (F k K) in X. discriminate. }
      destruct (co_rmax p) as [[|n]|]; [revert H; apply RF; reflexivity|apply K; exact H..]. }
    destruct T as (A & B). assert (W : s_problem s = true -> wants_reasons p) by (intros X; apply wants_iff; exact X). assert (LI : s_maxpkt s = client_limit c p) by reflexivity.
    split.
    - intros k r I X. destruct (A k I r X). split; [auto|congruence].
    - intros code r I. rewrite Forall_forall in B. destruct (B _ I) as ((X & Y) & L). split; [auto|]. rewrite disconnect_size by auto. congruence.
  Qed.
  Lemma phase_reasons c a uuid now ask p l acts pkts e : connect_phase5 c a uuid now ask p l = (acts, pkts, e) ->
    (forall k r, In (AConnack k) acts -> ka_reason k = Some r -> ka_code k <> RC_bad_user_or_password -> wants_reasons p /\ size (connack_bytes k) <= client_limit c p) /\
    (forall code r, In (KDisconnect code (Some r)) pkts -> wants_reasons p /\ size (disconnect_bytes code r) <= client_limit c p).
  Proof.
    intros H. destruct (password_ok pw a (co_user p) (co_pass p)) eqn:PW.
    - destruct (phase_reason _ _ _ _ _ _ _ _ _ _ H PW) as (A & B). split; eauto.
    - unfold ConnModel.connect_phase5, handle_connect5 in H. rewrite PW in H. cbn [negb] in H. injection H as <- <- _. split; [|intros ? ? []].
      intros k r [X|[]]. injection X as <-. intros _ N. destruct (N eq_refl).
  Qed.
End Phase.
