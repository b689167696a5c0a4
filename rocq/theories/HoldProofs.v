(** Proofs for C72: what the server keeps for one client. *)
From Coq Require Import List Bool NArith String Ascii Lia.
From Verif Require Import Base BaseLemmas TopicModel TopicSpec MsgModel PendingModel OutModel RouteModel RouteSpec RouteInv RetainModel GlobModel Sess5Model Sess3Model ConnModel RegModel BrokerModel
  InSpec DelivSpec RecvSpec InProofs InRun InRun3 SubProofs SubFacts TabProofs SubsSpec SubsProofs DelivLast BrokerSpec FrameProofs CoreProofs BrokerInv TaskMove StepProofs RunProofs LifeSpec LifeProofs
  LinkSpec LinkFacts LinkProofs LinkProofs3 LinkFacts LinkFacts RecordProofs AccSpec AccProofs TabInv RouteRun PanicProofs BrokerProps.
Import ListNotations.
Local Open Scope string_scope.
Local Open Scope N_scope.
Local Open Scope list_scope.

(** ** Aliases *)
Definition al_ok (m : N) (l : list (N * string)) : Prop := NoDup (keys l) /\ Forall (fun a => 1 <= a <= m) (keys l).
Lemma al_length m l : al_ok m l -> N.of_nat (List.length l) <= m.
Proof.
  intros (ND & F). replace (List.length l) with (List.length (map N.to_nat (keys l))) by (unfold keys; rewrite !map_length; auto).
  assert (L : (List.length (map N.to_nat (keys l)) <= List.length (seq 1 (N.to_nat m)))%nat).
  { apply NoDup_incl_length.
    - apply FinFun.Injective_map_NoDup; [|exact ND]. intros a b E. now apply N2Nat.inj.
    - intros x H. apply in_map_iff in H. destruct H as (a & <- & H). rewrite Forall_forall in F. specialize (F a H). apply in_seq. lia. }
  rewrite seq_length in L. lia.
Qed.
Lemma al_set m l a t : al_ok m l -> 1 <= a <= m -> al_ok m (aset a t l).
Proof.
  intros (ND & F) A. split; [apply NoDup_aset; auto|]. rewrite Forall_forall in *. intros x H.
  apply in_keys_aget in H. destruct H as (v & H). rewrite aget_aset in H. destruct (eqb_spec x a) as [->|]; auto. apply F, in_keys_aget. eauto.
Qed.

Section Hold.
  Variables (hash5 : wpub5 -> N) (hash3 : wpub3 -> N) (pick : draw -> broker -> string -> string -> N).

  Lemma publish_al pk w s g s' g' out : handle_publish5 hash5 pk w s g = Done (s', g', out) -> al_ok (cf_alias_max (g_cfg g)) (s_alias s) -> al_ok (cf_alias_max (g_cfg g)) (s_alias s').
  Proof.
    unfold handle_publish5, error_disconnect. intros E OK. revert E.
    destruct (starts_with_dollar _); [intros E; injection E as <- <- _; exact OK|].
    destruct (is_q0 _ && _); [intros E; injection E as <- <- _; exact OK|].
    assert (R : forall s1 x, resolve_topic (cf_alias_max (g_cfg g)) w s = (s1, x) -> exists al, s1 = with_alias al s /\ al_ok (cf_alias_max (g_cfg g)) al).
    { intros s1 x. unfold resolve_topic.
      destruct (pp_alias _) as [a|]; [destruct (N.eqb_spec a 0); [|destruct (N.ltb_spec (cf_alias_max (g_cfg g)) a); [|destruct (String.eqb _ _); [destruct (aget a _)|]]]
        |destruct (String.eqb _ _)]; intros E; injection E as <- _; try (exists (s_alias s); split; [now destruct s|exact OK]).
      eexists. split; [reflexivity|]. apply al_set; auto. lia. }
    destruct (resolve_topic _ w s) as (s1, x) eqn:RT. destruct (R s1 x eq_refl) as (al & -> & OK1). clear R RT.
    destruct x as [T|(code, r)]; [|intros E; injection E as <- <- _; exact OK1].
    destruct (negb _); [intros E; injection E as <- <- _; exact OK1|].
    assert (Q : forall s2 v, check_qos2 hash5 (cf_inflight_server (g_cfg g)) w (with_alias al s) = (s2, v) -> s_alias s2 = al).
    { intros s2 v. unfold check_qos2. destruct (w5_qp w); try (intros E; injection E as <- _; reflexivity).
      destruct (aget _ _); [destruct (negb _); [|destruct (negb _)]|destruct (_ <=? _)];
        intros E; injection E as <- _; reflexivity. }
    destruct (check_qos2 hash5 _ w _) as (s2, v) eqn:CQ. specialize (Q s2 v eq_refl).
    destruct v as [| |code r]; try (intros E; injection E as <- <- _; cbn; rewrite Q; exact OK1).
    destruct (_ && _); [intros E; injection E as <- <- _; rewrite Q; exact OK1|].
    destruct (enc_len5 w); [|discriminate].
    destruct (send_publish5 pk _ _ g) as [((s3, g3), n3)|] eqn:SP; [|discriminate].
    apply send_publish5_frame in SP. destruct SP as ((b & k & ->) & SR). intros E. injection E as <- <- _. cbn. rewrite Q. exact OK1.
  Qed.

  Lemma packet_al pk now len x s g s' g' out : packet_step5 hash5 pk now len x s g = Go s' g' out -> al_ok (cf_alias_max (g_cfg g)) (s_alias s) -> al_ok (cf_alias_max (g_cfg g)) (s_alias s').
  Proof.
    unfold packet_step5. destruct (handle_packet5 hash5 pk now len x s g) as [s1 g1 o1| |] eqn:H; try discriminate.
    destruct (after_packet5 now s1) as (s2, o2) eqn:A. intros E OK. injection E as <- <- <-. apply after_frame in A. destruct A as ((oo & tt & ->) & _).
    change (al_ok (cf_alias_max (g_cfg g)) (s_alias s1)). clear o2.
    unfold handle_packet5 in H. destruct (_ <? len); [cbn in H; injection H as <- <- <-; exact OK|].
    destruct x.
    - destruct (handle_publish5 _ _ _ _ _) as [((s3, g3), o3)|] eqn:P; [|discriminate]. injection H as <- <- <-. eapply publish_al; eauto.
    - cbn in H. injection H as <- <- <-. exact OK.
    - unfold handle_pubrec5 in H. destruct (out5_on_queue _ _). injection H as <- <- <-. exact OK.
    - unfold handle_pubrel5 in H. destruct (aget _ _); injection H as <- <- <-; exact OK.
    - cbn in H. injection H as <- <- <-. exact OK.
    - destruct (handle_subscribe5 _ _ _ _ _ _) as [((s3, g3), o3)|] eqn:P; [|discriminate]. injection H as <- <- <-.
      unfold handle_subscribe5 in P.
      assert (Y : s_alias s3 = s_alias s); [|rewrite Y; exact OK].
      assert (Z : (if negb (cf_subid (g_cfg g)) && match id with Some _ => true | None => false end
        then Done (s, g, [KSuback p (map (fun _ => RC_subid_not_supported) fs)])
        else match subscribe_all now id fs s g with Panic => Panic | Done (s', g', codes, out) => Done (s', g', (out ++ [KSuback p codes])%list) end) = Done (s3, g3, o3) -> s_alias s3 = s_alias s).
      { destruct (_ && _); [intros E; injection E as <- _ _; reflexivity|].
        destruct (subscribe_all _ _ _ _ _) as [(((s4, g4), c4), k4)|] eqn:SA; [|discriminate]. intros E; injection E as <- _ _. apply subscribe_all_frame in SA. destruct SA as (SA & _). apply outsubs_same in SA. apply SA. }
      destruct id as [[|i]|]; auto. cbn in P. injection P as <- _ _. reflexivity.
    - unfold handle_unsubscribe5 in H. destruct (unsubscribe_all fs s g) as [((s3, g3), c3)|] eqn:U; [|discriminate]. injection H as <- _ _.
      apply unsubscribe_all_frame, outsubs_same in U. destruct U as (-> & _). exact OK.
    - injection H as <- <- <-. exact OK.
    - destruct (handle_disconnect5 _ _ _) as (s3, o3) eqn:D. injection H as <- <- <-.
      assert (Y : s_alias s3 = s_alias s); [|rewrite Y; exact OK].
      unfold handle_disconnect5 in D. destruct expiry as [v|]; [destruct ((0 <? v) && (s_expiry s =? 0))|]; cbn [error_disconnect] in D; injection D as <- _; destruct (code =? 0); reflexivity.
    - discriminate.
  Qed.

  Lemma srun5_al c s l : srun5 hash5 c s l -> al_ok (cf_alias_max c) (s_alias s).
  Proof.
    assert (NIL : al_ok (cf_alias_max c) []) by (split; constructor).
    induction 1 as [s [t0 now uuid p data id s1 k E]|s l e s' out R IH S].
    - assert (B : s_alias s1 = []); [|rewrite B; exact NIL].
      unfold session_connect5 in E. cbn [cn_s new_conn] in E. destruct (max_allowed_qos c); [|discriminate]. injection E as E _. subst s1.
      destruct (_ <? _); match goal with |- context [if ?b then _ else _] => destruct b end; reflexivity.
    - destruct S as [pk s now len x g s' g' out D WF (GC & GW) E|s now m s' r E|s b n|s now s' out E|s now m s' r E|s reason s' k E|s conn last w|s t0 now uuid p data s' k E].
      + rewrite <- GC in *. eapply packet_al; eauto.
      + apply normal_frame in E. destruct E as (o & ->). exact IH.
      + exact IH.
      + apply pendings_frame in E. destruct E as (o & ->). exact IH.
      + apply normal_frame in E. destruct E as (o & ->). exact IH.
      + injection E as <- <-. exact IH.
      + exact IH.
      + apply take_fields in E. destruct E as (-> & _). exact NIL.
  Qed.

  (** ** The inbox *)
  Lemma passed_room e b b' out d : bstep hash5 hash3 pick e b = BOk b' out -> passed d (Past b e out) = [] \/
    (List.length (passed d (Past b e out)) = 1%nat /\ (List.length (waiting b d) < 8)%nat).
  Proof.
    intros S. destruct e; try (left; reflexivity). unfold passed. cbn [w_e w_b].
    destruct (N.eqb_spec d0 d) as [->|]; [|left; reflexivity]. cbn [andb]. destruct (received_for b d) eqn:RF; [|left; reflexivity].
    unfold sess_at. cbn [bstep] in S. unfold do_flush in S.
    destruct (aget k (b_tasks b)) as [t|]; [|left; reflexivity]. destruct (t_sess t) as [a|] eqn:TS; [|left; reflexivity].
    assert (F : exists x, flush d a b = Some x).
    { destruct t as [x c|x c|x r|a0|a0|a0|a0|a0|a0 st]; try discriminate TS; try discriminate S; cbn in TS; injection TS as ->; (destruct (flush d a b); [eauto|discriminate]). }
    destruct F as (x & F). unfold flush in F. unfold queue_of. destruct (aget d (a_bcast a)) as [[|m ms]|]; [left; reflexivity| |discriminate].
    - right. split; [reflexivity|]. unfold received_for in RF. unfold waiting. destruct (aget d (b_chans b)) as [ch|]; [|discriminate].
      rewrite RF in F. unfold norm_room in F. destruct (N.ltb_spec (N.of_nat (List.length (ch_norm ch))) 8); [lia|discriminate].
  Qed.
  Lemma run_inbox c h b : brun hash5 hash3 pick c h b -> forall d, (List.length (waiting b d) <= 8)%nat.
  Proof.
    induction 1 as [|h b e b' out R IH S]; intros d; [cbn; lia|].
    pose proof (chan_step hash5 hash3 pick e b b' out d (run_good _ _ _ _ _ _ R) S) as E. apply (f_equal (@List.length _)) in E. rewrite !app_length, map_length in E.
    specialize (IH d). destruct (passed_room e b b' out d S) as [P|(P & Q)]; rewrite P in E; cbn in E; lia.
  Qed.

  Lemma holds5 c h b k s : brun hash5 hash3 pick c h b -> (forall p, In p h -> proper p) -> (forall p, In p h -> after_1970 p) -> sess_at b k = Some (A5 s) ->
    N.of_nat (List.length (pq (o5_q (s_out s)))) <= cf_max_pending c /\ N.of_nat (List.length (s_qos2 s)) <= cf_inflight_server c /\
    N.of_nat (List.length (s_alias s)) <= cf_alias_max c /\ (List.length (waiting b (s_id s)) <= 8)%nat.
  Proof.
    intros R P T A. destruct (is_run5 hash5 hash3 pick _ _ _ _ _ R P T A) as (l & L & S & C).
    split; [exact (s12_bound _ _ _ _ S C)|]. split; [exact (i_max _ _ _ _ (run_inv _ _ _ _ S))|]. split; [apply al_length; eapply srun5_al; eauto|]. eapply run_inbox; eauto.
  Qed.
  Lemma holds3 c h b k s : brun hash5 hash3 pick c h b -> (forall p, In p h -> proper p) -> (forall p, In p h -> after_1970 p) -> sess_at b k = Some (A3 s) ->
    N.of_nat (List.length (pq (o3_q (z_out s)))) <= cf_max_pending c /\ (List.length (waiting b (z_id s)) <= 8)%nat.
  Proof.
    intros R P T A. destruct (is_run3 hash5 hash3 pick _ _ _ _ _ R P T A) as (l & L & S & C).
    split; [exact (t12_bound _ _ _ _ S C)|]. eapply run_inbox; eauto.
  Qed.
End Hold.

(** ** One client, as many subscriptions as it likes *)
Section Many.
  Variables (hash5 : wpub5 -> N) (hash3 : wpub3 -> N) (pick : draw -> broker -> string -> string -> N).
  Local Notation bstep := (bstep hash5 hash3 pick).
  Local Notation brun := (brun hash5 hash3 pick).

  Fixpoint name (n : nat) : string := match n with O => "a"%string | S m => String "a"%char (name m) end.
  Lemma name_len n : String.length (name n) = S n.
  Proof. induction n; cbn; congruence. Qed.
  Definition x_more (k : N) (n : nat) : bev := EPacket5 k 10 (ISub 1 None [(name n, SubOpts L1 false false RH_send)]).

  Lemma name_levels n : levels (name n) = [name n].
  Proof. induction n; cbn [name levels]; [reflexivity|]. change (Ascii.eqb "a"%char slash) with false. cbv iota. rewrite IHn. reflexivity. Qed.
  Lemma name_chars c n : Ascii.eqb "a"%char c = false -> has_char c (name n) = false.
  Proof. intros N. induction n; cbn in *; [|rewrite IHn]; now rewrite N. Qed.
  Lemma name_plain n : wf_in5 (ISub 1 None [(name n, SubOpts L1 false false RH_send)]) /\ plain (name n) /\ has_wildcard (name n) = false /\ is_shared (name n) = false.
  Proof.
    assert (SI : shared_info (name n) = None).
    { unfold shared_info. assert (E : split_topic (name n) = (name n, None)); [|now rewrite E].
      unfold split_topic. assert (E : split_once slash (name n) = None); [|now rewrite E]. induction n; [reflexivity|]. cbn [name split_once]. rewrite IHn. reflexivity. }
    split; [|split; [exact SI|split]].
    - cbn. constructor; [|constructor]. cbn. unfold valid_filter. rewrite name_levels. apply vl_lit; [|constructor]. split; apply name_chars; reflexivity.
    - clear SI. induction n; [reflexivity|]. exact IHn.
    - unfold is_shared. now rewrite SI.
  Qed.

  Lemma one_more k n b s h : brun config_default h b -> (forall p, In p h -> proper p) -> all_plain config_default h -> wills_named h ->
    aget k (b_tasks b) = Some (TOnline (A5 s)) -> is_disconnected5 s = false -> (forall f, In f (keys (s_subs s)) -> (String.length f <= n)%nat) ->
    exists b' out s', bstep (x_more k n) b = BOk b' out /\ aget k (b_tasks b') = Some (TOnline (A5 s')) /\ is_disconnected5 s' = false /\
      List.length (s_subs s') = S (List.length (s_subs s)) /\ (forall f, In f (keys (s_subs s')) -> (String.length f <= S n)%nat).
  Proof.
    intros R P PL WN A D LE. destruct (name_plain n) as (WF & PN & HW & IS).
    assert (NP : bstep (x_more k n) b <> BPanic).
    { eapply (broker_no_panic hash5 hash3 pick config_default h b); eauto. cbn; lia. }
    assert (GC : g_cfg (glob_of b) = config_default).
    { destruct (run_tables _ _ _ _ _ _ R) as (ops & hr & CF & _). exact CF. }
    unfold x_more in *. cbn [BrokerModel.bstep] in *. unfold do_packet5 in *. rewrite A, D in *.
    unfold packet_step5, handle_packet5 in *. rewrite GC in *. change (cf_packet_server config_default <? 10) with false in *. cbv iota in *.
    unfold handle_subscribe5 in *. rewrite GC in *. cbn [cf_subid config_default negb andb] in *. cbn [subscribe_all] in *.
    destruct (subscribe_one _ _ _ _ _ _) as [(((s1, g1), c1), k1)|] eqn:S1; [|exfalso; apply NP; reflexivity].
    assert (X : s_subs s1 = aset (name n) (SubData (SubOpts L1 false false RH_send) None) (s_subs s) /\ is_disconnected5 s1 = false).
    { clear NP. unfold subscribe_one in S1. rewrite GC in S1. cbn [max_allowed_qos config_default cf_max_qos] in S1.
      assert (SC : sub_code config_default (qos_min L1 L2) (name n) = 1). { unfold sub_code. cbn [config_default cf_shared cf_wildcard]. rewrite HW, IS. reflexivity. }
      cbn [so_qos] in S1. rewrite SC in S1. cbv iota beta zeta in S1. change (1 <? 128) with true in S1. cbv iota in S1.
      destruct (rt_subscribe _ _ _ _) as (t, p). destruct p; [discriminate|]. 
      destruct (_ && _).
      2:{ injection S1 as <- _ _ _. split; [reflexivity|exact D]. }
      destruct (ret_get_matches _ _); [|discriminate].
      destruct (send_retained _ _ _ _ _) as ((s2, k2), pe) eqn:SR. apply retained_frame in SR. destruct SR as ((oo & ->) & _).
      destruct pe.
      - destruct (pendings5 _ _) as (s3, k3) eqn:Q. apply pendings_frame in Q. destruct Q as (oo2 & ->). injection S1 as <- _ _ _. split; [reflexivity|exact D].
      - injection S1 as <- _ _ _. split; [reflexivity|exact D]. }
    destruct X as (X & DX).
    destruct (after_packet5 _ _) as (s2, o2) eqn:AF. apply after_frame in AF. destruct AF as ((oo & tt & ->) & _).
    do 3 eexists. split; [reflexivity|]. 
    assert (D2 : is_disconnected5 (with_out oo (with_last tt s1)) = false) by exact DX. rewrite D2.
    split; [cbn; rewrite aget_N, N.eqb_refl; reflexivity|]. split; [exact DX|]. cbn [s_subs with_out with_last]. rewrite X.
    assert (FR : aget (name n) (s_subs s) = None).
    { destruct (aget (name n) (s_subs s)) eqn:AG; auto. assert (L : (String.length (name n) <= n)%nat) by (apply LE, in_keys_aget; eauto). rewrite name_len in L. lia. }
    split.
    - rewrite aset_notin by (now apply aget_None_notin). rewrite app_length. cbn. lia.
    - intros f H. apply in_keys_aget in H. destruct H as (v & H). rewrite aget_aset in H. destruct (eqb_spec f (name n)) as [->|]; [rewrite name_len; lia|].
      assert (L : (String.length f <= n)%nat) by (apply LE, in_keys_aget; eauto). lia.
  Qed.

  Lemma many h0 b0 s0 : brun config_default h0 b0 -> (forall p, In p h0 -> proper p) -> all_plain config_default h0 -> wills_named h0 ->
    aget 0 (b_tasks b0) = Some (TOnline (A5 s0)) -> is_disconnected5 s0 = false -> s_subs s0 = [] ->
    forall n, exists h b s, brun config_default h b /\ (forall p, In p h -> proper p) /\ all_plain config_default h /\ wills_named h /\
      aget 0 (b_tasks b) = Some (TOnline (A5 s)) /\ is_disconnected5 s = false /\ List.length (s_subs s) = n /\ (forall f, In f (keys (s_subs s)) -> (String.length f <= n)%nat).
  Proof.
    intros R P PL WN A D E. induction n as [|n IH].
    - exists h0, b0, s0. rewrite E. repeat (split; [assumption||reflexivity|]). intros f [].
    - destruct IH as (h & b & s & R1 & P1 & PL1 & WN1 & A1 & D1 & L1 & K1). destruct (name_plain n) as (WF & PN & _).
      destruct (one_more 0 n b s h R1 P1 PL1 WN1 A1 D1 K1) as (b' & out & s' & S & A2 & D2 & L2 & K2).
      exists (Past b (x_more 0 n) out :: h), b', s'. split; [econstructor; eauto|]. split; [intros p [<-|H]; [exact WF|auto]|].
      split; [intros p [<-|H]; [cbn; repeat constructor; exact PN|auto]|]. split; [|split; [exact A2|split; [exact D2|split; [lia|exact K2]]]].
      intros k w H. apply (WN1 k w). unfold asked_will in *. cbn [flat_map] in H. apply in_app_or in H. destruct H as [H|H]; [|exact H].
      exfalso. unfold connect_will in H. cbn in H. destruct (_ =? _); contradiction.
  Qed.
End Many.
