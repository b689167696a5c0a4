(** Proof of C68: what clients receive was published, and they subscribed to it. *)
From Coq Require Import List Bool String NArith Lia.
From Verif Require Import Base BaseLemmas TopicModel TopicSpec TopicProofs MsgModel PendingModel PendingProofs AliasModel AliasSpec AliasProofs OutModel OutSpec OutFacts
  RouteModel RouteSpec RouteInv RetainModel RetainSpec RetainProofs GlobModel Sess5Model Sess3Model ConnModel InSpec DelivSpec DelivProofs OfferProofs RegModel BrokerModel BrokerSpec LifeSpec
  FrameProofs CoreProofs BrokerInv TaskMove StepProofs RunProofs RegProofs TimeProofs WillProofs KeepProofs EvolProofs HistProofs LifeFacts LifeProofs TabProofs TabInv RouteRun AccSpec AccProofs PanicProofs
  OriginRoute OriginSpec OriginSess OriginOut OriginPkt OriginPkt3 OriginMono.
Import ListNotations.
Local Open Scope N_scope.
Local Open Scope list_scope.

Section Origin.
  Variables (hash5 : wpub5 -> N) (hash3 : wpub3 -> N) (pick : draw -> broker -> string -> string -> N).
  Notation bstep := (bstep hash5 hash3 pick).
  Notation brun := (brun hash5 hash3 pick).
  Notation evol := (evol hash5 hash3 pick).

  (** Who gets something written at all. *)
  Lemma busy k e b b' out : bstep e b = BOk b' out -> idle k e \/
    exists t a t' a', aget k (b_tasks b) = Some t /\ t_sess t = Some a /\ (t = TReady a \/ t = TOnline a \/ t = TOffline a /\ out = []) /\
      aget k (b_tasks b') = Some t' /\ t_sess t' = Some a'.
  Proof.
    intros S. destruct e; cbn [idle]; try (left; exact Logic.I); match goal with |- ?j <> k \/ _ => destruct (N.eq_dec j k) as [->|NE]; [right|left; exact NE] end; cbn [BrokerModel.bstep] in S.
    - unfold do_start in S. destruct (aget k (b_tasks b)) as [[| | |[s|s]| | | | |]|] eqn:A; try discriminate; [destruct (pendings5 _ _) as [s1 o]|destruct (after_packet3 _ _) as [s1 o]];
        inversion S; subst; do 4 eexists; (split; [reflexivity|]); (split; [reflexivity|]); (split; [auto|]); (split; [cbn; apply aget_aset_eq|reflexivity]).
    - unfold do_packet5 in S. destruct (aget k (b_tasks b)) as [[| | | |[s|s]| | | |]|] eqn:A; try discriminate. destruct (is_disconnected5 s); [discriminate|].
      destruct (packet_step5 _ _ _ _ _ _ _) as [s1 g o|s1 g|]; [| |discriminate]; inversion S; subst; do 4 eexists; (split; [reflexivity|]); (split; [reflexivity|]); (split; [auto|]).
      + split; [destruct (is_disconnected5 s1); cbn; apply aget_aset_eq|reflexivity].
      + split; [cbn; apply aget_aset_eq|reflexivity].
    - unfold do_packet3 in S. destruct (aget k (b_tasks b)) as [[| | | |[s|s]| | | |]|] eqn:A; try discriminate. destruct (z_disc s); [discriminate|].
      destruct (packet_step3 _ _ _ _ _ _) as [s1 g o|s1 g|]; [| |discriminate]; inversion S; subst; do 4 eexists; (split; [reflexivity|]); (split; [reflexivity|]); (split; [auto|]);
      (split; [cbn; apply aget_aset_eq|reflexivity]).
    - unfold do_malformed in S. destruct (aget k (b_tasks b)) as [[| | | |[s|s]| | | |]|] eqn:A; try discriminate. destruct (is_disconnected5 s); [discriminate|].
      destruct (error_disconnect _ _ _) as [s1 p]. inversion S; subst. do 4 eexists; (split; [reflexivity|]); (split; [reflexivity|]); (split; [auto|]); (split; [cbn; apply aget_aset_eq|reflexivity]).
    - unfold do_normal in S. destruct (aget k (b_tasks b)) as [[| | | |a| | |a|]|] eqn:A; try discriminate; [destruct (a_disc a); [discriminate|]|];
        (destruct (aget (a_id a) _) as [[cs [|m r] o]|]; try discriminate); destruct (normal _ _ _ _ _ _) as [a1 o1] eqn:NM; inversion S; subst;
        do 4 eexists; (split; [reflexivity|]); (split; [reflexivity|]).
      + split; [auto|]. split; [cbn; apply aget_aset_eq|reflexivity].
      + split; [right; right; split; [reflexivity|]|split; [cbn; apply aget_aset_eq|reflexivity]]. unfold normal in NM. destruct a as [s|s]; [destruct (handle_normal5 _ _ _ _) as [s1 [[q p]|]]|destruct (handle_normal3 _ _ _) as [s1 [[q p]|]]]; injection NM as _ <-; reflexivity.
  Qed.

  Section Step.
    Variables (c : config) (h : list past) (b : broker) (e : bev) (b' : broker) (out : list bout).
    Hypothesis R : brun c h b.
    Hypothesis ST : bstep e b = BOk b' out.
    Hypothesis CF : b_cfg b = c.
    Hypothesis PR : forall p, In p (Past b e out :: h) -> proper p.
    Hypothesis WN : forall k w, In w (asked_will k h) -> valid_topic_name (aw_topic w) /\ aw_topic w <> EmptyString.
    Hypothesis BA : base c h b.
    Hypothesis LV : forall k a, aget k (b_tasks b) = Some (TReady a) \/ aget k (b_tasks b) = Some (TOnline a) -> live c h k a.
    Let h' := Past b e out :: h.
    Let cap := cf_max_qos c.

    Local Lemma HO : forall t p o q, Oh c h t p o q -> Oh c h' t p o q. Proof. apply Oh_cons. Qed.
    Local Lemma HA i : forall f, Ah i h f -> Ah i h' f. Proof. intros f. apply Ah_cons. Qed.
    Local Lemma glob' : glob_ok (Oh c h') cap (glob_of b). Proof. eapply glob_mono; [exact HO|apply BA]. Qed.
    Local Lemma good_b : good b. Proof. exact (run_good _ _ _ _ _ _ R). Qed.

    (** ** Packets *)
    Lemma asked_pub5 k len x s o : e = EPacket5 k len x -> aget k (b_tasks b) = Some (TOnline (A5 s)) -> is_disconnected5 s = false -> out = map (OPkt5 k) o ->
      asked5 (Oh c h') (Ah (s_ident s) h') len x s (glob_of b) o.
    Proof.
      intros E A DI OE. destruct x as [w| | | | |pid id fs| | | | ]; cbn [asked5]; auto.
      - cbn [glob_of g_cfg]. rewrite CF. intros L (T1 & T2) t CR SD DU. destruct (LV k (A5 s) (or_intror A)) as (_ & _ & AL). rewrite (AL DI) in CR.
        unfold Oh. eapply (by_publish5 c h' [] (Past b e out) h k len w t); [reflexivity|exact E|exact L| |exact CR|exact SD|exact DU]. split; cbn [w_out].
        + intros code r. rewrite OE. intros I. apply in_map_iff in I. destruct I as (y & Y & I). injection Y as ->. exact (T1 _ _ I).
        + rewrite OE. destruct (w5_qp w); auto; destruct T2 as (code & LT & I); exists code; (split; [exact LT|apply in_map; exact I]).
      - intros codes n f op code I NF NC LE. exists (Past b e out), k, (A5 s). split; [left; reflexivity|]. cbn [w_b]. split; [unfold sess_at; rewrite A; reflexivity|]. split; [reflexivity|].
        left. exists len, pid, id, fs, codes, n, op, code. cbn [w_e w_out]. split; [exact E|]. split; [exact NF|]. split; [rewrite OE; apply in_map; exact I|]. auto.
    Qed.
    Lemma asked_pub3 k len x s o : e = EPacket3 k len x -> aget k (b_tasks b) = Some (TOnline (A3 s)) -> out = map (OPkt3 k) o ->
      asked3 (Oh c h') (Ah (z_ident s) h') len x (glob_of b) o.
    Proof.
      intros E A OE. destruct x as [w| | | | |pid fs| | | | ]; cbn [asked3]; auto.
      - cbn [glob_of g_cfg]. rewrite CF. intros L T SD DU.
        unfold Oh. eapply (by_publish3 c h' (Past b e out) k len w); [left; reflexivity|exact E|exact L| |exact SD|exact DU]. unfold taken3. cbn [w_out]. rewrite OE. unfold ptaken3 in T. destruct (w3_qp w); auto; apply in_map; exact T.
      - intros f q I. exists (Past b e out), k, (A3 s). split; [left; reflexivity|]. cbn [w_b]. split; [unfold sess_at; rewrite A; reflexivity|]. split; [reflexivity|].
        right. exists len, pid, fs, q. auto.
    Qed.
    Lemma asked_sub3 k len x s : e = EPacket3 k len x -> aget k (b_tasks b) = Some (TOnline (A3 s)) -> match x with YSub _ fs => forall f q, In (f, q) fs -> Ah (z_ident s) h' f | _ => True end.
    Proof.
      intros E A. destruct x as [w| | | | |pid fs| | | | ]; auto.
      intros f q I. exists (Past b e out), k, (A3 s). split; [left; reflexivity|]. cbn [w_b]. split; [unfold sess_at; rewrite A; reflexivity|]. split; [reflexivity|].
      right. exists len, pid, fs, q. auto.
    Qed.
    Lemma sess_here k a : sess_at b k = Some a -> sess_fine c h' a.
    Proof. intros H. apply sess_cons. destruct BA as (_ & _ & B). exact (B _ _ H). Qed.
    Lemma online_at k a : aget k (b_tasks b) = Some (TOnline a) -> sess_at b k = Some a.
    Proof. intros H. unfold sess_at. now rewrite H. Qed.
    Lemma wf_now5 k len x : e = EPacket5 k len x -> wf_in5 x.
    Proof. intros E. pose proof (PR _ (or_introl eq_refl)) as P. unfold proper in P. cbn [w_e] in P. rewrite E in P. exact P. Qed.
    Lemma wf_now3 k len x : e = EPacket3 k len x -> wf_in3 x.
    Proof. intros E. pose proof (PR _ (or_introl eq_refl)) as P. unfold proper in P. cbn [w_e] in P. rewrite E in P. exact P. Qed.
    Lemma alias_fine k s : aget k (b_tasks b) = Some (TOnline (A5 s)) -> is_disconnected5 s = false -> forall i t, aget i (s_alias s) = Some t -> valid_topic_name t /\ t <> EmptyString.
    Proof.
      intros A DI. destruct (LV k (A5 s) (or_intror A)) as (_ & _ & AL). rewrite (AL DI). apply bound_valid. intros p I. apply PR. now right.
    Qed.
    Lemma pkt5_fine k len x s s' g o : e = EPacket5 k len x -> aget k (b_tasks b) = Some (TOnline (A5 s)) -> is_disconnected5 s = false -> out = map (OPkt5 k) o ->
      packet_step5 hash5 (pick (DPacket k x) b) (seconds b) len x s (glob_of b) = Go s' g o -> pkt5ok (Oh c h') cap (Ah (s_ident s) h') (cf_alias_max c) x s o s' g.
    Proof.
      intros E A DI OE PS. destruct (sess_here _ _ (online_at _ _ A)) as (_ & _ & B3). replace (cf_alias_max c) with (cf_alias_max (g_cfg (glob_of b))) by (cbn [glob_of g_cfg]; now rewrite CF). eapply (packet_ok (Oh c h') cap (Ah (s_ident s) h') hash5 (pick (DPacket k x) b) (seconds b) len x s (glob_of b) s' g o).
      - eapply wf_now5; eauto.
      - unfold cap. cbn [glob_of g_cfg]. now rewrite CF.
      - exact glob'.
      - exact B3.
      - eapply alias_fine; eauto.
      - eapply asked_pub5; eauto.
      - exact PS.
    Qed.
    Lemma pkt3_fine k len x s s' g o : e = EPacket3 k len x -> aget k (b_tasks b) = Some (TOnline (A3 s)) -> out = map (OPkt3 k) o ->
      packet_step3 hash3 (seconds b) len x s (glob_of b) = Go3 s' g o -> pkt3ok (Oh c h') cap (Ah (z_ident s) h') s o s' g.
    Proof.
      intros E A OE PS. destruct (sess_here _ _ (online_at _ _ A)) as (_ & B2 & B3). eapply (packet3_ok (Oh c h') cap (Ah (z_ident s) h') hash3 (seconds b) len x s (glob_of b)).
      - eapply wf_now3; eauto.
      - unfold cap. cbn [glob_of g_cfg]. now rewrite CF.
      - exact glob'.
      - exact B3.
      - exact B2.
      - eapply asked_pub3; eauto.
      - exact PS.
    Qed.
    Lemma stop3_fine k len x s s' g : e = EPacket3 k len x -> aget k (b_tasks b) = Some (TOnline (A3 s)) ->
      packet_step3 hash3 (seconds b) len x s (glob_of b) = Stop3 s' g -> pkt3ok (Oh c h') cap (Ah (z_ident s) h') s [] s' g.
    Proof.
      intros E A PS. destruct (sess_here _ _ (online_at _ _ A)) as (_ & B2 & B3). eapply (stop3_ok (Oh c h') cap (Ah (z_ident s) h') hash3 (seconds b) len x s (glob_of b)).
      - eapply wf_now3; eauto.
      - unfold cap. cbn [glob_of g_cfg]. now rewrite CF.
      - exact glob'.
      - exact B3.
      - exact B2.
      - eapply asked_sub3; eauto.
      - exact PS.
    Qed.
    Lemma stop5_same k len x s s' g : packet_step5 hash5 (pick (DPacket k x) b) (seconds b) len x s (glob_of b) = Stop s' g -> e = EPacket5 k len x -> x = IOther /\ s' = s /\ g = glob_of b.
    Proof.
      intros PS _. unfold packet_step5 in PS. destruct (handle_packet5 _ _ _ _ _ _ _) eqn:HP; [destruct (after_packet5 _ _); discriminate| |discriminate]. inversion PS; subst.
      unfold handle_packet5 in HP. destruct (_ <? _); [destruct (error_disconnect _ _ _); discriminate|]. destruct x; try discriminate; [| | | | | |inversion HP; auto];
          repeat match goal with H : match ?y with _ => _ end = _ |- _ => destruct y; try discriminate end.
    Qed.

    (** ** Wills *)
    Lemma will_asked k t a w : aget k (b_tasks b) = Some t -> t_sess t = Some a -> a_will a = Some w -> In w (asked_will k h).
    Proof.
      intros A T W. destruct (will_account _ _ _ _ _ _ k R) as (_ & [(_ & [X|(w' & X & Y)])|(w' & _ & _ & X)]); unfold will_at in X; rewrite A in X;
        assert (E : t_will t = a_will a) by (destruct t; cbn in T |- *; congruence); rewrite E, W in X; try discriminate.
      injection X as <-. rewrite Y. left. reflexivity.
    Qed.
    Lemma will_fine k t a b0 a' b1 o ok : aget k (b_tasks b) = Some t -> t_sess t = Some a -> glob_of b0 = glob_of b -> send_will pick k a b0 = Some (a', b1, o, ok) ->
      incl o out ->
      glob_ok (Oh c h') cap (glob_of b1) /\ bcast_ok (Oh c h') cap (a_bcast a') /\ pkts5 k o = [] /\ pkts3 k o = [] /\
      match a, a' with A5 s, A5 s' => s_out s' = s_out s /\ s_subs s' = s_subs s /\ s_ident s' = s_ident s /\ s_alias s' = s_alias s /\ is_disconnected5 s' = is_disconnected5 s
                     | A3 s, A3 s' => z_out s' = z_out s /\ z_subs s' = z_subs s /\ z_ident s' = z_ident s | _, _ => False end.
    Proof.
      intros A T GB SW IN. assert (SA : sess_at b k = Some a) by (unfold sess_at; rewrite A; exact T). pose proof (sess_here _ _ SA) as SF. pose proof (fun w => will_asked k t a w A T) as WA.
      assert (GG : forall g, glob_ok (Oh c h') cap g -> glob_ok (Oh c h') cap (glob_of (put_glob g b0))).
      { intros g (ops & hr & X). exists ops, hr. exact X. }
      unfold send_will in SW. rewrite GB in SW. destruct a as [s|s].
      - destruct (send_will5 (pick (DWill k) b0) s (glob_of b)) as [[[s1 g] k1]|] eqn:W; [|discriminate]. injection SW as <- <- <- <-. destruct SF as (_ & _ & BC). unfold send_will5 in W. destruct (s_will s) as [w|] eqn:WL.
        2:{ injection W as <- <- <-. split; [apply GG; exact glob'|]. split; [exact BC|]. repeat split. }
        destruct (enc_len5 _) as [len|].
        2:{ injection W as <- <- <-. split; [apply GG; exact glob'|]. split; [exact BC|]. repeat split. }
        destruct (send_publish5 (pick (DWill k) b0) _ _ _) as [[[s2 g2] n2]|] eqn:SP; [|discriminate]. injection W as <- <- <-.
        assert (AW : In (W5 w) (asked_will k h)) by (apply WA; cbn; rewrite WL; reflexivity). destruct (WN _ _ AW) as (V1 & V2). cbn [aw_topic] in V1, V2.
        destruct (fun X => send5_ok (Oh c h') cap (pick (DWill k) b0) (SendPub (wl_topic w) (wl_retain w) (wl_qos w) (wl_payload w) (set_alias None (set_subids [] (wl_props w))) len) (with_will None s) (glob_of b) s2 g2 n2 glob' BC X eq_refl V2 V1 SP) as (X1 & X2 & X3).
        { cbn. unfold Oh. apply (by_will5 c h' k w).
          - unfold asked_will, h'. cbn [flat_map]. apply in_or_app. right. exact AW.
          - unfold wills_in, h'. cbn [flat_map]. apply in_or_app. left. cbn [w_out]. unfold wills_of. apply in_flat_map. exists (OWill5 k w). split; [apply IN; left; reflexivity|]. cbn. rewrite N.eqb_refl. left. reflexivity. }
        split; [apply GG; exact X1|]. split; [exact X2|]. split; [reflexivity|]. split; [reflexivity|]. rewrite X3. repeat split.
      - destruct (send_will3 s (glob_of b)) as [[[s1 g] k1]|] eqn:W; [|discriminate]. injection SW as <- <- <- <-. destruct SF as (_ & _ & BC). unfold send_will3 in W. destruct (z_will s) as [w|] eqn:WL.
        2:{ injection W as <- <- <-. split; [apply GG; exact glob'|]. split; [exact BC|]. repeat split. }
        destruct (enc_len3 _) as [len|].
        2:{ injection W as <- <- <-. split; [apply GG; exact glob'|]. split; [exact BC|]. repeat split. }
        destruct (send_publish3 _ _ _) as [[s2 g2]|] eqn:SP; [|discriminate]. injection W as <- <- <-.
        assert (AW : In (W3 w) (asked_will k h)) by (apply WA; cbn; rewrite WL; reflexivity). destruct (WN _ _ AW) as (V1 & V2). cbn [aw_topic] in V1, V2.
        destruct (fun X => send3_ok (Oh c h') cap (SendPub3 (wl3_topic w) (wl3_retain w) (wl3_qos w) (wl3_payload w) len) (zwith_will None s) (glob_of b) s2 g2 glob' BC X V2 V1 SP) as (X1 & X2 & X3).
        { cbn. unfold Oh. apply (by_will3 c h' k w).
          - unfold asked_will, h'. cbn [flat_map]. apply in_or_app. right. exact AW.
          - unfold wills_in, h'. cbn [flat_map]. apply in_or_app. left. cbn [w_out]. unfold wills_of. apply in_flat_map. exists (OWill3 k w). split; [apply IN; left; reflexivity|]. cbn. rewrite N.eqb_refl. left. reflexivity. }
        split; [apply GG; exact X1|]. split; [exact X2|]. split; [reflexivity|]. split; [reflexivity|]. rewrite X3. repeat split.
    Qed.

    (** ** One session *)
    Lemma ident_kept k a a' : sess_at b k = Some a -> sess_at b' k = Some a' -> a_ident a' = a_ident a.
    Proof.
      unfold sess_at. intros SA SA'. destruct (aget k (b_tasks b')) as [t'|] eqn:A'; [|discriminate].
      destruct (sess_back _ _ _ _ _ _ _ _ _ _ good_b ST A' SA') as [(t & a0 & A & T & SM)|(x & r & A & _)]; rewrite A in SA; [|discriminate].
      rewrite T in SA. injection SA as ->. apply SM.
    Qed.
    Definition alias_step (k : N) (s s' : sess5) : Prop :=
      is_disconnected5 s' = false -> (is_disconnected5 s = false -> s_alias s = bound_in (cf_alias_max c) k h) -> s_alias s' = bound_in (cf_alias_max c) k h'.
    Lemma sess5_next k s s' : s_ident s' = s_ident s -> sess_fine c h' (A5 s) -> otr (Oh c h') cap (Ah (s_ident s) h') (s_out s) (pkts5 k out) (s_out s') ->
      (subs_ok (Ah (s_ident s) h') s -> subs_ok (Ah (s_ident s) h') s') -> bcast_ok (Oh c h') cap (s_bcast s') -> alias_step k s s' ->
      sess_fine c h' (A5 s') /\ (live c h k (A5 s) -> live c h' k (A5 s') /\ said c h h' k (A5 s) out).
    Proof.
      intros ID ((kn & K) & SU & _) OT SB BC AS. split.
      - split; [|split].
        + rewrite ID. destruct (OT kn K) as (_ & _ & X). eexists. exact X.
        + rewrite ID. apply SB. exact SU.
        + exact BC.
      - intros (L1 & L2 & L3). assert (L2' : out_ok (Oh c h') cap (Ah (s_ident s) h') (s_out s) (learned (o5_amax (s_out s)) k h)) by (eapply out_mono; [exact HO|apply HA|exact L2]).
        destruct (OT _ L2') as (X1 & X2 & X3). split; [|exact X2]. cbn [live]. rewrite X1, ID. split; [apply limit_cons; exact L1|]. split; [exact X3|].
        intros DI. apply AS; auto.
    Qed.
    Lemma alias_other k s s' : (forall len w, e <> EPacket5 k len (IPub w)) -> (is_disconnected5 s' = false -> s_alias s' = s_alias s /\ is_disconnected5 s = false) -> alias_step k s s'.
    Proof.
      intros NE K DI B. destruct (K DI) as (X & Y). rewrite X, (B Y). unfold h'. cbn [bound_in w_e]. destruct e as [| | | | | |j len x|j len x| | | | | | | | |]; auto. destruct x; auto.
      destruct (N.eqb_spec j k) as [->|]; auto. destruct (NE len w eq_refl).
    Qed.
    Lemma sess3_next k s s' : z_ident s' = z_ident s -> sess_fine c h' (A3 s) -> ztr (Oh c h') cap (Ah (z_ident s) h') (z_out s) (pkts3 k out) (z_out s') ->
      (subs_ok3 (Ah (z_ident s) h') s -> subs_ok3 (Ah (z_ident s) h') s') -> bcast_ok (Oh c h') cap (z_bcast s') ->
      sess_fine c h' (A3 s') /\ (live c h k (A3 s) -> live c h' k (A3 s') /\ said c h h' k (A3 s) out).
    Proof.
      intros ID (F & SU & _) ZT SB BC. destruct (ZT F) as (X1 & X2). split.
      - cbn [sess_fine]. rewrite ID. auto.
      - intros _. split; [exact Logic.I|exact X1].
    Qed.

    Lemma normal5_on k (m : nmsg) s a' : nm_ok (Oh c h') cap m -> subs_ok (Ah (s_ident s) h') s -> normal (seconds b) (b_cfg b) k true m (A5 s) = (a', out) ->
      exists s', a' = A5 s' /\ step5ok (Oh c h') cap (Ah (s_ident s) h') s (pkts5 k out) s'.
    Proof.
      intros M SU NM. cbn [normal] in NM. destruct (handle_normal5 (seconds b) (b_cfg b) m s) as [s1 r] eqn:HN.
      pose proof (normal_ok (Oh c h') cap (Ah (s_ident s) h') (seconds b) (b_cfg b) m s s1 r M SU HN) as K.
      destruct r as [[q p]|].
      - destruct (qos_eqb q L0).
        + injection NM as <- <-. exists s1. split; [reflexivity|]. rewrite pkts5_map, app_nil_r. destruct p; exact K.
        + pose proof (k_pendings (Oh c h') cap (Ah (s_ident s) h') (seconds b) s1) as KP. destruct (pendings5 (seconds b) s1) as [s2 more]. injection NM as <- <-. exists s2. split; [reflexivity|].
          rewrite pkts5_map. eapply k_trans; [|exact KP]. destruct p; exact K.
      - injection NM as <- <-. exists s1. split; [reflexivity|exact K].
    Qed.
    Lemma normal5_off k (m : nmsg) s a' : nm_ok (Oh c h') cap m -> subs_ok (Ah (s_ident s) h') s -> normal (seconds b) (b_cfg b) k false m (A5 s) = (a', out) ->
      exists s' l, a' = A5 s' /\ step5ok (Oh c h') cap (Ah (s_ident s) h') s l s'.
    Proof.
      intros M SU NM. cbn [normal] in NM. destruct (handle_normal5 (seconds b) (b_cfg b) m s) as [s1 r] eqn:HN.
      pose proof (normal_ok (Oh c h') cap (Ah (s_ident s) h') (seconds b) (b_cfg b) m s s1 r M SU HN) as K.
      destruct r as [[q p]|]; injection NM as <- <-; eexists s1, _; (split; [reflexivity|exact K]).
    Qed.
    Lemma normal3_on k (m : nmsg) s a' : nm_ok (Oh c h') cap m -> subs_ok3 (Ah (z_ident s) h') s -> normal (seconds b) (b_cfg b) k true m (A3 s) = (a', out) ->
      exists s', a' = A3 s' /\ step3ok (Oh c h') cap (Ah (z_ident s) h') s (pkts3 k out) s'.
    Proof.
      intros M SU NM. cbn [normal] in NM. destruct (handle_normal3 (seconds b) m s) as [s1 r] eqn:HN.
      pose proof (normal3_ok (Oh c h') cap (Ah (z_ident s) h') hash3 (seconds b) m s s1 r M SU HN) as K.
      destruct r as [[q p]|].
      - destruct (qos_eqb q L0).
        + injection NM as <- <-. exists s1. split; [reflexivity|]. rewrite pkts3_map, app_nil_r. destruct p; exact K.
        + pose proof (y_pendings (Oh c h') cap (Ah (z_ident s) h') (seconds b) s1) as KP. destruct (pendings3 (seconds b) s1) as [s2 more]. injection NM as <- <-. exists s2. split; [reflexivity|].
          rewrite pkts3_map. eapply y_trans; [|exact KP]. destruct p; exact K.
      - injection NM as <- <-. exists s1. split; [reflexivity|exact K].
    Qed.
    Lemma normal3_off k (m : nmsg) s a' : nm_ok (Oh c h') cap m -> subs_ok3 (Ah (z_ident s) h') s -> normal (seconds b) (b_cfg b) k false m (A3 s) = (a', out) ->
      exists s' l, a' = A3 s' /\ step3ok (Oh c h') cap (Ah (z_ident s) h') s l s'.
    Proof.
      intros M SU NM. cbn [normal] in NM. destruct (handle_normal3 (seconds b) m s) as [s1 r] eqn:HN.
      pose proof (normal3_ok (Oh c h') cap (Ah (z_ident s) h') hash3 (seconds b) m s s1 r M SU HN) as K.
      destruct r as [[q p]|]; injection NM as <- <-; eexists s1, _; (split; [reflexivity|exact K]).
    Qed.

    Definition front (k : N) (a : sess) : Prop := aget k (b_tasks b) = Some (TReady a) \/ aget k (b_tasks b) = Some (TOnline a).
    Lemma evol_ok k a a' : sess_at b k = Some a -> sess_at b' k = Some a' -> evol b e out k a a' ->
      sess_fine c h' a' /\ (front k a -> live c h' k a' /\ said c h h' k a out).
    Proof.
      intros SA SA' V. pose proof (ident_kept _ _ _ SA SA') as ID. pose proof (sess_here _ _ SA) as SF.
      assert (LIVE : front k a -> live c h k a) by apply LV.
      assert (FIN : sess_fine c h' a' /\ (live c h k a -> live c h' k a' /\ said c h h' k a out) -> sess_fine c h' a' /\ (front k a -> live c h' k a' /\ said c h h' k a out)) by tauto.
      assert (TK : exists t, aget k (b_tasks b) = Some t /\ t_sess t = Some a) by (unfold sess_at in SA; destruct (aget k (b_tasks b)); [eauto|discriminate]).
      destruct V as [a IDL|len x s s' g o E A D PS OE|len x s s' g E A D PS OE|reason s s' p E D ED OE|len x s s' g o E A D PS OE|len x s s' g E A D PS OE
        |on a a' cs m r o E A D CH NM|d a bc n E OE|s s' o E A PE OE|s s' o E A PE OE|a a' b0 b1 ok GB E SW|a E OE]; cbn [a_ident] in ID.
      - apply FIN. destruct (step_quiet _ _ _ _ _ _ _ _ ST IDL) as (Q5 & Q3). destruct a as [s|s].
        + apply sess5_next; auto; [rewrite Q5; apply otr_refl|apply SF|]. apply alias_other; auto. intros len w X. rewrite X in IDL. apply IDL. reflexivity.
        + apply sess3_next; auto; [rewrite Q3; intros X; auto|apply SF].
      - apply FIN. destruct (pkt5_fine _ _ _ _ _ _ _ E A D OE PS) as [J1 J2 J3 J4 J5]. apply sess5_next; auto; [rewrite OE, pkts5_map; exact J1|].
        intros DI B. rewrite (J5 DI), (B D). unfold h'. cbn [bound_in w_e]. rewrite E. destruct x; auto. now rewrite N.eqb_refl.
      - apply FIN. destruct (stop5_same _ _ _ _ _ _ PS E) as (-> & -> & _). apply sess5_next; auto; [rewrite OE; apply otr_refl|apply SF|]. apply alias_other; auto. intros len' w X. rewrite X in E. discriminate.
      - apply FIN. destruct (k_refuse (Oh c h') cap (Ah (s_ident s) h') _ _ _ _ _ ED) as ([K1 K2 K3 K4] & _). apply sess5_next; auto; [rewrite OE; cbn; rewrite N.eqb_refl; exact K1|apply K3, SF|]. apply alias_other; auto. intros len w X. rewrite X in E. discriminate.
      - apply FIN. destruct (pkt3_fine _ _ _ _ _ _ _ E A OE PS) as [J1 J2 J3 J4]. apply sess3_next; auto. rewrite OE, pkts3_map. exact J1.
      - apply FIN. destruct (stop3_fine _ _ _ _ _ _ E A PS) as [J1 J2 J3 J4]. apply sess3_next; auto. rewrite OE. exact J1.
      - assert (MO : nm_ok (Oh c h') cap (snd m)) by (destruct BA as (_ & B2 & _); eapply nm_mono; [exact HO|]; eapply B2; [exact CH|left; reflexivity]).
        destruct on.
        + apply FIN. destruct a as [s|s].
          * destruct SF as (SF1 & SF2 & SF3). destruct (normal5_on _ _ _ _ MO SF2 NM) as (s' & -> & [K1 K2 K3 K4]). apply sess5_next; auto; [split; auto|]. apply alias_other; auto. intros len w X. rewrite X in E. discriminate.
          * destruct SF as (SF1 & SF2 & SF3). destruct (normal3_on _ _ _ _ MO SF2 NM) as (s' & -> & [K1 K2 K3]). apply sess3_next; auto. split; auto.
        + split; [|intros [F|F]; rewrite A in F; discriminate]. destruct a as [s|s].
          * destruct SF as ((kn & SF1) & SF2 & SF3). destruct (normal5_off _ _ _ _ MO SF2 NM) as (s' & l & -> & [K1 K2 K3 K4]). cbn [sess_fine a_ident] in *. rewrite ID. destruct (K1 _ SF1) as (_ & _ & X). split; [eexists; exact X|]. auto.
          * destruct SF as (SF1 & SF2 & SF3). destruct (normal3_off _ _ _ _ MO SF2 NM) as (s' & l & -> & [K1 K2 K3]). cbn [sess_fine a_ident] in *. rewrite ID. destruct (K1 SF1) as (_ & X). auto.
      - apply FIN. assert (BO : bcast_ok (Oh c h') cap bc).
        { pose proof ST as S1. rewrite E in S1. destruct (flush_step _ _ _ _ _ _ _ _ _ S1 SA') as (a0 & b1 & A0 & F). rewrite SA in A0. injection A0 as <-.
          destruct (flush_queue d a b _ _ (run_bc _ _ _ _ _ _ _ _ R SA) F) as (_ & F1 & F2). assert (EB : a_bcast (a_set_bcast bc n a) = bc) by (destruct a; reflexivity). rewrite EB in *.
          assert (BB : bcast_ok (Oh c h') cap (a_bcast a)) by (destruct a; apply SF).
          intros d' m I. destruct (N.eq_dec d' d) as [->|NE]; [|rewrite F1 in I by auto; eapply BB; exact I].
          rewrite F2 in I. destruct (received_for b d); [|destruct I]. apply (BB d). destruct (queue_of (a_bcast a) d); [destruct I|right; exact I]. }
        destruct a as [s|s].
        + apply (sess5_next k s (with_bcast bc n s)); auto; [rewrite OE; apply otr_refl|]. apply alias_other; auto. intros len w X. rewrite X in E. discriminate.
        + apply (sess3_next k s (zwith_bcast bc n s)); [reflexivity|exact SF|rewrite OE; intros X; split; [constructor|exact X]|intros X; exact X|exact BO].
      - apply FIN. pose proof (k_pendings (Oh c h') cap (Ah (s_ident s) h') (seconds b) (with_last (seconds b) s)) as [K1 K2 K3 K4]. rewrite PE in *. cbn [fst snd] in *.
        apply sess5_next; auto; [rewrite OE, pkts5_map; exact K1|apply K3, SF|]. apply alias_other; auto. intros len w X. rewrite X in E. discriminate.
      - apply FIN. pose proof (y_pendings (Oh c h') cap (Ah (z_ident s) h') (seconds b) (zwith_last (seconds b) s)) as [K1 K2 K3]. unfold after_packet3 in PE. rewrite PE in *. cbn [fst snd] in *.
        apply sess3_next; auto; [rewrite OE, pkts3_map; exact K1|apply K3, SF].
      - apply FIN. destruct TK as (t & T1 & T2). destruct (will_fine k t a b0 a' b1 out ok T1 T2 GB SW (incl_refl _)) as (_ & W2 & W3 & W4 & W5).
        destruct a as [s|s], a' as [s'|s']; try contradiction.
        + destruct W5 as (Y1 & Y2 & Y3 & Y4 & Y5). apply sess5_next; auto; [rewrite W3, Y1; apply otr_refl|intros X f; rewrite Y2; apply X|]. apply alias_other; [|rewrite Y4, Y5; auto]. intros len w X. rewrite X in E. destruct E; discriminate.
        + destruct W5 as (Y1 & Y2 & Y3). apply sess3_next; auto; [rewrite W4, Y1; intros X; auto|intros X f; rewrite Y2; apply X].
      - apply FIN. destruct a as [s|s].
        + apply (sess5_next k s (with_connected false s)); auto; [rewrite OE; apply otr_refl|apply SF|]. apply alias_other; auto. intros len w X. rewrite X in E. discriminate.
        + apply (sess3_next k s (zwith_connected false s)); [reflexivity|exact SF|rewrite OE; intros X; split; [constructor|exact X]|intros X; exact X|apply SF].
    Qed.

    (** ** The tables and channels *)
    Definition tab_ok (b : broker) : Prop := glob_ok (Oh c h') cap (glob_of b) /\ chans_fine c h' b.
    Lemma tab_same b1 b2 : b_route b2 = b_route b1 -> b_retain b2 = b_retain b1 -> b_chans b2 = b_chans b1 -> tab_ok b1 -> tab_ok b2.
    Proof.
      intros E1 E2 E3 ((ops & hr & X1 & X2 & X3 & X4) & H2). split; [exists ops, hr; cbn in *; rewrite E1, E2; auto|]. unfold chans_fine. rewrite E3. exact H2.
    Qed.
    Lemma tab_chan d ch b1 : tab_ok b1 -> (forall x, In x (ch_norm ch) -> nm_ok (Oh c h') cap (snd x)) -> tab_ok (set_chan d ch b1).
    Proof.
      intros (H1 & H2) X. split; [exact H1|]. intros d' ch' x. cbn [set_chan set_chans b_chans]. change client_id with N. rewrite aget_N. destruct (d' =? d); [intros Y; injection Y as <-; apply X|]. apply H2.
    Qed.
    Lemma tab_close d b1 : tab_ok b1 -> tab_ok (close d b1).
    Proof. intros H. unfold close. destruct (aget d (b_chans b1)) as [ch|] eqn:A; [|exact H]. apply tab_chan; [exact H|]. intros x X. apply (proj2 H d ch x); auto. Qed.
    Lemma tab_put g b1 : tab_ok b1 -> glob_ok (Oh c h') cap g -> tab_ok (put_glob g b1).
    Proof. intros (H1 & H2) (ops & hr & X). split; [exists ops, hr; exact X|exact H2]. Qed.
    Lemma tab_remove a b1 b2 : remove_client a b1 = Some b2 -> tab_ok b1 -> tab_ok b2.
    Proof.
      intros RC ((ops & hr & X1 & X2 & X3 & X4) & H2). destruct (remove_route _ _ _ RC) as (E1 & E2 & E3). split.
      - exists (ops ++ map (fun f => Unsub f (a_id a)) (a_filters a)), hr. cbn in *. split; [apply E3; exact X1|]. split; [|rewrite E1; auto].
        intros f d q I. apply in_app_or in I. destruct I as [I|I]; [eauto|]. apply in_map_iff in I. destruct I as (? & ? & _). discriminate.
      - assert (EC : b_chans b2 = b_chans b1).
        { unfold remove_client in RC. destruct (reg_remove _ _); [|discriminate]. destruct (unroute _ _ _) as [t p]. destruct p; [discriminate|]. injection RC as <-. reflexivity. }
        unfold chans_fine. rewrite EC. exact H2.
    Qed.
    Lemma tab_b : tab_ok b.
    Proof. split; [exact glob'|]. apply chans_cons. apply BA. Qed.
    Lemma tab_will k t a b0 a1 b1 o ok : aget k (b_tasks b) = Some t -> t_sess t = Some a -> glob_of b0 = glob_of b -> tab_ok b0 -> send_will pick k a b0 = Some (a1, b1, o, ok) -> incl o out -> tab_ok b1.
    Proof.
      intros A T G T0 SW IN. destruct (will_fine _ _ _ _ _ _ _ _ A T G SW IN) as (X & _). split; [exact X|].
      destruct (send_will_move _ _ _ _ _ _ _ _ SW) as (_ & (rt & rn & ->) & _). exact (proj2 T0).
    Qed.
    Ltac same := eapply tab_same; [..|exact tab_b]; reflexivity.

    Lemma step_tab' : tab_ok b'.
    Proof.
      pose proof tab_b as TB. pose proof ST as S. assert (CH : forall d ch, aget d (b_chans b) = Some ch -> forall x, In x (ch_norm ch) -> nm_ok (Oh c h') cap (snd x)) by (intros d ch X x; apply (proj2 TB d ch x X)).
      remember e as e0 eqn:EE in S. symmetry in EE. destruct e0 as [t0 uuid p data|t0 uuid p|k|k|k|k|k len x|k len x|k reason|k|k|k|k d|k hook|k|n|d]; cbn [BrokerModel.bstep] in S.
      - destruct (_ <? _); [discriminate|]. unfold add_client in S. destruct (reg_add _ _) as [r a]. destruct a as [c0|c0|]; [| |discriminate]; injection S as <- _; [|same]. eapply tab_same; [..|apply (tab_chan c0 (Chan [] [] true) b TB); intros ? []]; reflexivity.
      - destruct (_ <? _); [discriminate|]. unfold add_client in S. destruct (reg_add _ _) as [r a]. destruct a as [c0|c0|]; [| |discriminate]; injection S as <- _; [|same]. eapply tab_same; [..|apply (tab_chan c0 (Chan [] [] true) b TB); intros ? []]; reflexivity.
      - unfold do_put in S. destruct (aget k (b_tasks b)) as [[x d| | | | | | | |]|] eqn:A; try discriminate. destruct (aget d _) as [ch|] eqn:C; [|discriminate].
        destruct (negb _); [|destruct (ctl_room _); [|discriminate]]; injection S as <- _; [same|]. eapply tab_same; [..|apply (tab_chan d (push_ctl (if p_v5 x then COnline5 k else COnline3 k) ch) b TB); apply (CH _ _ C)]; reflexivity.
      - unfold do_fail in S. destruct (aget k (b_tasks b)) as [[| x d|x r|a| | | | |]|] eqn:A; try discriminate.
        + destruct (aget d _) as [ch|]; [|discriminate]. destruct (ch_open ch); [discriminate|]. injection S as <- _. same.
        + injection S as <- _. apply tab_close. same.
        + injection S as <- _. apply tab_close. same.
      - unfold do_join in S. destruct (_ <=? _); [discriminate|]. destruct (aget k (b_tasks b)) as [[| |[cn data|s0] r| | | | | |]|] eqn:AK; try discriminate.
        + destruct (match r with RNew c => Some (RcNew c) | ROld5 st => Some (RcPresent st) | ROld3 _ => None end); [|discriminate].
          destruct (session_connect5 _ _ _ _ _ _) as [[s ack]|]; [|discriminate]. unfold start_keep in S.
          destruct (s_connected s); injection S as <- _; [|apply tab_close]; destruct (0 <? _); same.
        + destruct (match r with RNew c => Some (RcNew3 c) | ROld3 st => Some (RcPresent3 st) | ROld5 _ => None end); [|discriminate].
          destruct (session_connect3 _ _ _) as [s ack]. injection S as <- _. unfold start_keep. destruct (0 <? _); same.
      - unfold do_start in S. destruct (aget k (b_tasks b)) as [[| | |[s|s]| | | | |]|] eqn:A; try discriminate; [destruct (pendings5 _ _) as [s1 o]|destruct (after_packet3 _ _) as [s1 o]]; injection S as <- _; same.
      - unfold do_packet5 in S. destruct (aget k (b_tasks b)) as [[| | | |[s|s]| | | |]|] eqn:A; try discriminate. destruct (is_disconnected5 s) eqn:D; [discriminate|].
        destruct (packet_step5 _ _ _ _ _ _ _) as [s1 g o|s1 g|] eqn:PS; [| |discriminate]; injection S as S1 S2.
        + assert (G : glob_ok (Oh c h') cap g) by (eapply pkt5_fine; eauto). eapply tab_same; [..|exact (tab_put g b TB G)]; rewrite <- S1; destruct (is_disconnected5 s1); reflexivity.
        + destruct (fun X => stop5_same k _ _ _ _ _ PS X) as (_ & _ & ->); [exact EE|]. eapply tab_same; [..|exact (tab_put _ b TB glob')]; rewrite <- S1; reflexivity.
      - unfold do_packet3 in S. destruct (aget k (b_tasks b)) as [[| | | |[s|s]| | | |]|] eqn:A; try discriminate. destruct (z_disc s) eqn:D; [discriminate|].
        destruct (packet_step3 _ _ _ _ _ _) as [s1 g o|s1 g|] eqn:PS; [| |discriminate]; injection S as S1 S2.
        + assert (G : glob_ok (Oh c h') cap g) by (eapply pkt3_fine; eauto). eapply tab_same; [..|exact (tab_put g b TB G)]; rewrite <- S1; reflexivity.
        + assert (G : glob_ok (Oh c h') cap g) by (eapply stop3_fine; eauto). eapply tab_same; [..|exact (tab_put g b TB G)]; rewrite <- S1; reflexivity.
      - unfold do_malformed in S. destruct (aget k (b_tasks b)) as [[| | | |[s|s]| | | |]|] eqn:A; try discriminate. destruct (is_disconnected5 s) eqn:D; [discriminate|].
        destruct (error_disconnect _ _ _) as [s1 p]. injection S as <- _. same.
      - unfold do_close in S. destruct (aget k (b_tasks b)) as [[| | | |a| | | |]|] eqn:A; try discriminate. injection S as <- _. same.
      - assert (GO : forall (on : bool) a, aget k (b_tasks b) = Some (if on then TOnline a else TOffline a) -> match aget (a_id a) (b_chans b) with
        | Some (Chan (m :: r) ms o) => control pick on k a m (set_chan (a_id a) (Chan r ms o) b)
        | _ => BNo
        end = BOk b' out -> tab_ok b').
        { intros on a A. destruct (aget (a_id a) (b_chans b)) as [[[|m q] ms o]|] eqn:C; try discriminate.
          set (b0 := set_chan _ _ b). assert (TS : t_sess (if on then TOnline a else TOffline a) = Some a) by (destruct on; reflexivity).
          assert (T0 : tab_ok b0) by (apply tab_chan; [exact TB|exact (CH _ _ C)]).
          assert (STAY : forall t' b1 o', tab_ok b1 -> BOk (set_task k t' b1) o' = BOk b' out -> tab_ok b') by (intros t' b1 o' X Y; injection Y as <- _; eapply tab_same; [..|exact X]; reflexivity).
          assert (HAND : forall b1 j x r, tab_ok b1 -> hand_over k j x r b1 = BOk b' out -> tab_ok b') by (intros b1 j x r X Y; injection Y as <- _; eapply tab_same; [..|exact X]; reflexivity).
          assert (END : forall j, tab_ok (end_task j b0)) by (intros j; eapply tab_same; [..|exact T0]; reflexivity).
          unfold control. destruct m, a as [s|s]; try discriminate.
          - destruct (aget k0 (b_tasks b0)) as [[]|] eqn:J; try discriminate. apply HAND. exact T0.
          - apply STAY. apply END.
          - apply STAY. apply END.
          - destruct (aget k0 (b_tasks b0)) as [[]|] eqn:J; try discriminate. destruct (aget (z_id s) (b_chans b0)) as [ch|]; [|discriminate].
            destruct on; apply HAND; [exact T0|]. apply tab_chan; [exact T0|intros ? []].
          - destruct on; apply STAY; exact T0.
          - destruct on; apply STAY; exact T0.
          - destruct (_ && _); [|destruct on; apply STAY; exact T0].
            destruct (send_will pick k (A5 s) b0) as [[[[a1 b1] o1] ok]|] eqn:W; [|discriminate]. destruct (remove_client a1 b1) as [b2|] eqn:RC; [|discriminate]. intros X.
            eapply STAY; [|exact X]. eapply tab_remove; [exact RC|]. injection X as _ X. eapply (tab_will k _ _ b0); [exact A|exact TS|reflexivity|exact T0|exact W|rewrite X; apply incl_refl].
          - destruct (_ && _); [|destruct on; apply STAY; exact T0].
            destruct (send_will pick k (A5 s) b0) as [[[[a1 b1] o1] ok]|] eqn:W; [|discriminate]. intros X.
            eapply STAY; [|exact X]. injection X as _ X. eapply (tab_will k _ _ b0); [exact A|exact TS|reflexivity|exact T0|exact W|rewrite X; apply incl_refl]. }
        unfold do_control in S. destruct (aget k (b_tasks b)) as [[| | | |a| | |a|]|] eqn:A; try discriminate; [apply (GO true a eq_refl S)|apply (GO false a eq_refl S)].
      - unfold do_normal in S. destruct (aget k (b_tasks b)) as [[| | | |a| | |a|]|] eqn:A; try discriminate; [destruct (a_disc a); [discriminate|]|];
          (destruct (aget (a_id a) _) as [[cs [|m r] o]|] eqn:C; try discriminate); destruct (normal _ _ _ _ _ _) as [a1 o1]; injection S as <- _;
          (eapply tab_same; [..|apply (tab_chan (a_id a) (Chan cs r o) b TB); intros x X; apply (CH _ _ C); right; exact X]; reflexivity).
      - unfold do_flush in S.
        assert (GO : forall a f, sess_at b k = Some a -> match flush d a b with Some (a1, b1) => BOk (set_task k (f a1) b1) [] | None => BNo end = BOk b' out -> tab_ok b').
        { intros a f SA. assert (BB : bcast_ok (Oh c h') cap (a_bcast a)) by (pose proof (sess_here _ _ SA) as SF; destruct a; apply SF).
          unfold flush. destruct (aget d (a_bcast a)) as [[|m ms]|] eqn:Q; [| |discriminate].
          - intros X. injection X as <- _. same.
          - destruct (aget d (b_chans b)) as [ch|] eqn:C; [|discriminate]. destruct (negb _); [intros X; injection X as <- _; same|]. destruct (norm_room ch); [|discriminate]. intros X. injection X as <- _.
            eapply tab_same; [..|apply (tab_chan d (push_norm (a_id a, m) ch) b TB)]; try reflexivity. cbn. intros x X. apply in_app_or in X. destruct X as [X|[<-|[]]]; [exact (CH _ _ C x X)|].
            cbn. apply (BB d). unfold queue_of. rewrite Q. left. reflexivity. }
        destruct (aget k (b_tasks b)) as [[| | | |a| |a| |a st]|] eqn:A; try discriminate; eapply GO; try exact S; unfold sess_at; rewrite A; reflexivity.
      - unfold do_end in S. destruct (aget k (b_tasks b)) as [[| | | | |a| | |]|] eqn:A; try discriminate. destruct (negb hook); [injection S as <- _; apply tab_close; same|].
        assert (NOW : match send_will pick k a b with
          | None => BPanic
          | Some (a1, b1, out, ok) => if ok then BOk (set_task k (TDrain a1) b1) out else BOk (close (a_id a) (end_task k b1)) (out ++ [OClosed k])
          end = BOk b' out -> tab_ok b').
        { destruct (send_will pick k a b) as [[[[a1 b1] o1] ok]|] eqn:W; [|discriminate]. intros X.
          assert (T1 : tab_ok b1).
          { eapply (tab_will k _ _ b); [exact A|reflexivity|reflexivity|exact TB|exact W|]. destruct ok; injection X as _ X; rewrite <- X; [apply incl_refl|]. intros y Y. apply in_or_app. now left. }
          destruct ok; injection X as <- _; [|apply tab_close]; (eapply tab_same; [..|exact T1]; reflexivity). }
        destruct a as [s|s].
        + destruct (s_cdisc s); [injection S as <- _; same|]. destruct (will_due s); [injection S as <- _; destruct (_ <? _); same|]. exact (NOW S).
        + destruct (z_disc s); [injection S as <- _; same|]. exact (NOW S).
      - unfold do_done in S. destruct (aget k (b_tasks b)) as [[| | | | | |a| |a st]|] eqn:A; try discriminate; destruct (a_bcast a); try discriminate.
        + destruct (a_ends a).
          * destruct (remove_client a b) as [b1|] eqn:RC; [|discriminate]. injection S as <- _. apply tab_close. eapply tab_same; [..|exact (tab_remove _ _ _ RC TB)]; reflexivity.
          * destruct (reg_offline _ _) as [r|]; [|discriminate]. destruct a as [s|s]; injection S as <- _; same.
        + destruct st.
          * destruct (remove_client a b) as [b1|] eqn:RC; [|discriminate]. injection S as <- _. apply tab_close. eapply tab_same; [..|exact (tab_remove _ _ _ RC TB)]; reflexivity.
          * injection S as <- _. same.
      - unfold do_fire in S. destruct (nth_error _ _) as [[d k half due|d t due|d t due|d m]|]; try discriminate.
        + destruct (_ <? _); [discriminate|]. destruct (_ <=? _); [injection S as <- _; same|]. destruct (in_list _ _); injection S as <- _; same.
        + destruct (_ <? _); [discriminate|]. destruct (in_list _ _); injection S as <- _; same.
        + destruct (_ <? _); [discriminate|]. destruct (in_list _ _); injection S as <- _; same.
        + destruct (aget d (b_chans b)) as [ch|] eqn:C; [|discriminate]. destruct (negb _); [injection S as <- _; same|]. destruct (ctl_room ch); [|discriminate]. injection S as <- _.
          eapply tab_same; [..|apply (tab_chan d (push_ctl m ch) b TB); exact (CH _ _ C)]; reflexivity.
      - injection S as <- _. same.
    Qed.
  End Step.

  Lemma evol_kind b e b' out k a a' : bstep e b = BOk b' out -> evol b e out k a a' -> match a with A5 _ => pkts3 k out = [] | A3 _ => pkts5 k out = [] end.
  Proof.
    intros S V. destruct V as [a IDL|len x s s' g o E A D PS OE|len x s s' g E A D PS OE|reason s s' p E D ED OE|len x s s' g o E A D PS OE|len x s s' g E A D PS OE
      |on a a' cs m r o E A D CH NM|d a bc n E OE|s s' o E A PE OE|s s' o E A PE OE|a a' b0 b1 ok GB E SW|a E OE]; try (rewrite OE; first [apply pkts3_map5|apply pkts5_map3|reflexivity|destruct a; reflexivity]).
    - destruct (step_quiet _ _ _ _ _ _ _ _ S IDL) as (Q5 & Q3). destruct a; assumption.
    - unfold normal in NM. destruct a as [s|s].
      + destruct (handle_normal5 _ _ _ _) as [s1 [[q p]|]]; [|injection NM as _ <-; reflexivity]. destruct on; [|injection NM as _ <-; reflexivity].
        destruct (if qos_eqb q L0 then _ else _) as [s2 more]. injection NM as _ <-. apply pkts3_map5.
      + destruct (handle_normal3 _ _ _) as [s1 [[q p]|]]; [|injection NM as _ <-; reflexivity]. destruct on; [|injection NM as _ <-; reflexivity].
        destruct (if qos_eqb q L0 then _ else _) as [s2 more]. injection NM as _ <-. apply pkts5_map3.
    - pose proof (quiet_will pick k _ _ _ _ _ _ _ SW) as (Q5 & Q3). destruct a; assumption.
  Qed.

  (** ** New connections *)
  Lemma connect5_facts (c : config) now rc data (cn : conn5 unit) s ack : session_connect5 unit c now rc data cn = Some (s, ack) ->
    s_ident s = s_ident (cn_s cn) /\ s_alias s = s_alias (cn_s cn) /\ s_bcast s = s_bcast (cn_s cn) /\ o5_amax (s_out s) = o5_amax (s_out (cn_s cn)) /\ o5_al (s_out s) = o5_al (s_out (cn_s cn)) /\
    (pq (o5_q (s_out s)) = pq (o5_q (s_out (cn_s cn))) /\ s_subs s = s_subs (cn_s cn) \/
     exists st, rc = RcPresent st /\ pq (o5_q (s_out s)) = pq (reset_last_sent (o5_q (st_out st))) /\ s_subs s = st_subs st).
  Proof.
    intros H. unfold session_connect5 in H. destruct (max_allowed_qos c) as [mq|].
    2:{ destruct (match rc with RcNew id => _ | RcPresent st => _ end) as [s1 pr]. discriminate. }
    destruct rc as [id|st]; [|destruct (negb (s_clean (cn_s cn)))];
      destruct (_ <? _) in H; injection H as H _; match type of H with (if ?x then _ else _) = _ => destruct x end; rewrite <- H; cbn; repeat (split; [reflexivity|]); eauto.
  Qed.
  Lemma connect3_facts now rc s0 s ack : session_connect3 now rc s0 = (s, ack) ->
    z_ident s = z_ident s0 /\ z_bcast s = z_bcast s0 /\
    (pq (o3_q (z_out s)) = pq (o3_q (z_out s0)) /\ z_subs s = z_subs s0 \/
     exists st, rc = RcPresent3 st /\ pq (o3_q (z_out s)) = pq (reset_last_sent (o3_q (st3_out st))) /\ z_subs s = st3_subs st).
  Proof.
    intros H. unfold session_connect3 in H. destruct rc as [id|st]; [|destruct (_ && _)]; injection H as H _; rewrite <- H; cbn; repeat (split; [reflexivity|]); eauto.
  Qed.
  Lemma take_fine c h now ms : forall s, (forall x, In x ms -> nm_ok (Oh c h) (cf_max_qos c) (snd x)) -> sess_fine c h (A3 s) -> sess_fine c h (A3 (v3_take_all now ms s)).
  Proof.
    induction ms as [|m ms IH]; intros s M SF; [exact SF|]. unfold v3_take_all. cbn [fold_left]. apply IH; [intros x X; apply M; now right|].
    pose proof (v3_take_facts now [m] s) as (_ & ID & _). unfold v3_take_all in ID. cbn [fold_left] in ID.
    destruct SF as (S1 & S2 & S3). destruct (handle_normal3 now (snd m) s) as [s1 r] eqn:HN. cbn [fst] in *.
    destruct (normal3_ok (Oh c h) (cf_max_qos c) (Ah (z_ident s) h) hash3 now (snd m) s s1 r (M m (or_introl eq_refl)) S2 HN) as [K1 K2 K3].
    cbn [sess_fine]. rewrite ID. destruct (K1 S1) as (_ & X). auto.
  Qed.

  Lemma joined_ok c h b k x r a o : brun c h b -> (forall q, In q h -> base c h (w_b q)) -> silent k h -> aget k (b_tasks b) = Some (TJoin x r) -> joined b x r a o k ->
    sess_fine c h a /\ live c h k a.
  Proof.
    intros R HB (SI1 & SI2) A J. pose proof (conn_from _ _ _ _ _ _ _ _ R A) as CO.
    assert (CN : exists q, made_by h q k /\ connecting (w_b q) (w_e q) x) by (destruct r; destruct CO as (q & Q1 & Q2 & _); eauto).
    assert (GV : (exists c0, r = RNew c0) \/ exists q2 j on a0, gave_session h b q2 j on a0 k /\ a_ident a0 = p_ident x /\ given (w_b q2) on a0 r).
    { destruct r as [c0|st|st]; [left; eauto|right..]; destruct CO as (q & _ & _ & _ & q2 & j & on & a0 & G1 & G2 & G3 & G4); exists q2, j, on, a0; auto. }
    clear CO. destruct CN as (q & Q1 & Q2). destruct Q2 as [(t0 & uuid & p & data & E & _ & X)|(t0 & uuid & p & E & _ & X)]; rewrite X in J; cbn [joined] in J.
    - destruct J as (rc & s & ack & RC & SC & CT & -> & _). destruct (connect5_facts _ _ _ _ _ _ _ SC) as (F1 & F2 & F3 & F4 & F5 & F6). cbn in F1, F2, F3, F4, F5.
      assert (LIM : alias_limit k h (o5_amax (s_out s))). { exists q, t0, uuid, p, data. split; [exact Q1|]. split; [exact E|]. rewrite F4. reflexivity. }
      assert (ENT : Forall (entry5 (Oh c h) (cf_max_qos c) (Ah (s_ident s) h)) (pq (o5_q (s_out s))) /\ subs_ok (Ah (s_ident s) h) s).
      { destruct F6 as [(F6 & F7)|(st & -> & F6 & F7)].
        - rewrite F6. unfold subs_ok. rewrite F7. cbn. split; [constructor|intros f []].
        - destruct r as [c0|st'|st']; try discriminate. injection RC as ->. destruct GV as [(c0 & X0)|(q2 & j & on & a0 & G1 & G2 & G3)]; [discriminate|].
          destruct G1 as (I2 & _ & AJ & _). destruct (HB _ I2) as (_ & _ & HS). assert (SJ : sess_at (w_b q2) j = Some a0) by (unfold sess_at; rewrite AJ; destruct on; reflexivity). pose proof (HS _ _ SJ) as SF.
          unfold given in G3. destruct a0 as [s0|s0]; [|destruct on; [discriminate|destruct G3 as (ch & _ & G3); discriminate]]. injection G3 as ->. cbn in F6, F7. destruct SF as ((kn & SF1 & _) & SF2 & _).
          assert (ID : s_ident s0 = s_ident s) by (rewrite F1; rewrite X in G2; exact G2). rewrite ID in *. split.
          + rewrite F6. refine (all_reset _ (e5R _ _ _) (e5N _ _ _) (o5_q (s_out s0)) SF1).
          + intros f I. apply SF2. rewrite F7 in I. exact I. }
      destruct ENT as (EN1 & EN2).
      assert (OK : out_ok (Oh c h) (cf_max_qos c) (Ah (s_ident s) h) (s_out s) []) by (split; [exact EN1|]; rewrite F5; split; [apply al_inv_empty|intros y; reflexivity]).
      split; [split; [eauto|split; [exact EN2|rewrite F3; intros d m []]]|]. split; [exact LIM|]. rewrite SI1. split; [exact OK|]. intros _. rewrite F2, SI2. reflexivity.
    - destruct J as (rc & s & ack & RC & SC & -> & _). destruct (connect3_facts _ _ _ _ _ SC) as (F1 & F3 & F6). cbn in F1, F3. split; [|exact Logic.I].
      assert (ENT : Forall (entry3 (Oh c h) (cf_max_qos c) (Ah (z_ident s) h)) (pq (o3_q (z_out s))) /\ subs_ok3 (Ah (z_ident s) h) s).
      { destruct F6 as [(F6 & F7)|(st & -> & F6 & F7)].
        - rewrite F6. unfold subs_ok3. rewrite F7. cbn. split; [constructor|intros f []].
        - destruct r as [c0|st'|st']; try discriminate. injection RC as ->. destruct GV as [(c0 & X0)|(q2 & j & on & a0 & G1 & G2 & G3)]; [discriminate|].
          destruct G1 as (I2 & _ & AJ & _). destruct (HB _ I2) as (_ & HC & HS). assert (SJ : sess_at (w_b q2) j = Some a0) by (unfold sess_at; rewrite AJ; destruct on; reflexivity). pose proof (HS _ _ SJ) as SF.
          unfold given in G3. destruct a0 as [s0|s0]; [discriminate|].
          assert (ID : z_ident s0 = z_ident s) by (rewrite F1; rewrite X in G2; exact G2).
          assert (Y : exists s1, st = snd (build_state3 s1) /\ z_ident s1 = z_ident s /\ sess_fine c h (A3 s1)).
          { destruct on.
            - injection G3 as ->. exists s0. auto.
            - destruct G3 as (ch & CH & G3). injection G3 as ->. eexists. split; [reflexivity|]. split; [rewrite <- ID; apply v3_take_facts|]. apply take_fine; [|exact SF]. intros y Y. eapply HC; [exact CH|exact Y]. }
          destruct Y as (s1 & -> & ID1 & SF1). destruct SF1 as (Y1 & Y2 & _). cbn in F6, F7. rewrite ID1 in *. split.
          + rewrite F6. refine (all_reset _ (e3R _ _ _) (e3N _ _ _) (o3_q (z_out s1)) Y1).
          + intros f I. apply Y2. rewrite F7 in I. exact I. }
      destruct ENT as (EN1 & EN2). split; [exact EN1|]. split; [exact EN2|]. rewrite F3. intros d m [].
  Qed.

  Lemma silent_step c h b e b' out k : brun c h b -> bstep e b = BOk b' out -> (b_conns b <= k \/ exists t, aget k (b_tasks b) = Some t /\ t_connecting t = true) ->
    silent k h -> silent k (Past b e out :: h).
  Proof.
    intros R S K (S1 & S2). assert (ID : idle k e).
    { destruct (busy k _ _ _ _ S) as [ID|(t & a & t' & a' & A & T & _)]; [exact ID|]. exfalso. destruct K as [K|(t0 & A0 & T0)].
      - pose proof (task_num _ _ _ (run_good _ _ _ _ _ _ R) A). lia.
      - rewrite A in A0. injection A0 as <-. destruct t; discriminate. }
    destruct (step_quiet _ _ _ _ _ _ _ _ S ID) as (Q5 & _). split; intros amax; cbn [learned bound_in w_out w_e].
    - rewrite Q5. apply S1.
    - destruct e; auto. destruct x; auto. cbn [idle] in ID. apply N.eqb_neq in ID. rewrite ID. apply S2.
  Qed.

  
  Definition origin_inv (c : config) (h : list past) (b : broker) : Prop :=
    b_cfg b = c /\ base c h b /\ (forall p, In p h -> base c h (w_b p)) /\ (forall k a, front b k a -> live c h k a) /\
    (forall k, (b_conns b <= k \/ exists t, aget k (b_tasks b) = Some t /\ t_connecting t = true) -> silent k h).
  Lemma live_cons c x h k a : live c h k a -> silent k (x :: h) -> silent k h -> live c (x :: h) k a.
  Proof.
    destruct a as [s|s]; [|auto]. intros (L1 & L2 & L3) (X1 & X2) (Y1 & Y2). split; [apply limit_cons; exact L1|]. split.
    - rewrite X1. rewrite Y1 in L2. eapply out_mono; [apply Oh_cons|intros f; apply Ah_cons|exact L2].
    - rewrite X2. rewrite Y2 in L3. exact L3.
  Qed.
  Lemma run_origin c h b : brun c h b -> (forall p, In p h -> proper p) -> wills_fine h -> origin_inv c h b.
  Proof.
    induction 1 as [|h b e b' out R IH S]; intros PR WN.
    - split; [reflexivity|]. split; [split; [exists [], []; repeat split; intros; contradiction|split; [intros d ch x X; discriminate|intros k a X; discriminate]]|].
      split; [intros p []|]. split; [intros k a [X|X]; discriminate|]. intros k _. split; reflexivity.
    - destruct IH as (CF & BA & HB & LV & SI); [intros p I; apply PR; now right|intros k w I; apply (WN k); unfold asked_will; cbn [flat_map]; apply in_or_app; right; exact I|].
      assert (WN' : forall k w, In w (asked_will k h) -> valid_topic_name (aw_topic w) /\ aw_topic w <> EmptyString) by (intros k w I; apply (WN k); unfold asked_will; cbn [flat_map]; apply in_or_app; right; exact I).
      pose proof (run_good _ _ _ _ _ _ R) as G. pose proof G as [I P].
      assert (SI' : forall k, (b_conns b <= k \/ exists t, aget k (b_tasks b) = Some t /\ t_connecting t = true) -> silent k (Past b e out :: h)) by (intros k K; eapply silent_step; eauto).
      assert (SE : forall k a', sess_at b' k = Some a' -> sess_fine c (Past b e out :: h) a' /\ (front b' k a' -> live c (Past b e out :: h) k a')).
      { intros k a' SA'. destruct (step_evol _ _ _ _ _ _ _ G S k a' SA') as [(a & SA & V)|(x & r & o & A & E & O & J)].
        - destruct (evol_ok c h b e b' out R S CF PR WN' BA LV k a a' SA SA' V) as (X1 & X2). split; [exact X1|]. intros F. apply X2.
          pose proof (step_move _ _ _ _ _ _ _ I S k) as M. unfold sess_at in SA. unfold front.
          destruct (aget k (b_tasks b)) as [t|]; [|discriminate].
          destruct F as [F|F]; rewrite F in M; inversion M; subst; cbn in SA; try discriminate; injection SA as <-; auto.
        - destruct (joined_ok _ _ _ _ _ _ _ _ R HB (SI k (or_intror (ex_intro _ _ (conj A eq_refl)))) A J) as (X1 & X2). split; [apply sess_cons; exact X1|]. intros _. apply live_cons; [exact X2|apply SI'; right; eauto|apply SI; right; eauto]. }
      split.
      { destruct (run_tables _ _ _ _ _ _ (run_cons _ _ _ _ _ _ _ _ _ R S)) as (ops & hr & C & _). exact C. }
      split; [|split; [|split]].
      + destruct (step_tab' c h b e b' out R S CF PR WN' BA LV) as (T1 & T2). split; [exact T1|]. split; [exact T2|]. intros k a X. apply (SE k a X).
      + intros p [<-|X]; [apply base_cons; exact BA|apply base_cons, HB; exact X].
      + intros k a F. apply (SE k a); [|exact F]. unfold sess_at. destruct F as [F|F]; rewrite F; reflexivity.
      + intros k K. apply SI'. pose proof (step_conns _ _ _ _ _ _ _ S) as C. destruct K as [K|(t' & A' & T')]; [left; rewrite C in K; destruct e; lia|].
        pose proof (step_move _ _ _ _ _ _ _ I S k) as M. rewrite A' in M. inversion M; subst; try discriminate T'; try (right; eexists; split; [symmetry; eassumption|reflexivity]); try (left; lia).
        all: right; eexists; split; [first [reflexivity|symmetry; eassumption|eassumption]|first [exact T'|reflexivity]].
  Qed.

  (** ** Every PUBLISH that is written *)
  Lemma step_said c post p pre b k : brun c (post ++ p :: pre) b -> (forall q, In q (post ++ p :: pre) -> proper q) -> wills_fine (post ++ p :: pre) ->
    (pkts5 k (w_out p) <> [] \/ pkts3 k (w_out p) <> []) ->
    exists a, sess_at (w_b p) k = Some a /\ live c pre k a /\ said c pre (p :: pre) k a (w_out p) /\ match a with A5 _ => pkts3 k (w_out p) = [] | A3 _ => pkts5 k (w_out p) = [] end.
  Proof.
    intros R PR WN NE. destruct (run_split _ _ _ _ _ _ _ R) as (b0 & R0 & _). inversion R0 as [|h0 b1 e b1' out R1 S]; subst. cbn [w_out w_b] in *.
    assert (PR' : forall q, In q (Past b1 e out :: pre) -> proper q) by (intros q I; apply PR, in_or_app; auto).
    assert (WN' : wills_fine pre). { intros j w I. apply (WN j). unfold asked_will. rewrite flat_map_app. apply in_or_app. right. cbn [flat_map]. apply in_or_app. right. exact I. }
    destruct (run_origin _ _ _ R1 (fun q I => PR' q (or_intror I)) WN') as (CF & BA & HB & LV & SI).
    destruct (busy k _ _ _ _ S) as [ID|(t & a & t' & a' & A & T & K & A' & T')].
    - exfalso. destruct (step_quiet _ _ _ _ _ _ _ _ S ID) as (Q5 & Q3). destruct NE; congruence.
    - assert (F : front b1 k a). { destruct K as [->|[->|(_ & Z)]]; [left; exact A|right; exact A|]. rewrite Z in NE. destruct NE as [NE|NE]; exfalso; apply NE; reflexivity. }
      exists a. assert (SA : sess_at b1 k = Some a) by (unfold sess_at; rewrite A; exact T). assert (SA' : sess_at b0 k = Some a') by (unfold sess_at; rewrite A'; exact T').
      pose proof (run_good _ _ _ _ _ _ R1) as G.
      destruct (step_evol _ _ _ _ _ _ _ G S k a' SA') as [(a0 & SA0 & V)|(x & r & o & AJ & _)]; [|rewrite A in AJ; injection AJ as ->; discriminate].
      rewrite SA in SA0. injection SA0 as <-. split; [exact SA|]. split; [apply LV; exact F|].
      destruct (evol_ok c pre b1 e b0 out R1 S CF PR' WN' BA LV k a a' SA SA' V) as (_ & X). split; [apply X; exact F|]. eapply evol_kind; eauto.
  Qed.
  Lemma pkts5_at k o1 x o2 : pkts5 k (o1 ++ OPkt5 k x :: o2) = pkts5 k o1 ++ x :: pkts5 k o2.
  Proof. unfold pkts5. rewrite flat_map_app. cbn [flat_map]. now rewrite N.eqb_refl. Qed.
  Lemma in_pkts3 k x out : In (OPkt3 k x) out -> In x (pkts3 k out).
  Proof. intros I. apply in_flat_map. eexists. split; [exact I|]. cbn. rewrite N.eqb_refl. now left. Qed.

  Lemma sent5 c post p pre b k w o1 o2 : brun c (post ++ p :: pre) b -> (forall q, In q (post ++ p :: pre) -> proper q) -> wills_fine (post ++ p :: pre) ->
    w_out p = o1 ++ OPkt5 k (KPub w) :: o2 ->
    exists amax a t, alias_limit k pre amax /\ sess_at (w_b p) k = Some a /\ fst (client_read amax (fold_left (learn amax) (pkts5 k o1) (learned amax k pre)) w) = Some t /\
      due_to c (p :: pre) (a_ident a) t (w5_payload w) (pp_other (w5_props w)) (pp_expiry (w5_props w)) (qp_qos (w5_qp w)).
  Proof.
    intros R PR WN E. destruct (step_said _ _ _ _ _ k R PR WN) as (a & SA & L & SD & KD).
    { left. rewrite E, pkts5_at. destruct (pkts5 k o1); discriminate. }
    destruct a as [s|s]; [|rewrite E, pkts5_at in KD; destruct (pkts5 k o1); discriminate].
    destruct L as (L & _). unfold said in SD. rewrite E, pkts5_at in SD. apply fine_app in SD as (_ & SD & _). destruct SD as (t & v & T & ((q0 & D1 & D2) & D3) & W).
    exists (o5_amax (s_out s)), (A5 s), t. split; [exact L|]. split; [exact SA|]. split; [exact T|]. split; [exists v, q0; split; [exact D1|split; [exact W|exact D2]]|exact D3].
  Qed.
  Lemma sent3 c post p pre b k w : brun c (post ++ p :: pre) b -> (forall q, In q (post ++ p :: pre) -> proper q) -> wills_fine (post ++ p :: pre) ->
    In (OPkt3 k (JPub w)) (w_out p) ->
    exists a other v, sess_at (w_b p) k = Some a /\ due_to c (p :: pre) (a_ident a) (w3_topic w) (w3_payload w) other v (qp_qos (w3_qp w)).
  Proof.
    intros R PR WN I. apply in_pkts3 in I. destruct (step_said _ _ _ _ _ k R PR WN) as (a & SA & L & SD & KD).
    { right. intros Z. rewrite Z in I. destruct I. }
    destruct a as [s|s]; [rewrite KD in I; destruct I|]. unfold said in SD. rewrite Forall_forall in SD. destruct (SD _ I) as ((o & v) & ((q0 & D1 & D2) & D3)). exists (A3 s), o, v. split; [exact SA|]. split; [exists v, q0; split; [exact D1|split; [apply within_refl|exact D2]]|exact D3].
  Qed.
  Lemma announced5 c post p pre b k w : brun c (post ++ p :: pre) b -> (forall q, In q (post ++ p :: pre) -> proper q) -> wills_fine (post ++ p :: pre) ->
    In (OPkt5 k (KPub w)) (w_out p) -> exists t other v0 q0, origin c (p :: pre) (Msg t (w5_payload w) other v0 q0) /\ within (pp_expiry (w5_props w)) v0.
  Proof.
    intros R PR WN I. apply in_split in I. destruct I as (o1 & o2 & E). destruct (sent5 _ _ _ _ _ _ _ _ _ R PR WN E) as (amax & a & t & _ & _ & _ & (v0 & q0 & D & W & _) & _). eauto 6.
  Qed.
End Origin.

Lemma wills_one h : Forall (fun p => Forall (fun w => valid_topic_name (will_topic w) /\ will_topic w <> EmptyString) (connect_will (b_conns (w_b p)) p)) h -> wills_fine h.
Proof.
  intros F k w I. apply in_flat_map in I as (p & I & C). rewrite Forall_forall in F. specialize (F p I). rewrite Forall_forall in F. apply F.
  unfold connect_will in *. rewrite N.eqb_refl. destruct (_ =? k); [exact C|destruct C].
Qed.
