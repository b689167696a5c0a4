(** SUBSCRIBE and UNSUBSCRIBE: the facts behind C24, C25, C50. *)
From Coq Require Import List Bool String Ascii NArith Lia.
From Verif Require Import Base BaseLemmas TopicModel TopicSpec MsgModel RouteModel RouteSpec RouteInv RetainModel RetainSpec
  RetainProofs PendingModel AliasModel OutModel OutSpec GlobModel Sess5Model Sess3Model ConnModel DelivSpec DelivProofs DelivFacts InSpec
  InProofs InRun InRun3 InFacts RecvSpec RecvProofs.
Import ListNotations.
Local Open Scope N_scope.

Lemma has_wildcard_iff f : has_wildcard f = true <-> exists a b, f = (a ++ "+" ++ b)%string \/ f = (a ++ "#" ++ b)%string.
Proof.
  unfold has_wildcard. induction f as [|c f IH].
  - split; [discriminate|]. intros (a & b & [E|E]); destruct a; discriminate.
  - rewrite !orb_true_iff, IH. split.
    + intros [[E|E]|(a & b & H)].
      * apply Ascii.eqb_eq in E. subst c. exists EmptyString, f. now left.
      * apply Ascii.eqb_eq in E. subst c. exists EmptyString, f. now right.
      * exists (String c a), b. cbn. destruct H as [->| ->]; auto.
    + intros (a & b & H). destruct a as [|c' a]; cbn in H.
      * destruct H as [H|H]; injection H as -> ->; auto.
      * right. exists a, b. destruct H as [H|H]; injection H as -> ->; auto.
Qed.

Lemma is_shared_iff f : is_shared f = true <-> ~ plain f.
Proof. unfold is_shared, plain. destruct (shared_info f); split; intros H; congruence. Qed.

(** The verdict on one filter. *)
Lemma sub_code_spec cfg id q f : (cf_subid cfg = false -> id = None) ->
  (unsupported cfg id f (sub_code cfg q f) /\ 0x80 <= sub_code cfg q f) \/
  ((forall c, ~ unsupported cfg id f c) /\ sub_code cfg q f = qos_num q).
Proof.
  intros Hid. unfold sub_code.
  destruct (negb (cf_shared cfg) && is_shared f) eqn:A.
  { apply andb_true_iff in A. destruct A as (A1 & A2). apply negb_true_iff in A1. apply is_shared_iff in A2.
    left. split; [now constructor|vm_compute; discriminate]. }
  destruct (negb (cf_wildcard cfg) && has_wildcard f) eqn:B.
  { apply andb_true_iff in B. destruct B as (A1 & A2). apply negb_true_iff in A1. apply has_wildcard_iff in A2.
    left. split; [now constructor|vm_compute; discriminate]. }
  right. split; [|reflexivity]. intros c U. destruct U as [i U1 U2|U1 U2|U1 U2].
  - rewrite (Hid U2) in U1. discriminate.
  - apply is_shared_iff in U1. rewrite U1, U2 in A. discriminate.
  - apply has_wildcard_iff in U1. rewrite U1, U2 in B. discriminate.
Qed.

Lemma qos_num_small q : qos_num q < 0x80. Proof. destruct q; reflexivity. Qed.

Lemma max_qos_ok cfg : cf_max_qos cfg <= 2 -> exists mq, max_allowed_qos cfg = Some mq /\ qos_num mq = cf_max_qos cfg.
Proof.
  intros H. unfold max_allowed_qos. destruct (cf_max_qos cfg) as [|[[p|p|]|[p|p|]|]] eqn:E; try (exfalso; lia); eauto.
Qed.

Lemma qos_min_num a b : qos_num (qos_min a b) = N.min (qos_num a) (qos_num b).
Proof. destruct a, b; reflexivity. Qed.

(** ** Retained messages *)

Definition size5 (q : qos) (m : rcontent) : N :=
  rp_size (RecvPub (rc_topic m) (rc_qos m) true (rc_payload m) (rc_props m) (Lookup "") q
             (match rc_props m with None => rc_len m + 1 | Some _ => rc_len m end)).

Lemma size5_eq q m : size5 q m = retained_size5 q m.
Proof.
  unfold size5, retained_size5, rp_size. cbn [rp_qos rp_sqos rp_len].
  destruct (rc_qos m), q; cbn [negb andb qos_eqb N.eqb qos_num qos_min]; try rewrite N.sub_0_r; reflexivity.
Qed.

Lemma send_retained_gives now f op id ms : forall s s' out pend,
  send_retained now f op ms s = (s', out, pend) ->
  aget f (s_subs s) = Some (SubData op id) -> up5 s ->
  gives5 now (retained_pub5 id (so_qos op) (so_rap op)) (retained_size5 (so_qos op)) (s_maxpkt s)
    (filter (fun m => negb (so_no_local op && String.eqb (rc_client m) (s_ident s))) ms) (s_out s) (s_out s') out /\
  s' = with_out (s_out s') s.
Proof.
  induction ms as [|m ms IH]; intros s s' out pend E A U; cbn [send_retained] in E.
  - injection E as <- <- <-. split; [constructor|now destruct s].
  - cbn [filter]. destruct (so_no_local op && String.eqb (rc_client m) (s_ident s)) eqn:NL; cbn [negb]; [now apply IH in E|].
    destruct (recv5_spec now (RecvPub (rc_topic m) (rc_qos m) (so_rap op) (rc_payload m) (rc_props m) (Lookup f) (so_qos op)
                 (match rc_props m with None => rc_len m + 1 | Some _ => rc_len m end)) s)
      as (s1 & res & R & C). rewrite R in E.
    destruct (send_retained now f op ms s1) as ((s2, o2), p2) eqn:S.
    destruct C as [(-> & -> & W)|(ids & k & S1 & S2 & S3 & -> & S4 & S5)].
    + apply IH in S; auto. destruct S as (S & F). injection E as <- <- <-. split; [|exact F].
      unfold rp_sublist in W. cbn [rp_ids rp_qos rp_sqos] in W. rewrite A in W.
      destruct W as [W|[W|(_ & W)]]; [discriminate| |contradiction].
      apply gv5_large; [|exact S]. now rewrite <- size5_eq.
    + unfold rp_sublist in S1. cbn [rp_ids] in S1. rewrite A in S1. injection S1 as <-.
      cbn [rp_qos rp_sqos rp_topic rp_retain rp_payload rp_props] in *. injection E as <- <- <-.
      assert (A1 : aget f (s_subs s1) = Some (SubData op id)) by (rewrite S5; exact A).
      assert (U1 : up5 s1) by (rewrite S5; exact U).
      destruct (IH s1 s2 o2 p2 S A1 U1) as (G & F).
      assert (I1 : s_ident s1 = s_ident s) by now rewrite S5. assert (M1 : s_maxpkt s1 = s_maxpkt s) by now rewrite S5.
      rewrite I1, M1 in G. split.
      * eapply gv5_take; [|exact S4|exact G]. rewrite <- size5_eq. exact S2.
      * rewrite F. now rewrite S5.
Qed.

Lemma up_is_up s : is_disconnected5 s = false <-> up5 s.
Proof. unfold is_disconnected5, up5. now rewrite orb_false_iff. Qed.

Lemma pendings_flush now s s' out : pendings5 now s = (s', out) ->
  flushed5 now (s_out s) (s_out s') out /\ s' = with_out (s_out s') s.
Proof.
  unfold pendings5. destruct (handle_pendings5 now (s_out s)) as (o, l) eqn:H. intros E. injection E as <- <-.
  cbn [s_out with_out]. split; [|reflexivity].
  replace o with (fst (handle_pendings5 now (s_out s))) at 1 by now rewrite H.
  replace l with (snd (handle_pendings5 now (s_out s))) by now rewrite H. constructor.
Qed.

(** One filter of a SUBSCRIBE. *)
Lemma subscribe_one_spec cfg hr now id f op s g s' g' code out mq : g_cfg g = cfg -> max_allowed_qos cfg = Some mq ->
  g_retain g = ret_run hr -> valid_filter f -> up5 s -> (cf_subid cfg = false -> id = None) ->
  subscribe_one now id f op s g = Done (s', g', code, out) ->
  (exists ms o2 k1 k2, due5 cfg id hr (s_ident s) (keys (s_subs s)) f op ms /\
     gives5 now (retained_pub5 id (qos_min (so_qos op) mq) (so_rap op)) (retained_size5 (qos_min (so_qos op) mq))
       (s_maxpkt s) ms (s_out s) o2 k1 /\ flushed5 now o2 (s_out s') k2 /\ out = (k1 ++ k2)%list) /\
  ((unsupported cfg id f code /\ 0x80 <= code /\ s' = s /\ g' = g) \/
   ((forall c, ~ unsupported cfg id f c) /\ code = qos_num (qos_min (so_qos op) mq) /\
    s_subs s' = aset f (SubData (SubOpts (qos_min (so_qos op) mq) (so_no_local op) (so_rap op) (so_rh op)) id) (s_subs s) /\
    snd (rt_subscribe (g_route g) f (s_id s) (qos_min (so_qos op) mq)) = false /\
    g' = set_route (fst (rt_subscribe (g_route g) f (s_id s) (qos_min (so_qos op) mq))) g)).
Proof.
  intros Hc Hm Hr Hf U Hid E. pose proof E as E0. unfold subscribe_one in E. rewrite Hc, Hm in E.
  set (q := qos_min (so_qos op) mq) in *.
  destruct (sub_code_spec cfg id q f Hid) as [(Hu & Hb)|(Hu & Hb)].
  - destruct (N.ltb_spec (sub_code cfg q f) 0x80); [lia|]. injection E as <- <- <- <-. split; [|left; auto].
    exists [], (s_out s), [], []. split; [|split; [constructor|split; [constructor|reflexivity]]].
    split; [constructor|]. intros m. split; [intros []|]. intros (X & _). exact (X _ Hu).
  - rewrite Hb in E. pose proof (qos_num_small q) as Hq. destruct (N.ltb_spec (qos_num q) 0x80); [|lia].
    destruct (rt_subscribe (g_route g) f (s_id s) q) as (t, p) eqn:R. destruct p; [discriminate|].
    set (sub := SubData (SubOpts q (so_no_local op) (so_rap op) (so_rh op)) id) in *.
    set (s1 := with_subs (aset f sub (s_subs s)) s) in *.
    assert (U1 : up5 s1) by exact U.
    assert (A1 : aget f (s_subs s1) = Some sub) by (cbn; apply aget_aset_eq).
    destruct (_ && _) eqn:SEND.
    + destruct (retained_lookup_lemma hr f Hf) as (ms & L & ND & HI). rewrite Hr, L in E.
      destruct (send_retained now f _ ms s1) as ((s2, o2), pend) eqn:SR.
      destruct (send_retained_gives now f _ id ms s1 s2 o2 pend SR A1 U1) as (G & F). cbn [so_qos so_rap so_no_local] in G.
      assert (Hdue : due5 cfg id hr (s_ident s) (keys (s_subs s)) f op
         (filter (fun m => negb (so_no_local op && String.eqb (rc_client m) (s_ident s))) ms)).
      { split.
        - clear - ND. induction ms as [|m ms IH]; cbn [filter map] in *; [constructor|].
          inversion ND as [|? ? X Y]; subst. destruct (negb _); cbn [map]; auto. constructor; auto.
          intros H. apply X. apply in_map_iff in H. destruct H as (z & <- & H). apply filter_In in H. now apply in_map.
        - intros m. rewrite filter_In, HI, negb_true_iff.
          apply andb_true_iff in SEND. destruct SEND as (SEND & RH). apply andb_true_iff in SEND. destruct SEND as (RA & SH).
          apply negb_true_iff in SH. cbn [so_rh] in RH. split.
          + intros ((H1 & H2) & H3). split; [exact Hu|]. split; [|split; [exact RA|split]].
            * unfold plain. unfold is_shared in SH. destruct (shared_info f); congruence.
            * destruct (so_rh op); auto; [|discriminate]. right. split; auto. intros X. apply in_keys_aget in X.
              destruct X as (v & X). rewrite X in RH. discriminate.
            * split; auto. split; auto. intros (X & Y). rewrite X, Y, String.eqb_refl in H3. discriminate.
          + intros (_ & _ & _ & _ & H1 & H2 & H3). split; auto.
            destruct (so_no_local op); [|reflexivity]. cbn [andb]. apply String.eqb_neq. intros X. now apply H3. }
      assert (F2 : s_subs s2 = s_subs s1) by now rewrite F.
      destruct pend.
      * destruct (pendings5 now s2) as (s3, o3) eqn:P. apply pendings_flush in P. destruct P as (P1 & P2).
        injection E as <- <- <- <-. split.
        -- exists (filter (fun m => negb (so_no_local op && String.eqb (rc_client m) (s_ident s))) ms), (s_out s2), o2, o3. auto.
        -- right. split; [exact Hu|]. split; [reflexivity|]. rewrite P2. cbn [s_subs with_out]. rewrite F2. auto.
      * injection E as <- <- <- <-. split.
        -- exists (filter (fun m => negb (so_no_local op && String.eqb (rc_client m) (s_ident s))) ms), (s_out s2), o2, [].
           split; auto. split; auto. split; [constructor|now rewrite app_nil_r].
        -- right. split; [exact Hu|]. split; [reflexivity|]. rewrite F2. auto.
    + injection E as <- <- <- <-. split.
      * exists [], (s_out s), [], []. split; [|split; [constructor|split; [constructor|reflexivity]]].
        split; [constructor|]. intros m. split; [intros []|]. intros (_ & HP & HR & HH & _).
        rewrite HR in SEND. cbn [andb] in SEND. unfold is_shared in SEND. rewrite HP in SEND. cbn [negb andb so_rh] in SEND.
        destruct HH as [HH|(HH & HN)]; rewrite HH in SEND; [discriminate|].
        destruct (aget f (s_subs s)) eqn:X; [|discriminate]. apply HN. apply in_keys_aget. eauto.
      * right. split; [exact Hu|]. split; [reflexivity|]. auto.
Qed.

(** ** SUBSCRIBE *)

Lemma due5_before cfg id hr who b b' f op ms :
  ((forall c, ~ unsupported cfg id f c) -> (In f b <-> In f b')) ->
  due5 cfg id hr who b f op ms -> due5 cfg id hr who b' f op ms.
Proof.
  intros H (N & D). split; [exact N|]. intros m. rewrite D. split; intros (A & R); (split; [exact A|]);
    specialize (H A); tauto.
Qed.

Lemma granted_cons {A} c f (o : A) r code codes :
  granted_ops c ((f, o) :: r) (code :: codes) =
  ((match code with 0 => [Sub f c L0] | 1 => [Sub f c L1] | 2 => [Sub f c L2] | _ => [] end) ++ granted_ops c r codes)%list.
Proof. reflexivity. Qed.

Lemma granted_qos c f q : (match qos_num q with 0 => [Sub f c L0] | 1 => [Sub f c L1] | 2 => [Sub f c L2] | _ => [] end) = [Sub f c q].
Proof. destruct q; reflexivity. Qed.
Lemma granted_none c f code : 0x80 <= code ->
  (match code with 0 => [Sub f c L0] | 1 => [Sub f c L1] | 2 => [Sub f c L2] | _ => [] end) = [].
Proof. intros H. destruct code as [|[[p|p|]|[p|p|]|]]; try reflexivity; exfalso; lia. Qed.

Lemma agree_sub h s s' f q sub : agree5 h s -> s_id s' = s_id s -> s_subs s' = aset f sub (s_subs s) ->
  so_qos (sd_opts sub) = q -> agree5 (h ++ [Sub f (s_id s) q]) s'.
Proof.
  intros A E1 E2 E3 f'. rewrite E1, E2, current_snoc, aget_aset. change (@eqb string _ f' f) with (String.eqb f' f).
  rewrite N.eqb_refl, andb_true_r, String.eqb_sym. destruct (String.eqb_spec f' f) as [->|]; [now cbn; subst|apply A].
Qed.

Lemma agree_unsub h s s' f : agree5 h s -> NoDup (keys (s_subs s)) -> s_id s' = s_id s -> s_subs s' = adel f (s_subs s) ->
  agree5 (h ++ [Unsub f (s_id s)]) s'.
Proof.
  intros A ND E1 E2 f'. rewrite E1, E2, current_snoc, aget_adel by exact ND. change (@eqb string _ f' f) with (String.eqb f' f).
  rewrite N.eqb_refl, andb_true_r, String.eqb_sym. destruct (String.eqb_spec f' f) as [->|]; [reflexivity|apply A].
Qed.

Lemma subscribe_all_spec cfg hr now id mq fs : max_allowed_qos cfg = Some mq -> (cf_subid cfg = false -> id = None) ->
  Forall (fun e => valid_filter (fst e)) fs -> forall h b s g s' g' codes out,
  g_cfg g = cfg -> g_retain g = ret_run hr -> g_route g = rt_run h -> up5 s ->
  (forall f, (forall c, ~ unsupported cfg id f c) -> (In f b <-> In f (keys (s_subs s)))) ->
  subscribe_all now id fs s g = Done (s', g', codes, out) ->
  serves5 cfg id hr (s_ident s) (s_maxpkt s) now mq b fs (s_out s) (s_out s') out /\
  Forall2 (answer5 cfg id) fs codes /\ g_route g' = rt_run (h ++ granted_ops (s_id s) fs codes) /\
  g' = set_route (g_route g') g /\
  (agree5 h s -> agree5 (h ++ granted_ops (s_id s) fs codes) s') /\
  (NoDup (keys (s_subs s)) -> NoDup (keys (s_subs s'))).
Proof.
  intros Hm Hid HF. induction HF as [|(f, op) fs Hv _ IH]; intros h b s g s' g' codes out Hc Hr Hh U HB E; cbn [subscribe_all] in E.
  - injection E as <- <- <- <-. refine (conj (sv5_nil _ _ _ _ _ _ _ _ _) (conj (Forall2_nil _) (conj _ (conj _ (conj _ _))))); auto.
    + cbn. now rewrite app_nil_r.
    + now destruct g.
    + cbn. now rewrite app_nil_r.
  - destruct (subscribe_one now id f op s g) as [(((s1, g1), code), o1)|] eqn:S1; [|discriminate].
    destruct (subscribe_all now id fs s1 g1) as [(((s2, g2), cs), o2)|] eqn:S2; [|discriminate].
    injection E as <- <- <- <-.
    pose proof (subscribe_one_frame _ _ _ _ _ _ _ _ _ _ S1) as (FR & _).
    pose proof (outsubs_same _ _ FR) as (_ & _ & I1 & I2 & _ & _ & D1 & D2 & M1 & _).
    assert (U1 : up5 s1) by (unfold up5 in *; now rewrite D1, D2).
    destruct (subscribe_one_spec cfg hr now id f op s g s1 g1 code o1 mq Hc Hm Hr Hv U Hid S1)
      as ((ms & oo & k1 & k2 & Hd & Hg & Hfl & ->) & CC).
    cbn [fst] in Hv.
    assert (BB : forall f', (forall c, ~ unsupported cfg id f' c) -> (In f' (f :: b) <-> In f' (keys (s_subs s1)))).
    { intros f' Hn. cbn [In]. destruct CC as [(Hu & _ & -> & _)|(_ & _ & Es & _)].
      - rewrite <- (HB f' Hn). split; auto. intros [->|H]; auto. destruct (Hn _ Hu).
      - rewrite Es. rewrite in_keys_aset, <- (HB f' Hn). intuition congruence. }
    assert (CG : g_cfg g1 = cfg /\ g_retain g1 = ret_run hr /\
       g_route g1 = rt_run (h ++ (match code with 0 => [Sub f (s_id s) L0] | 1 => [Sub f (s_id s) L1] | 2 => [Sub f (s_id s) L2] | _ => [] end)) /\
       g1 = set_route (g_route g1) g /\ answer5 cfg id (f, op) code /\
       (agree5 h s -> agree5 (h ++ (match code with 0 => [Sub f (s_id s) L0] | 1 => [Sub f (s_id s) L1] | 2 => [Sub f (s_id s) L2] | _ => [] end)) s1) /\
       (NoDup (keys (s_subs s)) -> NoDup (keys (s_subs s1)))).
    { destruct CC as [(Hu & Hlt & -> & ->)|(Hu & -> & Es & Hp & ->)].
      - rewrite (granted_none _ _ _ Hlt), app_nil_r. refine (conj Hc (conj Hr (conj Hh (conj _ (conj (or_introl Hu) (conj _ _)))))); auto. now destruct g.
      - rewrite granted_qos, rt_run_snoc. refine (conj Hc (conj Hr (conj _ (conj eq_refl (conj _ (conj _ _)))))).
        + cbn [set_route g_route rt_step]. now rewrite Hh.
        + right. split; [exact Hu|]. eexists. split; [reflexivity|]. cbn [snd]. rewrite qos_min_num.
          destruct (max_qos_ok cfg) as (mq' & X & Y).
          { unfold max_allowed_qos in Hm. destruct (cf_max_qos cfg) as [|[[p|p|]|[p|p|]|]]; try discriminate; lia. }
          rewrite X in Hm. injection Hm as <-. now rewrite Y.
        + intros A. eapply agree_sub; eauto.
        + intros N. rewrite Es. now apply NoDup_aset. }
    destruct CG as (Hc1 & Hr1 & Hh1 & Hg1 & Ha & Hag & Hnd).
    destruct (IH _ (f :: b) s1 g1 s2 g2 cs o2 Hc1 Hr1 Hh1 U1 BB S2) as (A1 & A2 & A3 & A4 & A5 & A6).
    rewrite I1 in A3, A5. rewrite I2, M1 in A1. rewrite granted_cons, app_assoc.
    refine (conj _ (conj _ (conj A3 (conj _ (conj _ _))))).
    + rewrite <- app_assoc. eapply sv5_cons; [|exact Hg|exact Hfl|exact A1].
      eapply due5_before; [|exact Hd]. intros Hn. symmetry. now apply HB.
    + constructor; assumption.
    + rewrite A4, Hg1. reflexivity.
    + auto.
    + auto.
Qed.

Lemma handle_subscribe5_spec cfg hr h now p id fs s g s' g' out : cf_max_qos cfg <= 2 ->
  g_cfg g = cfg -> g_retain g = ret_run hr -> g_route g = rt_run h -> up5 s ->
  Forall (fun e => valid_filter (fst e)) fs ->
  handle_subscribe5 now p id fs s g = Done (s', g', out) ->
  (id = Some 0 /\ refused5 RC_protocol_error s s' g g' out /\ s_subs s' = s_subs s) \/
  (id <> Some 0 /\ exists mq k codes, max_allowed_qos cfg = Some mq /\ out = (k ++ [KSuback p codes])%list /\ outsubs s s' /\
    serves5 cfg id hr (s_ident s) (s_maxpkt s) now mq (keys (s_subs s)) fs (s_out s) (s_out s') k /\
    Forall2 (answer5 cfg id) fs codes /\ g_route g' = rt_run (h ++ granted_ops (s_id s) fs codes) /\
    g' = set_route (g_route g') g /\
    (agree5 h s -> agree5 (h ++ granted_ops (s_id s) fs codes) s') /\
    (NoDup (keys (s_subs s)) -> NoDup (keys (s_subs s'))) /\ Forall own_kind k).
Proof.
  intros Hm Hc Hr Hh U HF E. unfold handle_subscribe5 in E. destruct (max_qos_ok cfg Hm) as (mq & Hmq & _).
  assert (D : id = Some 0 \/ id <> Some 0) by (destruct id as [[|i]|]; auto; right; discriminate).
  destruct D as [->|D].
  { left. cbn in E. injection E as <- <- <-. split; [reflexivity|]. split; [|reflexivity].
    refine (conj (ex_intro _ _ eq_refl) (conj eq_refl _)). repeat split. }
  right. split; [exact D|].
  assert (E' : (if negb (cf_subid (g_cfg g)) && match id with Some _ => true | None => false end
        then Done (s, g, [KSuback p (map (fun _ => RC_subid_not_supported) fs)])
        else
          match subscribe_all now id fs s g with
          | Panic => Panic
          | Done (s', g', codes, out) => Done (s', g', (out ++ [KSuback p codes])%list)
          end) = Done (s', g', out)).
  { destruct id as [[|i]|]; try exact E. now destruct D. }
  clear E. exists mq. rewrite Hc in E'. destruct (negb (cf_subid cfg) && _) eqn:N.
  - apply andb_true_iff in N. destruct N as (N1 & N2). apply negb_true_iff in N1. destruct id as [i|]; [|discriminate].
    injection E' as <- <- <-. exists [], (map (fun _ => RC_subid_not_supported) fs).
    assert (G0 : granted_ops (s_id s) fs (map (fun _ => RC_subid_not_supported) fs) = []).
    { clear. induction fs as [|(f, o) fs IH]; [reflexivity|]. cbn [map]. rewrite granted_cons, IH. reflexivity. }
    rewrite G0, app_nil_r. split; [exact Hmq|]. split; [reflexivity|]. split; [apply outsubs_refl|].
    refine (conj _ (conj _ (conj Hh (conj _ (conj _ (conj _ _)))))); auto.
    + clear - N1. generalize (keys (s_subs s)) as b. induction fs as [|(f, op) fs IH]; intros b; [constructor|].
      change (@nil pkt5) with ([] ++ [] ++ @nil pkt5)%list. eapply (sv5_cons _ _ _ _ _ _ _ _ _ _ _ []); [|constructor|constructor|apply IH].
      split; [constructor|]. intros m. split; [intros []|]. intros (X & _). apply (X RC_subid_not_supported). now apply (us_subid _ _ _ i).
    + clear - N1. induction fs as [|fo fs IH]; [constructor|]. cbn [map]. constructor; [|exact IH]. left. now apply (us_subid _ _ _ i).
    + now destruct g.
  - destruct (subscribe_all now id fs s g) as [(((s1, g1), codes), k)|] eqn:S; [|discriminate]. injection E' as <- <- <-.
    assert (Hid : cf_subid cfg = false -> id = None).
    { intros X. rewrite X in N. cbn in N. destruct id; [discriminate|reflexivity]. }
    destruct (subscribe_all_spec cfg hr now id mq fs Hmq Hid HF h (keys (s_subs s)) s g s1 g1 codes k Hc Hr Hh U
                (fun _ _ => iff_refl _) S) as (A1 & A2 & A3 & A4 & A5 & A6).
    apply subscribe_all_frame in S. destruct S as (S1 & S2).
    exists k, codes. split; [exact Hmq|]. split; [reflexivity|]. split; [exact S1|]. auto 10.
Qed.

Lemma unsubscribe_all_spec fs : forall before subs0 h s g s' g' codes, g_route g = rt_run h ->
  NoDup (keys (s_subs s)) ->
  (forall f, In f (keys (s_subs s)) <-> In f subs0 /\ ~ In f before) ->
  unsubscribe_all fs s g = Done (s', g', codes) ->
  unsub_codes subs0 before fs codes /\
  g_route g' = rt_run (h ++ map (fun f => Unsub f (s_id s)) fs) /\ g' = set_route (g_route g') g /\
  (agree5 h s -> agree5 (h ++ map (fun f => Unsub f (s_id s)) fs) s') /\
  NoDup (keys (s_subs s')) /\ s_out s' = s_out s /\
  (forall f, aget f (s_subs s') = if existsb (String.eqb f) fs then None else aget f (s_subs s)).
Proof.
  induction fs as [|f fs IH]; intros before subs0 h s g s' g' codes Hh ND HB E; cbn [unsubscribe_all] in E.
  - injection E as <- <- <-. cbn [map]. rewrite app_nil_r. repeat split; auto; [constructor|now destruct g].
  - destruct (rt_unsubscribe (g_route g) f (s_id s)) as (t, p) eqn:R. destruct p; [discriminate|].
    destruct (unsubscribe_all fs _ _) as [((s2, g2), cs)|] eqn:A; [|discriminate]. injection E as <- <- <-.
    assert (Hh1 : g_route (set_route t g) = rt_run (h ++ [Unsub f (s_id s)])).
    { rewrite rt_run_snoc. cbn [rt_step set_route g_route]. rewrite Hh in R. now rewrite R. }
    set (s1 := with_subs (adel f (s_subs s)) s) in *.
    assert (ND1 : NoDup (keys (s_subs s1))) by now apply NoDup_adel.
    assert (HB1 : forall f', In f' (keys (s_subs s1)) <-> In f' subs0 /\ ~ In f' (f :: before)).
    { intros f'. cbn [s_subs s1 with_subs]. change (s_subs s1) with (adel f (s_subs s)). rewrite in_keys_adel by exact ND.
      rewrite HB. cbn [In]. intuition congruence. }
    destruct (IH (f :: before) subs0 _ s1 (set_route t g) s2 g2 cs Hh1 ND1 HB1 A) as (A1 & A2 & A3 & A4 & A5 & A6 & A7).
    cbn [map]. replace (h ++ Unsub f (s_id s) :: map (fun f => Unsub f (s_id s)) fs)%list
      with ((h ++ [Unsub f (s_id s)]) ++ map (fun f => Unsub f (s_id s)) fs)%list by (rewrite <- app_assoc; reflexivity).
    refine (conj _ (conj A2 (conj _ (conj _ (conj A5 (conj A6 _)))))).
    + destruct (aget f (s_subs s)) eqn:X.
      * assert (Hin : In f (keys (s_subs s))) by (apply in_keys_aget; eauto). apply HB in Hin. now constructor.
      * assert (Hin : ~ In f (keys (s_subs s))) by (intros Y; apply in_keys_aget in Y; destruct Y; congruence).
        apply uc_no; [|exact A1]. rewrite HB in Hin. destruct (in_dec string_dec f subs0); [|auto].
        destruct (in_dec string_dec f before); [auto|]. exfalso. auto.
    + rewrite A3. reflexivity.
    + intros Ag. apply A4. now apply agree_unsub.
    + intros f'. rewrite A7. cbn [existsb]. change (s_subs s1) with (adel f (s_subs s)). rewrite aget_adel by exact ND.
      change (@eqb string _ f' f) with (String.eqb f' f). destruct (String.eqb f' f); cbn [orb]; [now destruct (existsb _ fs)|reflexivity].
Qed.

(** ** MQTT 3 *)

Lemma send_retained3_gives now f q ms : forall s s' out pend,
  send_retained3 now f q ms s = (s', out, pend) -> aget f (z_subs s) <> None -> z_disc s = false ->
  gives3 now retained_pub3 (filter (fun m => qos_leb (rc_qos m) q) ms) (z_out s) (z_out s') out /\
  s' = zwith_out (z_out s') s.
Proof.
  induction ms as [|m ms IH]; intros s s' out pend E A U; cbn [send_retained3] in E.
  - injection E as <- <- <-. split; [constructor|now destruct s].
  - cbn [filter]. destruct (qos_leb (rc_qos m) q) eqn:QL; [|now apply IH in E].
    assert (QM : qos_min (rc_qos m) q = rc_qos m) by (destruct (rc_qos m), q; try reflexivity; discriminate).
    destruct (recv3_spec now (RecvPub3 (rc_topic m) (rc_qos m) true (rc_payload m) f q) s)
      as (s1 & res & R & C). rewrite R in E.
    destruct (send_retained3 now f q ms s1) as ((s2, o2), p2) eqn:S. cbn [rp3_filter rp3_qos rp3_sqos rp3_topic rp3_retain rp3_payload] in C.
    destruct C as [(-> & -> & W)|(k & S1 & S3 & -> & S4 & S5)].
    + destruct W as [W|(_ & W)]; [contradiction|congruence].
    + injection E as <- <- <-. rewrite QM in S4.
      assert (A1 : aget f (z_subs s1) <> None) by (rewrite S5; exact A).
      assert (U1 : z_disc s1 = false) by (rewrite S5; exact U).
      destruct (IH s1 s2 o2 p2 S A1 U1) as (G & F). split.
      * eapply gv3_take; [exact S4|exact G].
      * rewrite F. now rewrite S5.
Qed.

Lemma pendings3_flush now s s' out : pendings3 now s = (s', out) ->
  flushed3 now (z_out s) (z_out s') out /\ s' = zwith_out (z_out s') s.
Proof.
  unfold pendings3. destruct (handle_pendings3 now (z_out s)) as (o, l) eqn:H. intros E. injection E as <- <-.
  cbn [z_out zwith_out]. split; [|reflexivity].
  replace o with (fst (handle_pendings3 now (z_out s))) at 1 by now rewrite H.
  replace l with (snd (handle_pendings3 now (z_out s))) by now rewrite H. constructor.
Qed.

Lemma agree3_sub h s s' f q : agree3 h s -> z_id s' = z_id s -> z_subs s' = aset f q (z_subs s) ->
  agree3 (h ++ [Sub f (z_id s) q]) s'.
Proof.
  intros A E1 E2 f'. rewrite E1, E2, current_snoc, aget_aset. change (@eqb string _ f' f) with (String.eqb f' f).
  rewrite N.eqb_refl, andb_true_r, String.eqb_sym. destruct (String.eqb_spec f' f) as [->|]; [reflexivity|apply A].
Qed.

Lemma subscribe_one3_spec cfg hr now f q0 s g s' g' code out mq : g_cfg g = cfg -> max_allowed_qos cfg = Some mq ->
  g_retain g = ret_run hr -> valid_filter f -> z_disc s = false ->
  subscribe_one3 now f q0 s g = Ok3 (s', g', code, out) ->
  plain f /\ code = qos_min q0 mq /\ z_subs s' = aset f code (z_subs s) /\
  g' = set_route (fst (rt_subscribe (g_route g) f (z_id s) code)) g /\
  exists ms o2 k1 k2, due3 hr code f ms /\ gives3 now retained_pub3 ms (z_out s) o2 k1 /\
    flushed3 now o2 (z_out s') k2 /\ out = (k1 ++ k2)%list.
Proof.
  intros Hc Hm Hr Hf U E. unfold subscribe_one3 in E. rewrite Hc, Hm in E.
  destruct (is_shared f) eqn:SH; [discriminate|].
  assert (P : plain f) by (unfold is_shared in SH; unfold plain; destruct (shared_info f); congruence).
  destruct (rt_subscribe (g_route g) f (z_id s) (qos_min q0 mq)) as (t, p) eqn:R. destruct p; [discriminate|].
  destruct (retained_lookup_lemma hr f Hf) as (ms & L & ND & HI). rewrite Hr, L in E.
  set (s1 := zwith_subs (aset f (qos_min q0 mq) (z_subs s)) s) in *.
  destruct (send_retained3 now f (qos_min q0 mq) ms s1) as ((s2, o2), pend) eqn:SR.
  assert (A1 : aget f (z_subs s1) <> None) by (cbn; rewrite aget_aset_eq; discriminate).
  destruct (send_retained3_gives now f _ ms s1 s2 o2 pend SR A1 U) as (G & F).
  assert (Hdue : due3 hr (qos_min q0 mq) f (filter (fun m => qos_leb (rc_qos m) (qos_min q0 mq)) ms)).
  { split.
    - clear - ND. induction ms as [|m ms IH]; cbn [filter map] in *; [constructor|].
      inversion ND as [|? ? X Y]; subst. destruct (qos_leb _ _); cbn [map]; auto. constructor; auto.
      intros H. apply X. apply in_map_iff in H. destruct H as (z & <- & H). apply filter_In in H. now apply in_map.
    - intros m. rewrite filter_In, HI. tauto. }
  assert (F2 : z_subs s2 = z_subs s1) by now rewrite F.
  split; [exact P|]. destruct pend.
  - destruct (pendings3 now s2) as (s3, o3) eqn:Q. apply pendings3_flush in Q. destruct Q as (Q1 & Q2).
    injection E as <- <- <- <-. split; [reflexivity|]. rewrite R. split; [rewrite Q2; cbn [z_subs zwith_out]; now rewrite F2|]. split; [reflexivity|].
    do 4 eexists. split; [exact Hdue|]. split; [exact G|]. split; [exact Q1|reflexivity].
  - injection E as <- <- <- <-. split; [reflexivity|]. rewrite R. split; [now rewrite F2|]. split; [reflexivity|].
    do 4 eexists. split; [exact Hdue|]. split; [exact G|]. split; [constructor|now rewrite app_nil_r].
Qed.

(** The filters processed before an error. *)
Lemma subscribe_all3_spec cfg hr now mq fs : max_allowed_qos cfg = Some mq ->
  Forall (fun e => valid_filter (fst e)) fs -> forall h s g s' g' res,
  g_cfg g = cfg -> g_retain g = ret_run hr -> g_route g = rt_run h -> z_disc s = false ->
  subscribe_all3 now fs s g = (s', g', res) ->
  exists done rest, fs = (done ++ rest)%list /\
    g_route g' = rt_run (h ++ map (fun e => Sub (fst e) (z_id s) (qos_min (snd e) mq)) done) /\
    g' = set_route (g_route g') g /\
    (agree3 h s -> agree3 (h ++ map (fun e => Sub (fst e) (z_id s) (qos_min (snd e) mq)) done) s') /\
    (NoDup (keys (z_subs s)) -> NoDup (keys (z_subs s'))) /\
    match res with
    | Ok3 (codes, out) => rest = [] /\ codes = map (fun e => qos_min (snd e) mq) fs /\
        serves3 hr now mq fs (z_out s) (z_out s') out /\ Forall (fun e => plain (fst e)) fs
    | Err3 => exists f q r, rest = (f, q) :: r /\ ~ plain f
    | Panic3 => exists f q r, rest = (f, q) :: r /\ plain f /\
                  snd (rt_step (g_route g') (Sub f (z_id s) (qos_min q mq))) = true
    end.
Proof.
  intros Hm HF. induction HF as [|(f, q) fs Hv _ IH]; intros h s g s' g' res Hc Hr Hh U E; cbn [subscribe_all3] in E.
  - injection E as <- <- <-. exists [], []. cbn [map app]. rewrite app_nil_r. repeat split; auto; [now destruct g|constructor].
  - destruct (subscribe_one3 now f q s g) as [(((s1, g1), code), o1)| |] eqn:S1.
    + pose proof (subscribe_one3_frame _ _ _ _ _ _ _ _ _ S1) as ((x & y & FR) & _).
      destruct (subscribe_one3_spec cfg hr now f q s g s1 g1 code o1 mq Hc Hm Hr Hv U S1)
        as (P & -> & Es & -> & ms & oo & k1 & k2 & Hd & Hg & Hfl & ->).
      destruct (subscribe_all3 now fs s1 _) as ((s2, g2), r2) eqn:S2.
      assert (I1 : z_id s1 = z_id s) by now rewrite FR. assert (U1 : z_disc s1 = false) by (rewrite FR; exact U).
      match type of S2 with subscribe_all3 _ _ _ ?gg = _ => set (g1 := gg) in * end.
      assert (Hh1 : g_route g1 = rt_run (h ++ [Sub f (z_id s) (qos_min q mq)])).
      { rewrite rt_run_snoc. unfold g1. cbn [rt_step set_route g_route]. now rewrite Hh. }
      destruct (IH (h ++ [Sub f (z_id s) (qos_min q mq)])%list s1 g1 s2 g2 r2 Hc Hr Hh1 U1 S2)
        as (done & rest & -> & A1 & A2 & A3 & A4 & A5).
      assert (E2 : s' = s2 /\ g' = g2) by (destruct r2 as [(?, ?)| |]; injection E as <- <- _; auto).
      destruct E2 as (-> & ->). rewrite I1 in A1, A3.
      exists ((f, q) :: done), rest. split; [reflexivity|]. cbn [map fst snd].
      replace (h ++ Sub f (z_id s) (qos_min q mq) :: map (fun e : string * qos => Sub (fst e) (z_id s) (qos_min (snd e) mq)) done)%list
        with ((h ++ [Sub f (z_id s) (qos_min q mq)]) ++ map (fun e : string * qos => Sub (fst e) (z_id s) (qos_min (snd e) mq)) done)%list
        by (rewrite <- app_assoc; reflexivity).
      split; [exact A1|]. split; [rewrite A2; reflexivity|].
      split; [intros Ag; apply A3; now apply agree3_sub|].
      split; [intros N; apply A4; rewrite Es; now apply NoDup_aset|].
      destruct r2 as [(codes, k3)| |]; injection E as <-.
      * destruct A5 as (-> & -> & A5 & A6). split; [reflexivity|]. rewrite app_nil_r in *. split; [reflexivity|].
        split; [rewrite <- app_assoc; eapply sv3_cons; eauto|]. constructor; auto.
      * exact A5.
      * rewrite <- I1. exact A5.
    + injection E as <- <- <-. exists [], ((f, q) :: fs). cbn [map app]. rewrite app_nil_r.
      repeat split; auto; [now destruct g|]. exists f, q, fs. split; [reflexivity|]. apply is_shared_iff.
      unfold subscribe_one3 in S1. rewrite Hc, Hm in S1. destruct (is_shared f); [reflexivity|]. exfalso.
      destruct (rt_subscribe _ _ _ _) as (t, p). destruct p; [discriminate|].
      destruct (ret_get_matches _ _); [|discriminate]. destruct (send_retained3 _ _ _ _ _) as ((?, ?), pe).
      destruct pe; [destruct (pendings3 _ _)|]; discriminate.
    + injection E as <- <- <-. exists [], ((f, q) :: fs). cbn [map app]. rewrite app_nil_r.
      repeat split; auto; [now destruct g|]. exists f, q, fs. split; [reflexivity|].
      unfold subscribe_one3 in S1. rewrite Hc, Hm in S1. destruct (is_shared f) eqn:SH; [discriminate|].
      split; [unfold is_shared in SH; unfold plain; destruct (shared_info f); congruence|].
      cbn [rt_step]. destruct (rt_subscribe _ _ _ _) as (t, p). destruct p; [reflexivity|].
      destruct (retained_lookup_lemma hr f Hv) as (ms & L & _). rewrite Hr, L in S1.
      destruct (send_retained3 _ _ _ _ _) as ((?, ?), pe). destruct pe; [destruct (pendings3 _ _)|]; discriminate.
Qed.

Lemma unsubscribe_all3_spec fs : forall h s g s' g', g_route g = rt_run h ->
  NoDup (keys (z_subs s)) -> unsubscribe_all3 fs s g = Done (s', g') ->
  g_route g' = rt_run (h ++ map (fun f => Unsub f (z_id s)) fs) /\ g' = set_route (g_route g') g /\
  (agree3 h s -> agree3 (h ++ map (fun f => Unsub f (z_id s)) fs) s') /\
  NoDup (keys (z_subs s')) /\ z_out s' = z_out s /\
  (forall f, aget f (z_subs s') = if existsb (String.eqb f) fs then None else aget f (z_subs s)).
Proof.
  induction fs as [|f fs IH]; intros h s g s' g' Hh ND E; cbn [unsubscribe_all3] in E.
  - injection E as <- <-. cbn [map]. rewrite app_nil_r. repeat split; auto. now destruct g.
  - destruct (rt_unsubscribe (g_route g) f (z_id s)) as (t, p) eqn:R. destruct p; [discriminate|].
    assert (Hh1 : g_route (set_route t g) = rt_run (h ++ [Unsub f (z_id s)])).
    { rewrite rt_run_snoc. cbn [rt_step set_route g_route]. rewrite Hh in R. now rewrite R. }
    set (s1 := zwith_subs (adel f (z_subs s)) s) in *.
    assert (ND1 : NoDup (keys (z_subs s1))) by now apply NoDup_adel.
    destruct (IH _ s1 (set_route t g) s' g' Hh1 ND1 E) as (A2 & A3 & A4 & A5 & A6 & A7).
    cbn [map]. replace (h ++ Unsub f (z_id s) :: map (fun f => Unsub f (z_id s)) fs)%list
      with ((h ++ [Unsub f (z_id s)]) ++ map (fun f => Unsub f (z_id s)) fs)%list by (rewrite <- app_assoc; reflexivity).
    refine (conj A2 (conj _ (conj _ (conj A5 (conj A6 _))))).
    + rewrite A3. reflexivity.
    + intros Ag. apply A4. intros f'. rewrite current_snoc. change (z_subs s1) with (adel f (z_subs s)).
      rewrite aget_adel by exact ND. change (@eqb string _ f' f) with (String.eqb f' f).
      change (z_id s1) with (z_id s). rewrite N.eqb_refl, andb_true_r, String.eqb_sym.
      destruct (String.eqb f' f); [reflexivity|apply Ag].
    + intros f'. rewrite A7. cbn [existsb]. change (z_subs s1) with (adel f (z_subs s)). rewrite aget_adel by exact ND.
      change (@eqb string _ f' f) with (String.eqb f' f). destruct (String.eqb f' f); cbn [orb]; [now destruct (existsb _ fs)|reflexivity].
Qed.

(** ** No panic *)

Lemma last_member_sub h f c q : ~ last_member_leaves h -> ~ last_member_leaves (h ++ [Sub f c q]).
Proof.
  intros H (h1 & f' & c' & h2 & l & E & A). destruct h2 as [|o h2] using rev_ind.
  - apply app_inj_tail in E. destruct E; discriminate.
  - rewrite app_comm_cons, app_assoc in E. apply app_inj_tail in E. destruct E as (-> & _). apply H.
    exists h1, f', c', h2, l. auto.
Qed.

Lemma safe_step h o : plain (op_filter o) \/ ~ last_member_leaves (h ++ [o]) -> snd (rt_step (rt_run h) o) = false.
Proof.
  intros [H|H]; [now apply route_plain_no_panic_lemma|].
  apply (proj2 (rexact_run _ H) h o []). reflexivity.
Qed.

Lemma subscribe_one_total hr now id f o h s g : g_retain g = ret_run hr -> g_route g = rt_run h ->
  cf_max_qos (g_cfg g) <= 2 -> valid_filter f -> plain f \/ ~ last_member_leaves h ->
  exists s' g' code out, subscribe_one now id f o s g = Done (s', g', code, out) /\ s_id s' = s_id s /\
    g_retain g' = ret_run hr /\ g_cfg g' = g_cfg g /\
    exists ops, g_route g' = rt_run (h ++ ops) /\ (~ last_member_leaves h -> ~ last_member_leaves (h ++ ops)).
Proof.
  intros Hr Hh Hm Hv Hp. unfold subscribe_one. destruct (max_qos_ok _ Hm) as (mq & -> & _).
  destruct (_ <? 0x80).
  2:{ do 4 eexists. split; [reflexivity|]. repeat (split; [auto|]). exists []. rewrite app_nil_r. auto. }
  assert (P : snd (rt_step (rt_run h) (Sub f (s_id s) (qos_min (so_qos o) mq))) = false).
  { apply safe_step. destruct Hp as [Hp|Hp]; [auto|right; now apply last_member_sub]. }
  destruct (rt_subscribe (g_route g) f (s_id s) (qos_min (so_qos o) mq)) as (t, p) eqn:R.
  assert (Et : t = rt_run (h ++ [Sub f (s_id s) (qos_min (so_qos o) mq)])).
  { rewrite rt_run_snoc. cbn [rt_step]. rewrite Hh in R. now rewrite R. }
  assert (Ep : p = false) by (cbn [rt_step] in P; rewrite Hh in R; rewrite R in P; exact P). subst p.
  assert (FIN : exists ops, t = rt_run (h ++ ops) /\ (~ last_member_leaves h -> ~ last_member_leaves (h ++ ops))).
  { exists [Sub f (s_id s) (qos_min (so_qos o) mq)]. split; [exact Et|apply last_member_sub]. }
  destruct (_ && _); [|do 4 eexists; split; [reflexivity|]; repeat (split; [auto|]); exact FIN].
  destruct (retained_lookup_lemma hr f Hv) as (ms & L & _). rewrite Hr, L.
  destruct (send_retained _ _ _ _ _) as ((s2, k), pe) eqn:S. apply retained_frame in S. destruct S as ((oo & ->) & _).
  destruct pe.
  - destruct (pendings5 now _) as (s3, k2) eqn:Q. apply pendings_frame in Q. destruct Q as (oo2 & ->).
    do 4 eexists. split; [reflexivity|]. repeat (split; [auto|]). exact FIN.
  - do 4 eexists. split; [reflexivity|]. repeat (split; [auto|]). exact FIN.
Qed.

Lemma subscribe_all_total hr now id fs : Forall (fun e => valid_filter (fst e)) fs -> forall h s g,
  g_retain g = ret_run hr -> g_route g = rt_run h -> cf_max_qos (g_cfg g) <= 2 ->
  Forall plain (map fst fs) \/ ~ last_member_leaves h -> subscribe_all now id fs s g <> Panic.
Proof.
  induction 1 as [|(f, o) fs Hv _ IH]; intros h s g Hr Hh Hm Hp; cbn [subscribe_all]; [discriminate|].
  assert (Hp1 : plain f \/ ~ last_member_leaves h) by (destruct Hp as [Hp|]; [inversion Hp|]; auto).
  destruct (subscribe_one_total hr now id f o h s g Hr Hh Hm Hv Hp1) as (s1 & g1 & code & k & -> & _ & Hr1 & Hc1 & ops & Hh1 & Hl).
  assert (Hp2 : Forall plain (map fst fs) \/ ~ last_member_leaves (h ++ ops)).
  { destruct Hp as [Hp|]; [inversion Hp; auto|auto]. }
  specialize (IH (h ++ ops)%list s1 g1 Hr1 Hh1). rewrite Hc1 in IH. specialize (IH Hm Hp2).
  destruct (subscribe_all now id fs s1 g1) as [(((?, ?), ?), ?)|]; [discriminate|congruence].
Qed.

Lemma last_member_app h1 h2 : ~ last_member_leaves (h1 ++ h2) -> ~ last_member_leaves h1.
Proof.
  intros H (a & f & c & b & l & -> & A). apply H. exists a, f, c, (b ++ h2)%list, l. split; [|exact A].
  now rewrite <- app_assoc.
Qed.

Lemma unsubscribe_all_total fs : forall h s g, g_route g = rt_run h ->
  Forall plain fs \/ ~ last_member_leaves (h ++ map (fun f => Unsub f (s_id s)) fs) -> unsubscribe_all fs s g <> Panic.
Proof.
  induction fs as [|f fs IH]; intros h s g Hh Hp; cbn [unsubscribe_all]; [discriminate|].
  assert (Hp2 : Forall plain fs \/ ~ last_member_leaves ((h ++ [Unsub f (s_id s)]) ++ map (fun f => Unsub f (s_id s)) fs)).
  { destruct Hp as [Hp|Hp]; [inversion Hp; auto|]. right. rewrite <- app_assoc. exact Hp. }
  assert (P : snd (rt_step (rt_run h) (Unsub f (s_id s))) = false).
  { apply safe_step. destruct Hp as [Hp|Hp]; [inversion Hp; auto|]. destruct Hp2 as [_|Hp2].
    - right. cbn [map] in Hp. apply (last_member_app _ (map (fun f => Unsub f (s_id s)) fs)). rewrite <- app_assoc. exact Hp.
    - right. now apply last_member_app in Hp2. }
  destruct (rt_unsubscribe (g_route g) f (s_id s)) as (t, p) eqn:R.
  cbn [rt_step] in P. rewrite Hh in R. rewrite R in P. cbn [snd] in P. subst p.
  specialize (IH (h ++ [Unsub f (s_id s)])%list (with_subs (adel f (s_subs s)) s) (set_route t g)).
  assert (E : g_route (set_route t g) = rt_run (h ++ [Unsub f (s_id s)])).
  { rewrite rt_run_snoc. cbn [rt_step set_route g_route]. now rewrite R. }
  specialize (IH E Hp2). destruct (unsubscribe_all fs _ _) as [((?, ?), ?)|]; [discriminate|congruence].
Qed.

Lemma unsubscribe_all3_total fs : forall h s g, g_route g = rt_run h ->
  Forall plain fs \/ ~ last_member_leaves (h ++ map (fun f => Unsub f (z_id s)) fs) -> unsubscribe_all3 fs s g <> Panic.
Proof.
  induction fs as [|f fs IH]; intros h s g Hh Hp; cbn [unsubscribe_all3]; [discriminate|].
  assert (Hp2 : Forall plain fs \/ ~ last_member_leaves ((h ++ [Unsub f (z_id s)]) ++ map (fun f => Unsub f (z_id s)) fs)).
  { destruct Hp as [Hp|Hp]; [inversion Hp; auto|]. right. rewrite <- app_assoc. exact Hp. }
  assert (P : snd (rt_step (rt_run h) (Unsub f (z_id s))) = false).
  { apply safe_step. destruct Hp as [Hp|Hp]; [inversion Hp; auto|]. destruct Hp2 as [_|Hp2].
    - right. cbn [map] in Hp. apply (last_member_app _ (map (fun f => Unsub f (z_id s)) fs)). rewrite <- app_assoc. exact Hp.
    - right. now apply last_member_app in Hp2. }
  destruct (rt_unsubscribe (g_route g) f (z_id s)) as (t, p) eqn:R.
  cbn [rt_step] in P. rewrite Hh in R. rewrite R in P. cbn [snd] in P. subst p.
  apply (IH (h ++ [Unsub f (z_id s)])%list); [|exact Hp2].
  rewrite rt_run_snoc. cbn [rt_step set_route g_route]. now rewrite R.
Qed.
