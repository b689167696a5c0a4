(** Proofs for C55: bytes that are no packet, in the event loop. *)
From Coq Require Import List Bool String Ascii NArith Lia.
From Verif Require Import Base BaseLemmas TopicModel MsgModel PendingModel OutModel RouteModel RetainModel GlobModel Sess5Model Sess3Model
  ConnModel OnlineModel OnlineSpec OnlineProofs HookModel HookFacts OnlineWake FlowSpec FlowProofs.
Import ListNotations.
Local Open Scope N_scope.

Section Bad.
  Variables (hk : hooks) (hash : wpub5 -> N) (pick : string -> string -> N) (encode : pkt5 -> option (list N)).
  Let i := online5 hk hash pick encode.

  Lemma quiet_un (t : list (ev pkt5 nmsg req5)) : untaken t -> queued t = [] -> takes t = 0 /\ queued t = [].
  Proof.
    intros N Q. split; [|exact Q]. unfold takes. replace (filter _ t) with (@nil (ev pkt5 nmsg req5)); [reflexivity|].
    clear Q. induction t as [|x t IH]; [reflexivity|]. cbn [filter]. destruct x; try (apply IH; intros X; apply N; now right). exfalso. apply N. now left.
  Qed.
  Lemma quiet_still (t : list (ev pkt5 nmsg req5)) : quiet t -> untaken t /\ queued t = [].
  Proof. intros K. split; [|now apply quiet_queued]. intros X. unfold quiet in K. rewrite Forall_forall in K. apply (K _ X). Qed.
  Lemma control_noq now cs : forall l g, let '(_, _, t, _) := control_phase i now cs l g in queued t = [].
  Proof.
    induction cs as [|[c|] cs IH]; intros l g; cbn [control_phase]; [reflexivity| |reflexivity].
    destruct (i_control i now c (l_s l) g) as (((s', g'), stop), taken). destruct taken; [rewrite queued_app, asked_noq; reflexivity|].
    destruct stop; [apply asked_noq|]. cbn [next]. specialize (IH (set_s s' l) g').
    destruct (control_phase i now cs (set_s s' l) g') as (((l2, g2), t2), r2). rewrite queued_app, asked_noq. exact IH.
  Qed.
  Lemma asked_same (s s' : sess5) : i_bc i s' = i_bc i s -> NoDup (keys (i_bc i s)) -> asked i s s' = [].
  Proof.
    intros E ND. unfold asked. rewrite E. assert (H : forall x, List.In x (i_bc i s) -> queue_of (i_bc i s) (fst x) = snd x).
    { intros (d, ms) X. unfold queue_of. now rewrite (in_aget _ _ _ ND X). }
    set (b := i_bc i s) in H at 1 |- * at 2. clearbody b. induction b as [|x b IH]; [reflexivity|]. cbn [flat_map].
    rewrite (H x (or_introl eq_refl)), skipn_all, IH; [reflexivity|]. intros y Y. apply H. now right.
  Qed.

  Lemma bad_poll e l g l' g' t r why rs : NoDup (keys (s_bcast (l_s l))) ->
    l_hook l = None -> l_take l = None -> i_disc i (l_s l) = None -> too_much (l_wp l) = false -> s_bcnt (l_s l) < 10 ->
    e_read e = RdErr (DMalformed why) :: rs -> poll i e l g = (l', g', t, r) ->
    exists reason u, t = Took :: Queued (KDisconnect RC_malformed reason) :: u /\ takes u = 0 /\ queued u = [] /\
      (reason = Some why \/ reason = None).
  Proof.
    intros ND HK TK DC TM CT RD E. apply poll_cases in E.
    assert (A : forall l1 g1 t1 r1, prod i e l g = (l1, g1, t1, r1) -> exists reason u,
      t1 = Took :: Queued (KDisconnect RC_malformed reason) :: u /\ untaken u /\ queued u = [] /\ (reason = Some why \/ reason = None)).
    { intros l1 g1 t1 r1. unfold prod, hook_phase. rewrite HK. cbn [next]. unfold take_phase at 1. rewrite TK. cbn [next].
      rewrite RD. cbn [read_phase]. rewrite DC, TM. cbn [orb].
      change (i_max i (l_s l)) with 10. change (i_cnt i (l_s l)) with (s_bcnt (l_s l)).
      replace (10 <=? s_bcnt (l_s l)) with false by (symmetry; apply N.leb_gt; exact CT).
      cbn [i_decode_error i online5 decode_error5]. cbn [l_s set_ru].
      destruct (error_disconnect RC_malformed why (l_s l)) as (s', k) eqn:ED. unfold error_disconnect in ED.
      set (reason := if s_problem (l_s l) && (disconnect_len why <=? s_maxpkt (l_s l)) then Some why else None) in ED.
      assert (RS : reason = Some why \/ reason = None) by (unfold reason; destruct (_ && _); auto). clearbody reason. injection ED as <- <-.
      set (s' := with_disc (s_cdisc (l_s l)) true (l_s l)). fold i.
      assert (D' : i_disc i s' <> None).
      { change (i_disc i s') with (disc5 s'). unfold disc5, s'. cbn. destruct (s_cdisc (l_s l)); cbn; discriminate. }
      rewrite asked_same by (first [reflexivity|exact ND]). cbn [app next].
      set (l2 := push [KDisconnect RC_malformed reason] (set_s s' (set_ru false l))).
      assert (R2 : read_phase i (e_now e) rs l2 g = (l2, g, [], None)).
      { change (l_s l2) with s' in *. destruct rs; cbn [read_phase]; change (l_s l2) with s'; destruct (i_disc i s'); congruence. }
      rewrite R2. cbn [took app next map].
      pose proof (control_noq (e_now e) (e_ctl e) l2 g) as CQ. pose proof (control_s0 i (e_now e) (e_ctl e) l2 g) as CU.
      pose proof (control_keeps i (online5_sticky hash pick hk encode) (e_now e) (e_ctl e) l2 g) as CK.
      destruct (control_phase i (e_now e) (e_ctl e) l2 g) as (((l3, g3), t3), [r3|]); cbn [next].
      - intros X. injection X as <- <- <- <-. exists reason, t3. auto.
      - destruct CK as (CK & _). change (l_s l2) with s' in CK. specialize (CK D').
        assert (N3 : normal_phase i (e_now e) (e_norm e) l3 g3 = (l3, g3, [], None)) by (destruct (e_norm e); cbn [normal_phase]; destruct (i_disc i (l_s l3)); congruence).
        rewrite N3. intros X. injection X as <- <- <- <-. exists reason, (t3 ++ [])%list. rewrite app_nil_r. auto. }
    assert (Q : forall l1 g1 t1 u, prod i e l g = (l1, g1, t1, None) -> t = (t1 ++ u)%list -> untaken u -> queued u = [] ->
      exists reason u0, t = Took :: Queued (KDisconnect RC_malformed reason) :: u0 /\ takes u0 = 0 /\ queued u0 = [] /\ (reason = Some why \/ reason = None)).
    { intros l1 g1 t1 u E1 -> N Q. destruct (A _ _ _ _ E1) as (reason & u0 & -> & U0 & Q0 & RS). exists reason, (u0 ++ u)%list.
      split; [reflexivity|]. destruct (quiet_un (u0 ++ u)) as (T1 & T2); [now apply un_app|now rewrite queued_app, Q0, Q|auto]. }
    assert (X2 : forall l1 g1 l2 g2 t2 r2, write_phase i e l1 g1 = (l2, g2, t2, r2) -> untaken t2 /\ queued t2 = []).
    { intros l1 g1 l2 g2 t2 r2 E2. unfold write_phase in E2. pose proof (write_loop_quiet i false (e_write e) (l_wp l1)) as K.
      destruct (write_loop i false (e_write e) (l_wp l1)) as ((q, t0), w). pose proof (quiet_still t0 K) as (K1 & K2).
      assert (K3 : untaken (t0 ++ [Waits WFlush]) /\ queued (t0 ++ [Waits WFlush]) = []).
      { rewrite queued_app, K2. split; [apply un_app; [exact K1|intros [Z|[]]; discriminate]|reflexivity]. }
      destruct w; try (destruct (wrote t0)); try (destruct (e_flush e) as [[]|]); injection E2 as <- <- <- <-; auto. }
    assert (X3 : forall l2 g2 l3 g3 t3 r3 sent, broadcast_phase i e l2 g2 = ((l3, g3, t3, r3), sent) -> untaken t3 /\ queued t3 = []).
    { intros l2 g2 l3 g3 t3 r3 sent E3. split; [eapply noisy_un; eauto|]. apply (broadcast_noisy i _ _ _ _ _ _ _ _ E3). }
    assert (X4 : forall l3 g3 l4 g4 t4 r4, drain_phase i e l3 g3 = (l4, g4, t4, r4) -> untaken t4 /\ queued t4 = []).
    { intros l3 g3 l4 g4 t4 r4 E4. unfold drain_phase in E4.
      set (l0 := match l_drain l3 with None => set_drain (i_disc i (l_s l3)) l3 | Some _ => l3 end) in *. clearbody l0.
      destruct (l_drain l0) as [who|]; [|injection E4 as <- <- <- <-; split; [intros []|reflexivity]].
      pose proof (write_loop_quiet i true (e_write2 e) (l_wp l0)) as K.
      destruct (write_loop i true (e_write2 e) (l_wp l0)) as ((q, t0), w). pose proof (quiet_still t0 K) as (K1 & K2).
      assert (K3 : forall u, untaken u -> queued u = [] -> untaken (t0 ++ u) /\ queued (t0 ++ u) = []).
      { intros u U1 U2. rewrite queued_app, K2. split; [now apply un_app|exact U2]. }
      destruct w; try (destruct (e_flush2 e) as [[]|]); try (destruct (e_shut e) as [[]|]); try (destruct who);
        try (destruct (e_slept e)); try (destruct (e_drain e) as [[]|]); injection E4 as <- <- <- <-;
        first [exact (conj K1 K2)|apply K3; [cbn; intros Z; repeat destruct Z as [Z|Z]; try discriminate; destruct Z|reflexivity]]. }
    destruct E as [l1 g1 t1 r E1|l1 g1 t1 l2 g2 t2 r E1 E2|l1 g1 t1 l2 g2 t2 l3 g3 t3 r sent E1 E2 E3
      |l1 g1 t1 l2 g2 t2 l3 g3 t3 sent l4 g4 t4 r E1 E2 E3 E4|l1 g1 t1 l2 g2 t2 l3 g3 t3 sent l4 g4 t4 w E1 E2 E3 E4 Ew].
    - destruct (A _ _ _ _ E1) as (reason & u & -> & U & Q0 & RS). exists reason, u. split; [reflexivity|].
      destruct (quiet_un u U Q0). auto.
    - destruct (X2 _ _ _ _ _ _ E2). eapply Q; eauto.
    - destruct (X2 _ _ _ _ _ _ E2), (X3 _ _ _ _ _ _ _ E3). eapply Q; [exact E1|reflexivity|now apply un_app|]. rewrite queued_app. now rewrite H0, H2.
    - destruct (X2 _ _ _ _ _ _ E2), (X3 _ _ _ _ _ _ _ E3), (X4 _ _ _ _ _ _ E4).
      eapply Q; [exact E1|reflexivity|repeat apply un_app; assumption|]. rewrite !queued_app. now rewrite H0, H2, H4.
    - destruct (X2 _ _ _ _ _ _ E2), (X3 _ _ _ _ _ _ _ E3), (X4 _ _ _ _ _ _ E4).
      assert (UW : untaken w /\ queued w = []) by (rewrite Ew; destruct (_ || _); split; try reflexivity; [intros [Z|[]]; discriminate|intros []]).
      destruct UW. eapply Q; [exact E1|reflexivity|repeat apply un_app; assumption|]. rewrite !queued_app. now rewrite H0, H2, H4, H6.
  Qed.
End Bad.
