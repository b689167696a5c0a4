(** Runs in which nobody left a share group: proofs for LeaveProps. *)
From Coq Require Import List Bool Arith NArith String Lia.
From Verif Require Import Base BaseLemmas TopicModel TopicSpec MsgModel PendingModel OutModel RouteModel RouteSpec RouteInv RetainModel GlobModel Sess5Model Sess3Model ConnModel
  OutSpec DelivSpec InSpec LinkSpec CliSpec RecvSpec SubProofs SubFacts RegModel BrokerModel
  BrokerSpec FrameProofs CoreProofs BrokerInv TaskMove StepProofs RunProofs RegProofs GaugeProofs EvolProofs HistProofs LifeSpec TabProofs TabInv RouteRun LifeProofs PanicProofs
  AccSpec EndSpec GroupProofs GetSpec ShareSpec ShareProofs LeaveSpec LeaveProofs.
Import ListNotations.
Local Open Scope N_scope.
Local Open Scope list_scope.

Lemma current_back ops f d q : (forall q', ~ In (Sub f d q') ops) -> forall h, current (h ++ ops) f d = Some q -> current h f d = Some q.
Proof.
  induction ops as [|o ops IH] using rev_ind; intros N h; [rewrite app_nil_r; auto|]. rewrite app_assoc, current_snoc. intros E. apply IH; [intros q' I; apply (N q'); apply in_or_app; auto|].
  destruct o as [g c q0|g c]; destruct (String.eqb_spec g f) as [->|], (N.eqb_spec c d) as [->|]; cbn [andb] in E; auto; try discriminate.
  exfalso. apply (N q0). apply in_or_app. right. left. auto.
Qed.
Lemma tab_pure b e out b' ops : tabmove b e out b' ops -> (forall f d q, In (Sub f d q) ops -> plain f) \/ (forall f d, ~ In (Unsub f d) ops).
Proof.
  intros [k o' ops' H K|k o' i H NE HI K|k i c m R _ _ _ _]; try (left; intros ? ? ? []).
  inversion K; subst; try (left; intros ? ? ? []; fail).
  - match goal with F : Forall _ _ |- _ => rename F into H3 end. rewrite Forall_forall in H3. destruct (strict (b_cfg b) e) eqn:ST; [left|right].
    + intros f d q I. destruct (H3 _ I) as (_ & X). cbn in X. auto.
    + intros f d I. destruct (H3 _ I) as (_ & X). cbn in X. discriminate.
  - left. intros f d q I. apply in_map_iff in I. destruct I as (? & ? & _). discriminate.
  - left. intros f d q I. apply in_map_iff in I. destruct I as (? & ? & _). discriminate.
Qed.
Lemma split_app {A} (a b x : list A) o y : a ++ b = x ++ o :: y -> (exists y', a = x ++ o :: y') \/ exists x', x = a ++ x' /\ b = x' ++ o :: y.
Proof.
  revert x. induction a as [|z a IH]; intros x E; cbn in E; [right; exists x; auto|]. destruct x as [|z' x]; cbn in E; injection E as <- E; [left; exists a; auto|].
  destruct (IH _ E) as [(y' & ->)|(x' & -> & ->)]; [left; exists y'; auto|right; exists x'; auto].
Qed.

Lemma never_unsubs ops c fs : never ops -> (forall f, current ops f c = None) -> never (ops ++ map (fun f => Unsub f c) fs).
Proof.
  intros N Z h1 f d h2 E NP. apply split_app in E. destruct E as [(y & ->)|(x & -> & E)]; [eapply N; eauto|].
  assert (X : exists l1 l2, x = map (fun f => Unsub f c) l1 /\ Unsub f d :: h2 = map (fun f => Unsub f c) l2).
  { apply map_eq_app in E. destruct E as (l1 & l2 & _ & E1 & E2). exists l1, l2. auto. }
  destruct X as (l1 & l2 & -> & E2). destruct l2 as [|g l2]; [discriminate|]. injection E2 as _ -> _. rewrite current_unsubs, Z. destruct (_ && _); auto.
Qed.
Definition only_once (fs : list string) : Prop := forall f l1 l2, fs = l1 ++ f :: l2 -> ~ plain f -> ~ In f l1.
Lemma once_cons f fs : only_once (f :: fs) -> (forall g, In g fs -> ~ plain g -> g <> f) /\ only_once fs.
Proof.
  intros O. split.
  - intros g I NP ->. apply in_split in I. destruct I as (a & b & ->). apply (O f (f :: a) b eq_refl NP). left. auto.
  - intros g l1 l2 -> NP I. apply (O g (f :: l1) l2 eq_refl NP). right. auto.
Qed.
Lemma nodup_once fs : NoDup fs -> only_once fs.
Proof. intros ND f l1 l2 -> _ I. apply NoDup_remove_2 in ND. apply ND. apply in_or_app. auto. Qed.
Lemma exact_next ops f c fs : only_once (f :: fs) -> (forall g, In g (f :: fs) -> exact_at ops g) -> forall g, In g fs -> exact_at (ops ++ [Unsub f c]) g.
Proof.
  intros O E g I. destruct (shared_info g) as [gi|] eqn:SI; [|intros g0 i X; congruence].
  apply other_exact; [|apply E; right; auto]. cbn. intros ->. apply (proj1 (once_cons _ _ O) g I); [unfold plain; congruence|auto].
Qed.
Lemma unroute_once c fs : forall ops, only_once fs -> (forall f, In f fs -> exact_at ops f) -> snd (unroute c fs (rt_run ops)) = false.
Proof.
  unfold unroute. induction fs as [|f fs IH]; intros ops O E; [reflexivity|]. cbn [fold_left fst snd].
  pose proof (unsub_fine ops f c (E f (or_introl eq_refl))) as N. pose proof (IH (ops ++ [Unsub f c]) (proj2 (once_cons _ _ O)) (exact_next _ _ c _ O E)) as X.
  rewrite rt_run_snoc in X. cbn in N, X. destruct (rt_unsubscribe (rt_run ops) f c) as [t1 p1]. cbn in N. subst p1. cbn [orb]. exact X.
Qed.
Lemma unsubs5_once fs : forall ops s g, g_route g = rt_run ops -> only_once fs -> (forall f, In f fs -> exact_at ops f) -> unsubscribe_all fs s g <> Panic.
Proof.
  induction fs as [|f fs IH]; intros ops s g RT O E; cbn [unsubscribe_all]; [discriminate|].
  pose proof (unsub_fine ops f (s_id s) (E f (or_introl eq_refl))) as N. rewrite RT. destruct (rt_unsubscribe (rt_run ops) f (s_id s)) as [t1 p1] eqn:U. cbn [rt_step] in N. rewrite U in N. cbn in N. subst p1.
  pose proof (IH (ops ++ [Unsub f (s_id s)]) (with_subs (adel f (s_subs s)) s) (set_route t1 g)) as X. rewrite rt_run_snoc in X. cbn [rt_step] in X. rewrite U in X.
  specialize (X eq_refl (proj2 (once_cons _ _ O)) (exact_next _ _ _ _ O E)). destruct (unsubscribe_all fs _ _) as [[[? ?] ?]|]; [discriminate|contradiction].
Qed.
Lemma unsubs3_once fs : forall ops s g, g_route g = rt_run ops -> only_once fs -> (forall f, In f fs -> exact_at ops f) -> unsubscribe_all3 fs s g <> Panic.
Proof.
  induction fs as [|f fs IH]; intros ops s g RT O E; cbn [unsubscribe_all3]; [discriminate|].
  pose proof (unsub_fine ops f (z_id s) (E f (or_introl eq_refl))) as N. rewrite RT. destruct (rt_unsubscribe (rt_run ops) f (z_id s)) as [t1 p1] eqn:U. cbn [rt_step] in N. rewrite U in N. cbn in N. subst p1.
  apply (IH (ops ++ [Unsub f (z_id s)])); [|exact (proj2 (once_cons _ _ O))|exact (exact_next _ _ _ _ O E)]. cbn [set_route g_route]. rewrite rt_run_snoc. cbn [rt_step]. rewrite U. reflexivity.
Qed.

Section Run.
  Variables (hash5 : wpub5 -> N) (hash3 : wpub3 -> N) (pick : draw -> broker -> string -> string -> N).
  Notation bstep := (bstep hash5 hash3 pick).
  Notation brun := (brun hash5 hash3 pick).

  Lemma stayed_never c h b : brun c h b -> (forall p, In p h -> lossless p) -> stayed h b -> exists ops hr, b_cfg b = c /\ b_route b = rt_run ops /\ b_retain b = ret_run hr /\ all_has b ops /\ all_held b ops /\ never ops.
  Proof.
    induction 1 as [|h b e b' out R IH S]; intros LO ST.
    - exists [], []. repeat split; auto; try discriminate. intros [|] ? ? ? E; discriminate.
    - destruct ST as (NL & ST). cbn [w_b] in NL, ST. destruct (IH (fun p I => LO p (or_intror I)) ST) as (ops & hr & C & RT & RE & HAS & HE & NV). pose proof (run_good _ _ _ _ _ _ R) as G. pose proof G as [I P].
      destruct (step_tab _ _ _ _ _ _ _ G (fun k x r => pre_subs_nil _ _ _ _ _ _ k x r R) S) as (C' & RM & op & M).
      destruct (rmoved_run _ _ _ RM RE) as (hr' & RE'). pose proof (tab_has _ _ _ _ _ _ I M HAS) as HAS'.
      exists (ops ++ op), hr'. split; [congruence|]. split; [eapply tab_route; eauto|]. split; [exact RE'|]. split; [exact HAS'|].
      split; [eapply tab_held; eauto; apply LO; left; auto|].
      intros h1 f d h2 E NP. apply split_app in E. destruct E as [(y & ->)|(x & -> & ->)]; [eapply NV; eauto|].
      destruct (tab_pure _ _ _ _ _ M) as [PU|PU]; [|exfalso; apply (PU f d); apply in_or_app; right; left; auto].
      destruct (current (ops ++ x) f d) as [q|] eqn:CU; auto. exfalso. apply NL. 
      assert (NS : forall q', ~ In (Sub f d q') (x ++ Unsub f d :: h2)) by (intros q' J; exact (NP (PU _ _ _ J))).
      apply current_back in CU; [|intros q' J; apply (NS q'); apply in_or_app; auto].
      destruct (HE _ _ _ CU) as (k & ms & HK & AG). exists k, d, ms, f, q. repeat (split; [assumption|]).
      intros k' ms' HK'. destruct (aget f ms') as [v|] eqn:AV; auto. exfalso. pose proof (proj2 (HAS' _ _ _ HK') f v AV) as X.
      rewrite snoc_app, app_assoc in X.
      apply current_back in X; [|intros q' J; apply (NS q'); apply in_or_app; right; right; auto]. rewrite app_assoc, current_snoc, String.eqb_refl, N.eqb_refl in X. discriminate.
  Qed.

  Lemma stayed_no_panic c h b e : cf_max_qos c <= 2 -> brun c h b -> (forall p, In p h -> proper p) -> (forall p, In p h -> lossless p) -> stayed h b -> wills_named h -> fine e -> leaves_once e -> bstep e b <> BPanic.
  Proof.
    intros MQ R P LO ST WN FE O. destruct (stayed_never _ _ _ R LO ST) as (ops & hr & C & RT & RE & HAS & HE & NV). pose proof (never_safe _ NV) as SF.
    assert (EX : forall f, exact_at ops f) by (intros; apply safe_exact; auto).
    pose proof (run_good _ _ _ _ _ _ R) as [I _].
    apply (no_panic_if hash5 hash3 pick c h b e ops hr); auto.
    - intros k t a a1 b0 A T ID FI RT0 RG. unfold remove_client. rewrite RG, RT0, ID, FI. pose proof (remove_ok _ _ _ _ _ _ (a_id a) R) as N. destruct (reg_remove (a_id a) (b_reg b)); [|contradiction].
      assert (U : snd (unroute (a_id a) (a_filters a) (rt_run ops)) = false).
      { destruct (t_held t) as [[d m]|] eqn:TH.
        - assert (HK : held b k = Some (d, m)) by (unfold held; rewrite A; exact TH). assert (X : d = a_id a /\ m = a_subs a) by (destruct t as [| | | | | | | |? []]; cbn in T, TH; try discriminate; injection T as ->; injection TH as <- <-; auto). destruct X as (-> & ->).
          apply unroute_once; [apply nodup_once; rewrite <- keys_subs; exact (proj1 (HAS _ _ _ HK))|auto].
        - assert (t = TOffDrain a true) by (destruct t as [| | | | | | | |? []]; cbn in T, TH; try discriminate; injection T as ->; auto). subst t.
          assert (RK : rl b k = Some (Owns (a_v5 a) (a_ident a) (a_id a) true)) by (rewrite (rl_of _ _ _ A); reflexivity).
          assert (Z : forall f, current ops f (a_id a) = None).
          { intros f. destruct (current ops f (a_id a)) as [q|] eqn:CU; auto. exfalso. destruct (HE _ _ _ CU) as (j & m & H & _). destruct (held_owner _ _ _ _ H) as (v & i & RJ). pose proof (k_one _ _ _ _ _ (i_core _ I) _ _ _ _ _ _ _ _ _ RK RJ). subst j.
            unfold held in H. rewrite A in H. discriminate. }
          assert (GO : forall fs ops, never ops -> (forall f, current ops f (a_id a) = None) -> snd (unroute (a_id a) fs (rt_run ops)) = false).
          { clear. unfold unroute. induction fs as [|f fs IH]; intros ops NV Z; [reflexivity|]. cbn [fold_left fst snd].
            pose proof (never_unsubs ops (a_id a) [f] NV Z) as NV1. cbn [map] in NV1.
            assert (Z1 : forall g, current (ops ++ [Unsub f (a_id a)]) g (a_id a) = None) by (intros g; rewrite current_snoc, Z; destruct (_ && _); auto).
            pose proof (safe_step ops (Unsub f (a_id a)) (or_intror (never_safe _ NV1))) as N. specialize (IH _ NV1 Z1). rewrite rt_run_snoc in IH. cbn in N, IH.
            destruct (rt_unsubscribe (rt_run ops) f (a_id a)) as [t1 p1]. cbn in N. subst p1. exact IH. }
          apply GO; auto. }
      destruct (unroute _ _ _) as [t1 p1]. cbn in U. subst p1. discriminate.
    - intros k len x s ->. destruct x; try (left; right; cbn; rewrite ?app_nil_r; exact SF). right. do 2 eexists. split; [reflexivity|]. apply (unsubs5_once fs ops); auto.
    - intros k len x s ->. destruct x; try (left; right; cbn; rewrite ?app_nil_r; exact SF). right. do 2 eexists. split; [reflexivity|]. apply (unsubs3_once fs ops); auto.
  Qed.

  Lemma stayed_share c h1 b1 j s len w b2 out : cf_max_qos c <= 2 -> brun c h1 b1 -> (forall p, In p h1 -> proper p) -> (forall p, In p h1 -> lossless p) -> stayed h1 b1 -> sess_at b1 j = Some (A5 s) -> wf_in5 (IPub w) -> len <= cf_packet_server c ->
    bstep (EPacket5 j len (IPub w)) b1 = BOk b2 out -> (forall code reason, ~ In (OPkt5 j (KDisconnect code reason)) out) ->
    exists l, life5 j h1 l /\ forall T gr inner, topic_for (cf_alias_max c) l w = Some T -> (forall p, w5_qp w = Q2 p -> opener l p = None /\ w5_dup w = false) ->
      shared_info (share_filter gr inner) = Some (gr, inner) -> topic_matches inner T -> (exists k d ms q, held b1 k = Some (d, ms) /\ aget (share_filter gr inner) ms = Some q) ->
      exists k d ms q, held b1 k = Some (d, ms) /\ aget (share_filter gr inner) ms = Some q /\
        (forall d' y, In y (AccSpec.queued j d' b1 b2) -> In (share_filter gr inner) (nm_filters y) -> d' = d) /\
        arrives5 hash5 hash3 pick c h1 b1 j len w b2 out d T (share_filter gr inner) q.
  Proof.
    intros MQ R P LO ST A W LE S ND. destruct (share5_valid hash5 hash3 pick c h1 b1 j s len w b2 out MQ R P LO A W LE S ND) as (l & L & VT & H). exists l. split; [exact L|].
    intros T gr inner HT HQ SI TM (k0 & d0 & ms0 & q0 & HK & AG). destruct (stayed_never _ _ _ R LO ST) as (ops & hr & C & RT & RE & HAS & HE & NV). pose proof (never_safe _ NV) as SF.
    pose proof (VT _ HT) as V.
    pose proof (proj2 (HAS _ _ _ HK) _ _ AG) as CU. unfold sq3 in CU.
    destruct (proj2 (shared_exact_lemma ops T gr inner d0 q0 SF V SI TM) CU) as (sh & OG & _).
    destruct (H T gr inner sh HT HQ ltac:(rewrite RT; exact OG)) as (_ & k & d & ms & q & q' & HH & AG' & IS & U & AR). exists k, d, ms, q. split; [exact HH|]. split; [|auto].
    pose proof (proj1 (shared_exact_lemma ops T gr inner d q SF V SI TM) (ex_intro _ sh (conj OG IS))) as C1. pose proof (proj2 (HAS _ _ _ HH) _ _ AG') as C2. unfold sq3 in C2. congruence.
  Qed.
End Run.
