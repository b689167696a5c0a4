(** Runs of the broker: wills, session expiry and their timers. *)
From Coq Require Import List Bool NArith String Lia.
From Verif Require Import Base BaseLemmas TopicModel MsgModel OutModel RouteModel RetainModel GlobModel Sess5Model Sess3Model ConnModel RegModel BrokerModel
  BrokerSpec FrameProofs CoreProofs BrokerInv TaskMove StepProofs RunProofs RegProofs.
Import ListNotations.
Local Open Scope N_scope.

Lemma akept_quit a a' : akept a a' -> a_quit a' = a_quit a /\ a_keep a' = a_keep a /\ a_ends a' = a_ends a.
Proof.
  destruct a, a'; cbn; try contradiction; unfold same5, same3; intros (?&?&?&?&?&?&?&?&?); repeat split; congruence.
Qed.
Lemma aspent_quit a a' : aspent a a' -> a_quit a' = a_quit a /\ a_keep a' = a_keep a /\ a_ends a' = a_ends a.
Proof.
  destruct a, a'; cbn; try contradiction; intros H; decompose [and] H; repeat split; congruence.
Qed.
Definition t_quit (t : task) : bool := match t_sess t with Some a => a_quit a | None => false end.

Section Runs.
  Variables (hash5 : wpub5 -> N) (hash3 : wpub3 -> N) (pick : draw -> broker -> string -> string -> N).
  Notation bstep := (bstep hash5 hash3 pick).
  Notation brun := (brun hash5 hash3 pick).
  Notation bgo := (bgo hash5 hash3 pick).

  (** ** A session stays what it is *)
  Definition asame (a a' : sess) : Prop := a_ident a' = a_ident a /\ a_v5 a' = a_v5 a /\ a_id a' = a_id a /\ a_ctime a' = a_ctime a /\ a_keep a' = a_keep a.
  Lemma sess_step e b b' out k t a : good b -> bstep e b = BOk b' out -> aget k (b_tasks b) = Some t -> t_sess t = Some a ->
    aget k (b_tasks b') = None \/ exists t' a', aget k (b_tasks b') = Some t' /\ t_sess t' = Some a' /\ asame a a'.
  Proof.
    intros G S A T. pose proof (step_move _ _ _ _ _ _ _ (proj1 G) S k) as M. rewrite A in M. unfold asame.
    inversion M; subst; auto; try discriminate; try (cbn in T; injection T as <-); right; do 2 eexists; (split; [reflexivity|]); (split; [first [eassumption|reflexivity]|]);
      repeat match goal with
      | H : akept _ _ |- _ => destruct (akept_facts _ _ H) as (? & ? & ? & ? & ?); destruct (akept_quit _ _ H) as (? & ? & ?); clear H
      | H : aspent _ _ |- _ => destruct (aspent_facts _ _ H) as (? & ? & ? & ? & ?); destruct (aspent_quit _ _ H) as (? & ? & ?); clear H
      end; cbn; auto 6.
    match goal with |- context[a_offline ?x] => destruct x end; auto 6.
  Qed.
  Lemma join_stamp k b b' out : bstep (EJoin k) b = BOk b' out -> b_stamp b' = b_now b.
  Proof.
    cbn [BrokerModel.bstep]. unfold do_join. destruct (_ <=? _); [discriminate|]. destruct (aget k _) as [[| |[] r| | | | | |]|]; try discriminate.
    - destruct (match r with RNew c => Some (RcNew c) | ROld5 st => Some (RcPresent st) | ROld3 _ => None end); [|discriminate].
      destruct (session_connect5 _ _ _ _ _ _) as [[s ack]|]; [|discriminate].
      destruct (s_connected s); intros H; inversion H; subst; [reflexivity|]. destruct (close_same (s_id s) (end_task k (set_stamp (b_now b) (start_keep k (A5 s) b)))) as (_&_&_&->&_). reflexivity.
    - destruct (match r with RNew c => Some (RcNew3 c) | ROld3 st => Some (RcPresent3 st) | ROld5 _ => None end); [|discriminate].
      destruct (session_connect3 _ _ _) as [s1 ack]. intros H; inversion H; subst. reflexivity.
  Qed.
  (** Where sessions come from. *)
  Lemma sess_back e b b' out k t' a' : good b -> bstep e b = BOk b' out -> aget k (b_tasks b') = Some t' -> t_sess t' = Some a' ->
    (exists t a, aget k (b_tasks b) = Some t /\ t_sess t = Some a /\ asame a a') \/
    (exists x r, aget k (b_tasks b) = Some (TJoin x r) /\ e = EJoin k /\ t' = TReady a' /\ b_stamp b < b_now b /\ b_stamp b' = b_now b /\ a_ctime a' = Some (b_now b) /\
       (exists o, In o out /\ joined b x r a' o k)).
  Proof.
    intros G S A T. pose proof (step_move _ _ _ _ _ _ _ (proj1 G) S k) as M. 
    destruct (aget k (b_tasks b)) as [t|] eqn:A0.
    - destruct (t_sess t) as [a|] eqn:T0.
      + left. destruct (sess_step _ _ _ _ _ _ _ G S A0 T0) as [X|(t1 & a1 & X & Y & Z)]; [congruence|]. rewrite A in X. injection X as <-. rewrite T in Y. injection Y as <-. eauto.
      + right. rewrite A in M. inversion M; subst; try discriminate; try congruence.
        cbn in T. injection T as <-. pose proof (proj2 G _ _ A0) as PO. destruct (joined_facts _ _ _ _ _ _ PO ltac:(eassumption)) as (_ & _ & _ & CT & _).
        exists x, r. repeat split; auto; [eapply join_stamp; eauto|eauto].
    - rewrite A in M. inversion M; subst; discriminate.
  Qed.
  Lemma go_sess b h b' k t a : good b -> bgo b h b' -> aget k (b_tasks b) = Some t -> t_sess t = Some a -> k < b_conns b ->
    aget k (b_tasks b') = None \/ exists t' a', aget k (b_tasks b') = Some t' /\ t_sess t' = Some a' /\ asame a a'.
  Proof.
    intros G R A T L. induction R as [|b0 h b e b' out R IH S]; [right; unfold asame; eauto 10|].
    pose proof (go_good _ _ _ _ _ _ G R) as G1. pose proof (go_conns _ _ _ _ _ _ R) as C. destruct (IH G A L) as [N0|(t1 & a1 & A1 & T1 & S1)].
    - left. pose proof (step_move _ _ _ _ _ _ _ (proj1 G1) S k) as M. rewrite N0 in M. inversion M; subst; auto; lia.
    - destruct (sess_step _ _ _ _ _ _ _ G1 S A1 T1) as [|(t2 & a2 & A2 & T2 & S2)]; auto. right. exists t2, a2. split; [|split]; auto.
      unfold asame in *. decompose [and] S1. decompose [and] S2. repeat split; congruence.
  Qed.

  (** ** Wills: what is asked for is published or kept *)
  Lemma step_wills_lt c h b e b' out k : brun c h b -> bstep e b = BOk b' out -> k < b_conns b -> connect_will k (Past b e out) = [].
  Proof. intros _ _ L. unfold connect_will. cbn [w_b]. destruct (N.eqb_spec (b_conns b) k); auto. lia. Qed.

  Lemma will_kept c h b k t : brun c h b -> aget k (b_tasks b) = Some t -> t_quit t = false -> (forall w, In w (asked_will k h) -> aw_ok w = true) ->
    (wills_in k h ++ opt_list (t_will t))%list = asked_will k h.
  Proof.
    intros R. revert t. induction R as [|h b e b' out R IH S]; [discriminate|]. intros t' A' Q OK.
    pose proof (run_good _ _ _ _ _ _ R) as G. pose proof (step_move _ _ _ _ _ _ _ (proj1 G) S k) as M. rewrite A' in M.
    unfold wills_in, asked_will in *. cbn [flat_map w_out] in *.
    remember (wills_of k out) as ws eqn:WS. clear WS.
    destruct (aget k (b_tasks b)) as [t|] eqn:A.
    - pose proof (task_num _ _ _ G A) as L. rewrite (step_wills_lt c h b e b' out k R S L) in *. cbn [app] in *.
      assert (KEEP : ws = [] -> t_quit t = false -> t_will t' = t_will t ->
        (ws ++ flat_map (fun p : past => wills_of k (w_out p)) h ++ opt_list (t_will t'))%list = flat_map (connect_will k) h).
      { intros X Y Z. rewrite X, Z. cbn [app]. eapply IH; eauto. }
      assert (SPENT : ws = opt_list (t_will t) -> t_quit t = false -> t_will t' = None ->
        (ws ++ flat_map (fun p : past => wills_of k (w_out p)) h ++ opt_list (t_will t'))%list = flat_map (connect_will k) h).
      { intros X Y Z. rewrite X, Z. cbn [opt_list]. rewrite app_nil_r. pose proof (IH _ eq_refl Y OK) as E. destruct (t_will t) as [w|] eqn:W; cbn [opt_list app] in *.
        - pose proof (will_account _ _ _ _ _ _ k R) as (LE & _). unfold asked_will in LE. rewrite <- E in LE |- *. rewrite app_length in LE. cbn in LE.
          destruct (flat_map (fun p : past => wills_of k (w_out p)) h); cbn in *; [reflexivity|lia].
        - rewrite app_nil_r in E. auto. }
      rewrite <- app_assoc.
      assert (SOK : forall a, t_quit t = false -> t_will t = a_will a -> send_ok a = opt_list (t_will t)).
      { intros a Y Z. unfold send_ok. rewrite Z. destruct (a_will a) as [w|] eqn:W; auto. rewrite OK; auto. rewrite <- (IH _ eq_refl Y OK), Z. apply in_or_app. right. left. auto. }
      inversion M; subst; auto; try (cbn [t_quit t_sess] in Q).
      + apply KEEP; auto. cbn [t_will]. eapply joined_will; eauto.
      + unfold t_quit in Q. cbn [t_sess] in Q. destruct (akept_quit _ _ ltac:(eassumption)) as (E & _). apply KEEP; auto; [unfold t_quit; cbn [t_sess]; congruence|]. cbn [t_will]. apply akept_will. auto.
      + unfold t_quit in Q. cbn [t_sess] in Q. destruct (akept_quit _ _ ltac:(eassumption)) as (E & _). apply KEEP; auto; [unfold t_quit; cbn [t_sess]; congruence|]. cbn [t_will]. apply akept_will. auto.
      + unfold t_quit in Q. cbn [t_sess a_quit] in Q. rewrite Q in *. apply KEEP; auto. cbn [t_will a_will]. f_equal. match goal with H : s_will _ = _ /\ _ |- _ => apply H end.
      + unfold t_quit in Q. cbn [t_sess a_quit] in Q. congruence.
      + unfold t_quit in Q. cbn [t_sess] in Q. destruct (akept_quit _ _ ltac:(eassumption)) as (E & _). apply KEEP; auto; [unfold t_quit; cbn [t_sess]; congruence|]. cbn [t_will]. apply akept_will. auto.
      + unfold t_quit in *. cbn [t_sess] in *. destruct (aspent_quit _ _ ltac:(eassumption)) as (E & _).
        apply SPENT; [apply SOK; auto; congruence|congruence|cbn [t_will]; apply aspent_will with a; auto].
      + unfold t_quit in Q. cbn [t_sess] in Q. destruct (akept_quit _ _ ltac:(eassumption)) as (E & _). apply KEEP; auto; [unfold t_quit; cbn [t_sess]; congruence|]. cbn [t_will]. apply akept_will. auto.
      + unfold t_quit in Q. cbn [t_sess] in Q. apply KEEP; auto; unfold t_quit; cbn [t_sess t_will]; destruct a; auto.
      + unfold t_quit in Q. cbn [t_sess] in Q. destruct (akept_quit _ _ ltac:(eassumption)) as (E & _). apply KEEP; auto; [unfold t_quit; cbn [t_sess]; congruence|]. cbn [t_will]. apply akept_will. auto.
      + unfold t_quit in *. cbn [t_sess] in *. destruct (aspent_quit _ _ ltac:(eassumption)) as (E & _).
        apply SPENT; [apply SOK; auto; congruence|congruence|cbn [t_will]; apply aspent_will with a; auto].
      + unfold t_quit in *. cbn [t_sess] in *. destruct (aspent_quit _ _ ltac:(eassumption)) as (E & _).
        apply SPENT; [apply SOK; auto; congruence|congruence|cbn [t_will]; apply aspent_will with a; auto].
      + unfold t_quit in Q. cbn [t_sess] in Q. destruct (akept_quit _ _ ltac:(eassumption)) as (E & _). apply KEEP; auto; [unfold t_quit; cbn [t_sess]; congruence|]. cbn [t_will]. apply akept_will. auto.
    - assert (EK : k = b_conns b) by (inversion M; subst; auto; discriminate). pose proof (wills_nil_ge _ _ _ _ _ _ R k ltac:(lia)) as WN. pose proof (asked_nil_ge _ _ _ _ _ _ R k ltac:(lia)) as AN.
      unfold wills_in, asked_will in WN, AN. rewrite WN, AN, !app_nil_r.
      assert (X : exists x, connecting b e x /\ t_will t' = p_will x) by (inversion M; subst; try discriminate; eexists; split; eauto; reflexivity).
      assert (Y : ws = []) by (inversion M; subst; auto).
      destruct X as (x & CX & ->). rewrite Y. cbn [app]. unfold connect_will. cbn [w_b w_e]. rewrite EK, N.eqb_refl.
      destruct CX as [(t0 & uuid & p & data & -> & _ & ->)|(t0 & uuid & p & -> & _ & ->)]; cbn; auto.
  Qed.

  (** ** Messages of timers *)
  Lemma token_cv b c m : token b c m None <-> In (IPut c m) (b_timers b) \/ exists q o, cv b c = Some (q, o) /\ In m q.
  Proof.
    cbn. split; (intros [H|H]; [left; auto|right]).
    - destruct H as (ch & A & I). exists (ch_ctl ch), (ch_open ch). split; auto. apply cv_of; auto.
    - destruct H as (q & o & C & I). destruct (cv_inv _ _ _ _ C) as (ms & A). eexists; split; [exact A|auto].
  Qed.
  Lemma step_now e b b' out : good b -> bstep e b = BOk b' out -> b_now b <= b_now b' /\ b_stamp b <= b_stamp b'.
  Proof.
    intros [I P] S. pose proof (step_smove _ _ _ _ _ _ _ I P S) as M. destruct M; subst; cbn; lia.
  Qed.

  Definition made (e : bev) (b : broker) (c : client_id) (m : ctl) (d : option N) : Prop :=
    (exists k s, e = EDone k /\ aget k (b_tasks b) = Some (TDrain (A5 s)) /\ c = s_id s /\ m = CExpired (opt_or (s_ctime s) 0) /\ d = Some (b_now b + s_expiry s * 1000)) \/
    (exists k s dl, e = EEnd k true /\ aget k (b_tasks b) = Some (TEnd (A5 s)) /\ s_cdisc s = false /\ will_due s = Some dl /\ dl < s_expiry s /\
       c = s_id s /\ m = CWill (opt_or (s_ctime s) 0) /\ d = Some (b_now b + dl * 1000)).
  Lemma token_back e b b' out c m d : good b -> bstep e b = BOk b' out -> for5 m = true -> token b' c m d ->
    token b c m d \/ (d = None /\ exists due, token b c m (Some due) /\ due <= b_now b) \/ made e b c m d.
  Proof.
    intros [I P] S F T. pose proof (step_smove _ _ _ _ _ _ _ I P S) as M.
    assert (KEEP : forall tms, b_timers b' = (b_timers b ++ tms)%list -> (forall x, In x tms -> exists c k half due, x = IKeep c k half due) ->
      (forall q o, cv b' c = Some (q, o) -> In m q -> exists q o, cv b c = Some (q, o) /\ In m q) -> token b c m d).
    { intros tms E1 E2 E3. destruct d as [due|].
      - destruct m as [| | |t|t]; try discriminate; cbn in *; rewrite E1 in T; apply in_app_or in T; destruct T as [T|T]; auto; destruct (E2 _ T) as (? & ? & ? & ? & ?); discriminate.
      - apply token_cv in T. apply token_cv. destruct T as [T|(q & o & C & T)]; [left|right].
        + rewrite E1 in T. apply in_app_or in T. destruct T as [T|T]; auto; destruct (E2 _ T) as (? & ? & ? & ? & ?); discriminate.
        + eauto. }
    assert (NOON : forall v j, m <> online_msg v j) by (intros [] j ->; discriminate).
    assert (SAME : forall tms, b_timers b' = (b_timers b ++ tms)%list -> (forall x, In x tms -> exists c k half due, x = IKeep c k half due) -> (forall c, cv b' c = cv b c) -> token b c m d).
    { intros tms E1 E2 E3. apply (KEEP tms); auto. intros q o. rewrite E3. eauto. }
    assert (SAME0 : b_timers b' = b_timers b -> (forall c, cv b' c = cv b c) -> token b c m d).
    { intros E1 E2. apply (SAME []); auto; [rewrite app_nil_r; auto|intros ? []]. }
    destruct M.
    - left. auto.
    - left. subst. exact T.
    - left. apply (KEEP []); [rewrite app_nil_r; auto|intros ? []|]. intros q o. match goal with H : forall c, cv b' c = _ |- _ => rewrite H end.
      destruct (aget (p_ident x) _); [eauto|]. unfold upd. destruct (c =? _); [|eauto]. intros X; injection X; intros; subst. contradiction.
    - left. apply (KEEP []); [rewrite app_nil_r; auto|intros ? []|]. intros q o. match goal with H : forall c, cv b' c = _ |- _ => rewrite H end.
      unfold upd. destruct (c =? _); [|eauto]. intros X; injection X as <- <-. intros [Y|[]]. exfalso. apply (NOON (p_v5 x) k). auto.
    - left. auto.
    - left. apply (KEEP tms); auto.
      + intros y Y. match goal with H : forall m, In m tms -> _ |- _ => destruct (H _ Y) as (hf & ->) end. eauto.
      + intros q' o. match goal with H : forall c, cv b' c = _ |- _ => rewrite H end. unfold upd. destruct (N.eqb_spec c c0) as [->|]; [|eauto].
        intros X; injection X as <- <-. eauto.
    - left. apply (SAME tms); auto. intros y Y. subst tms. destruct (0 <? a_keep a); [|destruct Y]. destruct Y as [<-|[]]. eauto.
    - destruct d as [due|].
      + destruct m as [| | |t|t]; try discriminate; cbn in *; match goal with H : b_timers b' = _ |- _ => rewrite H in T end; apply in_app_or in T; destruct T as [T|T]; auto;
          destruct T as [T|[]]; inversion T; subst. right. right. right. exists k, s, d0. repeat split; auto.
      + left. apply token_cv in T. apply token_cv. destruct T as [T|(q & o & C & T)]; [left|right].
        * match goal with H : b_timers b' = _ |- _ => rewrite H in T end; apply in_app_or in T; destruct T as [T|[T|[]]]; auto; discriminate.
        * match goal with H : forall c, cv b' c = _ |- _ => rewrite H in C end. eauto.
    - destruct d as [due|].
      + destruct m as [| | |t|t]; try discriminate; cbn in *; match goal with H : b_timers b' = _ |- _ => rewrite H in T end; apply in_app_or in T; destruct T as [T|T]; auto;
          destruct a as [s|s]; try contradiction; destruct T as [T|[]]; inversion T; subst. right. right. left. exists k, s. repeat split; auto.
      + left. apply token_cv in T. apply token_cv. destruct T as [T|(q & o & C & T)]; [left|right].
        * match goal with H : b_timers b' = _ |- _ => rewrite H in T end; apply in_app_or in T; destruct T as [T|T]; auto. destruct a; [destruct T as [T|[]]; discriminate|destruct T].
        * match goal with H : forall c, cv b' c = _ |- _ => rewrite H in C end. eauto.
    - left. auto.
    - left. apply (KEEP []); [rewrite app_nil_r; auto|intros ? []|]. intros q o. match goal with H : forall c, cv b' c = _ |- _ => rewrite H end.
      unfold upd. destruct (c =? _); [|eauto]. intros X; injection X as <- <-. intros [].
    - match goal with H : match i with _ => _ end |- _ => rename H into HI end.
      destruct i as [c0 k half due|c0 t due|c0 t due|c0 m0].
      + destruct HI as (_ & CV & HT). cbn zeta in HT.
        assert (SUB : forall y, In y (b_timers b') -> (exists c k half due, y = IKeep c k half due) \/ y = IPut c0 CKick \/ In y (b_timers b)).
        { intros y Y. destruct (_ <=? _); [|destruct (in_list _ _)]; rewrite HT in Y; [apply in_put in Y|apply in_put in Y|apply in_drop in Y]; intuition eauto 6. }
        left. destruct d as [due'|].
        * destruct m as [| | |t|t]; try discriminate; cbn in *; destruct (SUB _ T) as [(?&?&?&?&?)|[?|?]]; auto; discriminate.
        * apply token_cv in T. apply token_cv. destruct T as [T|(q & o & C & T)]; [left|right].
          -- destruct (SUB _ T) as [(?&?&?&?&?)|[X|?]]; auto; try discriminate. inversion X; subst. discriminate.
          -- rewrite CV in C. eauto.
      + destruct HI as (LE & CV & HT).
        assert (SUB : forall y, In y (b_timers b') -> y = IPut c0 (CExpired t) \/ In y (b_timers b)).
        { intros y Y. destruct (in_list _ _); rewrite HT in Y; [apply in_put in Y|apply in_drop in Y]; intuition eauto 6. }
        destruct d as [due'|].
        * left. destruct m as [| | |t'|t']; try discriminate; cbn in *; destruct (SUB _ T) as [?|?]; auto; discriminate.
        * apply token_cv in T. destruct T as [T|(q & o & C & T)].
          -- destruct (SUB _ T) as [X|?]; [|left; apply token_cv; auto]. inversion X; subst. right. left. split; auto. exists due. split; auto. cbn. eapply nth_error_In; eauto.
          -- left. apply token_cv. rewrite CV in C. eauto.
      + destruct HI as (LE & CV & HT).
        assert (SUB : forall y, In y (b_timers b') -> y = IPut c0 (CWill t) \/ In y (b_timers b)).
        { intros y Y. destruct (in_list _ _); rewrite HT in Y; [apply in_put in Y|apply in_drop in Y]; intuition eauto 6. }
        destruct d as [due'|].
        * left. destruct m as [| | |t'|t']; try discriminate; cbn in *; destruct (SUB _ T) as [?|?]; auto; discriminate.
        * apply token_cv in T. destruct T as [T|(q & o & C & T)].
          -- destruct (SUB _ T) as [X|?]; [|left; apply token_cv; auto]. inversion X; subst. right. left. split; auto. exists due. split; auto. cbn. eapply nth_error_In; eauto.
          -- left. apply token_cv. rewrite CV in C. eauto.
      + left. destruct HI as (HT & HC). assert (SUB : forall y, In y (b_timers b') -> In y (b_timers b)) by (intros y Y; rewrite HT in Y; eapply in_drop; eauto).
        destruct d as [due'|].
        * destruct m as [| | |t'|t']; try discriminate; cbn in *; auto.
        * apply token_cv in T. apply token_cv. destruct T as [T|(q & o & C & T)]; auto.
          destruct HC as [[_ CV]|[CE CV]]; rewrite CV in C; [eauto|]. unfold upd in C. destruct (N.eqb_spec c c0) as [->|]; [|eauto].
          injection C as <- <-. destruct T as [<-|[]]. left. eapply nth_error_In; eauto.
  Qed.

  (** A message is not lost while its client is served. *)
  Lemma token_forth e b b' out c m d k t i v : good b -> bstep e b = BOk b' out -> token b c m d ->
    aget k (b_tasks b) = Some t -> role_of t = Owns v i c false ->
    (exists d', token b' c m d') \/ (exists (on : bool) a, e = EControl k /\ t = (if on then TOnline a else TOffline a) /\ a_id a = c /\ cv b c = Some ([m], true)).
  Proof.
    intros [I P] S T A RO. pose proof (step_smove _ _ _ _ _ _ _ I P S) as M. pose proof (i_core _ I) as K.
    assert (RK : rl b k = Some (Owns v i c false)) by (rewrite (rl_of _ _ _ A), RO; auto).
    destruct (owner_open _ _ _ _ _ K _ _ _ _ _ RK) as (q0 & CO).
    assert (IL : in_list c (r_clients (b_reg b)) = true).
    { apply (k_cl _ _ _ _ _ K). destruct (k_reg _ _ _ _ _ K _ _ _ _ RK) as (o & ->). discriminate. }
    pose proof (k_own _ _ _ _ _ K _ _ _ _ _ RK) as CL.
    assert (KEEP : (forall y, In y (b_timers b) -> In y (b_timers b')) -> (In m q0 -> exists q o, cv b' c = Some (q, o) /\ In m q) -> exists d', token b' c m d').
    { intros E1 E2. exists d. destruct d as [due|].
      - destruct m as [| | |t'|t']; cbn in *; try contradiction; auto.
      - apply token_cv in T. apply token_cv. destruct T as [T|(q & o & C & T)]; auto. rewrite CO in C. injection C as <- <-. auto. }
    assert (SAME : (forall y, In y (b_timers b) -> In y (b_timers b')) -> (forall c, cv b' c = cv b c) -> exists d', token b' c m d').
    { intros E1 E2. apply KEEP; auto. intros X. rewrite E2. eauto. }
    destruct M.
    - left. apply SAME; auto. intros y. congruence.
    - left. subst. exists d. exact T.
    - left. apply KEEP; [intros y; congruence|]. intros X. match goal with H : forall c, cv b' c = _ |- _ => rewrite H end.
      destruct (aget (p_ident x) _); [eauto|]. unfold upd. destruct (N.eqb_spec c (r_next (b_reg b))); [lia|eauto].
    - left. apply KEEP; [intros y; congruence|]. intros X. match goal with H : forall c, cv b' c = _ |- _ => rewrite H end.
      unfold upd. destruct (N.eqb_spec c c0) as [->|]; [|eauto]. assert (q0 = []) by congruence. subst. contradiction.
    - left. apply SAME; auto. intros y. congruence.
    - left. apply KEEP.
      + intros y Y. match goal with H : b_timers b' = _ |- _ => rewrite H end. apply in_or_app. auto.
      + intros X. match goal with H : forall c, cv b' c = _ |- _ => rewrite H end. unfold upd. destruct (N.eqb_spec c c0) as [->|]; [|eauto]. assert (q0 = q) by congruence. subst. eauto.
    - left. apply SAME; auto. intros y Y. match goal with H : b_timers b' = _ |- _ => rewrite H end. apply in_or_app. auto.
    - left. apply SAME; auto. intros y Y. match goal with H : b_timers b' = _ |- _ => rewrite H end. apply in_or_app. auto.
    - left. apply SAME; auto. intros y Y. match goal with H : b_timers b' = _ |- _ => rewrite H end. apply in_or_app. auto.
    - left. apply SAME; auto. intros y. congruence.
    - destruct (N.eq_dec (a_id a) c) as [E|E].
      + assert (KK : k0 = k).
        { match goal with H : aget k0 _ = Some _ |- _ => pose proof (rl_of _ _ _ H) as R0 end. destruct on; cbn in R0; rewrite E in R0; eapply (k_one _ _ _ _ _ K); eauto. }
        subst k0. destruct (in_dec (fun x y : ctl => ltac:(decide equality; apply N.eq_dec) : {x = y} + {x <> y}) m q0) as [X|X].
        * right. exists on, a. repeat split; auto; [congruence|]. subst c. assert (q0 = [m0]) by congruence. subst. destruct X as [->|[]]. auto.
        * left. apply KEEP; [intros y; congruence|contradiction].
      + left. apply KEEP; [intros y; congruence|]. intros X. match goal with H : forall c, cv b' c = _ |- _ => rewrite H end. rewrite upd_ne by auto. eauto.
    - left. match goal with H : match i0 with _ => _ end |- _ => rename H into HI end.
      destruct i0 as [c0 k0 half due|c0 t' due|c0 t' due|c0 m0].
      + destruct HI as (_ & CV & HT). cbn zeta in HT.
        assert (SUB : forall y, In y (b_timers b) -> y = IKeep c0 k0 half due \/ In y (b_timers b')).
        { intros y Y. destruct (_ <=? _); [|destruct (in_list _ _)]; rewrite HT.
          - destruct (in_keep_put n y (IKeep c0 k0 half (b_now b + half)) _ Y) as [Z|Z]; auto. left. congruence.
          - destruct (in_keep_put n y (IPut c0 CKick) _ Y) as [Z|Z]; auto. left. congruence.
          - destruct (in_keep n y _ Y) as [Z|Z]; auto. left. congruence. }
        exists d. destruct d as [due'|].
        * destruct m as [| | |t1|t1]; cbn in *; try contradiction; destruct (SUB _ T) as [?|?]; auto; discriminate.
        * apply token_cv in T. apply token_cv. destruct T as [T|(q & o & C & T)]; [left|right].
          -- destruct (SUB _ T) as [X|?]; auto; discriminate.
          -- rewrite CV. eauto.
      + destruct HI as (_ & CV & HT).
        assert (SUB : forall y, In y (b_timers b) -> y = IExpire c0 t' due \/ In y (b_timers b')).
        { intros y Y. destruct (in_list _ _); rewrite HT.
          - destruct (in_keep_put n y (IPut c0 (CExpired t')) _ Y) as [Z|Z]; auto. left. congruence.
          - destruct (in_keep n y _ Y) as [Z|Z]; auto. left. congruence. }
        destruct d as [due'|].
        * destruct m as [| | |t1|t1]; cbn in T; try contradiction; destruct (SUB _ T) as [X|?]; try (exists (Some due'); cbn; auto; fail).
          -- inversion X; subst. rewrite IL in HT. exists None. apply token_cv. left. rewrite HT. apply put_in.
          -- discriminate.
        * exists None. apply token_cv in T. apply token_cv. destruct T as [T|(q & o & C & T)]; [left|right].
          -- destruct (SUB _ T) as [X|?]; auto; discriminate.
          -- rewrite CV. eauto.
      + destruct HI as (_ & CV & HT).
        assert (SUB : forall y, In y (b_timers b) -> y = IWill c0 t' due \/ In y (b_timers b')).
        { intros y Y. destruct (in_list _ _); rewrite HT.
          - destruct (in_keep_put n y (IPut c0 (CWill t')) _ Y) as [Z|Z]; auto. left. congruence.
          - destruct (in_keep n y _ Y) as [Z|Z]; auto. left. congruence. }
        destruct d as [due'|].
        * destruct m as [| | |t1|t1]; cbn in T; try contradiction; destruct (SUB _ T) as [X|?]; try (exists (Some due'); cbn; auto; fail).
          -- discriminate.
          -- inversion X; subst. rewrite IL in HT. exists None. apply token_cv. left. rewrite HT. apply put_in.
        * exists None. apply token_cv in T. apply token_cv. destruct T as [T|(q & o & C & T)]; [left|right].
          -- destruct (SUB _ T) as [X|?]; auto; discriminate.
          -- rewrite CV. eauto.
      + destruct HI as (HT & HC). assert (SUB : forall y, In y (b_timers b) -> y = IPut c0 m0 \/ In y (b_timers b')).
        { intros y Y. rewrite HT. destruct (in_keep n y _ Y) as [Z|Z]; auto. left. congruence. }
        exists d. destruct d as [due'|].
        * destruct m as [| | |t1|t1]; cbn in *; try contradiction; destruct (SUB _ T) as [?|?]; auto; discriminate.
        * apply token_cv in T. apply token_cv. destruct T as [T|(q & o & C & T)].
          -- destruct (SUB _ T) as [X|?]; auto. inversion X; subst c0 m0. right. destruct HC as [[(q & CV) _]|[CE CV]]; [congruence|]. rewrite CV, upd_eq. eexists; eexists; split; [reflexivity|left; auto].
          -- right. destruct HC as [[_ CV]|[CE CV]]; rewrite CV; [eauto|]. unfold upd. destruct (N.eqb_spec c c0) as [->|]; [|eauto].
             assert (q = []) by congruence. subst. contradiction.
  Qed.

  (** ** Where the stages of a connection come from *)
  Lemma akept_expiry a a' : akept a a' -> a_expiry a' = a_expiry a.
  Proof. destruct a, a'; cbn; try contradiction; unfold same5, same3; intros H; decompose [and] H; congruence. Qed.
  Lemma aspent_expiry a a' : aspent a a' -> a_expiry a' = a_expiry a.
  Proof. destruct a, a'; cbn; try contradiction; intros H; decompose [and] H; congruence. Qed.

  Lemma off_back e b b' out k t' a' : good b -> bstep e b = BOk b' out -> aget k (b_tasks b') = Some t' -> t_sess t' = Some a' -> t_offline t' = true ->
    (exists t a, aget k (b_tasks b) = Some t /\ t_sess t = Some a /\ t_offline t = true /\ asame a a' /\ a_expiry a' = a_expiry a /\ (a_will a' = a_will a \/ a_will a' = None)) \/
    (exists a, e = EDone k /\ aget k (b_tasks b) = Some (TDrain a) /\ t' = TOffline a' /\ a' = a_offline a /\ a_ends a = false).
  Proof.
    intros G S A T O. pose proof (step_move _ _ _ _ _ _ _ (proj1 G) S k) as M. unfold asame.
    rewrite A in M. inversion M; subst; try discriminate;
      try match goal with H : Some ?x = aget _ _ |- _ => symmetry in H end;
      try match goal with H : (if ?on then _ else _) = _ |- _ => destruct on; discriminate end.
    all: try (left; eexists; exists a'; split; [first [eassumption|reflexivity]|]; auto 8; fail).
    all: try (cbn in T; injection T as <-).
    all: try (left; do 2 eexists; split; [first [eassumption|reflexivity]|]; split; [reflexivity|]; split; [reflexivity|];
      repeat match goal with
      | H : akept _ _ |- _ => destruct (akept_facts _ _ H) as (? & ? & ? & ? & ?); destruct (akept_quit _ _ H) as (? & ? & ?); pose proof (akept_expiry _ _ H); pose proof (akept_will _ _ H); clear H
      | H : aspent _ _ |- _ => destruct (aspent_facts _ _ H) as (? & ? & ? & ? & ?); destruct (aspent_quit _ _ H) as (? & ? & ?); pose proof (aspent_expiry _ _ H); pose proof (aspent_will _ _ H); clear H
      end; cbn; auto 8; fail).
    right. exists a. auto.
  Qed.
  Lemma conn_back e b b' out k t' a' : good b -> bstep e b = BOk b' out -> aget k (b_tasks b') = Some t' -> t_sess t' = Some a' -> t_connected t' = true ->
    (exists t a, aget k (b_tasks b) = Some t /\ t_sess t = Some a /\ t_connected t = true /\ asame a a') \/
    (exists x r, aget k (b_tasks b) = Some (TJoin x r) /\ e = EJoin k /\ t' = TReady a' /\ b_stamp b < b_now b /\ a_ctime a' = Some (b_now b)).
  Proof.
    intros G S A T O. destruct (sess_back _ _ _ _ _ _ _ G S A T) as [(t & a & A0 & T0 & SA)|(x & r & X & Y & Z & U & _ & V & _)]; [|right; exists x, r; auto].
    left. exists t, a. split; auto. split; auto. split; auto.
    pose proof (step_move _ _ _ _ _ _ _ (proj1 G) S k) as M. rewrite A, A0 in M.
    inversion M; subst; try discriminate; auto; destruct t; try discriminate; reflexivity.
  Qed.
  Lemma early_back e b b' out k t' a' : good b -> bstep e b = BOk b' out -> aget k (b_tasks b') = Some t' -> t_sess t' = Some a' -> t_early t' = true ->
    (exists t a, aget k (b_tasks b) = Some t /\ t_sess t = Some a /\ t_early t = true /\ asame a a') \/
    (exists x r, aget k (b_tasks b) = Some (TJoin x r) /\ e = EJoin k /\ t' = TReady a' /\ b_stamp b < b_now b /\ a_ctime a' = Some (b_now b)).
  Proof.
    intros G S A T O. destruct (sess_back _ _ _ _ _ _ _ G S A T) as [(t & a & A0 & T0 & SA)|(x & r & X & Y & Z & U & _ & V & _)]; [|right; exists x, r; auto].
    left. exists t, a. split; auto. split; auto. split; auto.
    pose proof (step_move _ _ _ _ _ _ _ (proj1 G) S k) as M. rewrite A, A0 in M.
    inversion M; subst; try discriminate; auto; destruct t; try discriminate; reflexivity.
  Qed.
  Definition waits_will (a : sess) : Prop := exists s d, a = A5 s /\ will_due s = Some d.
  (** After the end of a connection: the task before. *)
  Lemma late_step e b b' out k t' a' : good b -> bstep e b = BOk b' out -> aget k (b_tasks b') = Some t' -> t_sess t' = Some a' -> t_late t' = true ->
    (exists t a, aget k (b_tasks b) = Some t /\ t_sess t = Some a /\ t_late t = true /\ asame a a' /\ a_expiry a' = a_expiry a /\ a_quit a' = a_quit a /\
       (a_will a' = a_will a \/ a_will a' = None) /\ ((exists a0, t = TOffDrain a0 true) -> exists a0, t' = TOffDrain a0 true)) \/
    (exists a, e = EEnd k true /\ aget k (b_tasks b) = Some (TEnd a) /\ t' = TDrain a' /\ asame a a' /\ a_expiry a' = a_expiry a /\ a_quit a' = a_quit a /\
       (a' = a /\ (a_quit a = true \/ waits_will a) \/ a_will a' = None)).
  Proof.
    intros G S A T O. pose proof (step_move _ _ _ _ _ _ _ (proj1 G) S k) as M. 
    destruct (sess_back _ _ _ _ _ _ _ G S A T) as [(t & a & A0 & T0 & SA)|(x & r & X & Y & Z & U & _ & V & _)]; [|subst; discriminate].
    rewrite A, A0 in M. inversion M; subst; try discriminate;
      try (match goal with H : (if ?on then _ else _) = _ |- _ => destruct on; discriminate end).
    all: try (cbn in T0; injection T0 as <-). all: try (cbn in T; injection T as <-).
    all: repeat match goal with
      | H : akept _ _ |- _ => destruct (akept_quit _ _ H) as (? & _); pose proof (akept_expiry _ _ H); pose proof (akept_will _ _ H); clear H
      | H : aspent _ _ |- _ => destruct (aspent_quit _ _ H) as (? & _); pose proof (aspent_expiry _ _ H); pose proof (aspent_will _ _ H); clear H
      end.
    - left. rewrite T in T0. injection T0 as <-. exists t', a'. repeat split; auto.
    - right. exists a0. repeat split; auto; apply SA.
    - right. exists a0. repeat split; auto; try apply SA.
    - left. exists (TDrain a0), a0. repeat split; auto; try apply SA. intros (? & ?); discriminate.
    - left. exists (TDrain a0), a0. repeat split; auto; try apply SA; try (destruct a0; reflexivity); [left; destruct a0; reflexivity|]. intros (? & ?); discriminate.
    - left. exists (TOffline a0), a0. repeat split; auto; try apply SA. intros (? & ?); discriminate.
    - left. exists (TOffline a0), a0. repeat split; auto; try apply SA. intros (? & ?); discriminate.
    - left. exists (TOffline a0), a0. repeat split; auto; try apply SA. intros (? & ?); discriminate.
    - left. exists (TOffline a0), a0. repeat split; auto; try apply SA. intros (? & ?); discriminate.
    - left. exists (TOffDrain a0 s), a0. repeat split; auto; try apply SA. intros (? & E); inversion E; subst. eauto.
    - left. exists (TOffDrain a0 false), a0. repeat split; auto; try apply SA. intros (? & ?); discriminate.
  Qed.

  Definition tok_ok (now D : N) (d : option N) : Prop := match d with Some due => due = D | None => D <= now end.
  Record tinv (h : list past) (b : broker) : Prop := Tinv {
    t_one : forall k1 k2 t1 t2 a1 a2, aget k1 (b_tasks b) = Some t1 -> aget k2 (b_tasks b) = Some t2 -> t_sess t1 = Some a1 -> t_sess t2 = Some a2 ->
      a_ctime a1 = a_ctime a2 -> k1 = k2;
    t_old : forall c m t d, (m = CExpired t \/ m = CWill t) -> token b c m d -> t <= b_stamp b;
    t_none : forall k t a ct c d, aget k (b_tasks b) = Some t -> t_sess t = Some a -> t_connected t = true -> a_ctime a = Some ct -> ~ token b c (CExpired ct) d;
    t_due : forall k t a ct c d, aget k (b_tasks b) = Some t -> t_sess t = Some a -> t_offline t = true -> a_ctime a = Some ct -> token b c (CExpired ct) d ->
      exists p a0, In p h /\ w_e p = EDone k /\ aget k (b_tasks (w_b p)) = Some (TDrain a0) /\ a_expiry a0 = a_expiry a /\ (a_will a = a_will a0 \/ a_will a = None) /\ tok_ok (b_now b) (b_now (w_b p) + a_expiry a0 * 1000) d;
    t_nowill : forall k t a ct c d, aget k (b_tasks b) = Some t -> t_sess t = Some a -> t_early t = true -> a_ctime a = Some ct -> ~ token b c (CWill ct) d;
    t_wdue : forall k t a ct c d, aget k (b_tasks b) = Some t -> t_sess t = Some a -> t_late t = true -> a_ctime a = Some ct -> token b c (CWill ct) d ->
      exists p s dl, In p h /\ w_e p = EEnd k true /\ aget k (b_tasks (w_b p)) = Some (TEnd (A5 s)) /\ s_cdisc s = false /\ will_due s = Some dl /\
        (a_will a = option_map W5 (s_will s) \/ a_will a = None) /\ tok_ok (b_now b) (b_now (w_b p) + dl * 1000) d
  }.

  Lemma sess_time b k t a : good b -> aget k (b_tasks b) = Some t -> t_sess t = Some a -> exists ct, a_ctime a = Some ct /\ ct <= b_stamp b.
  Proof.
    intros [I _] A T. pose proof (i_ok _ I _ _ A) as OK. destruct t; try discriminate; cbn in T; injection T as <-; destruct OK as (_ & ct & E & L); eauto.
  Qed.
  Lemma tok_ok_mono now now' D d : now <= now' -> tok_ok now D d -> tok_ok now' D d.
  Proof. destruct d; cbn; auto. lia. Qed.

  Lemma done_drain k b b' out a : good b -> bstep (EDone k) b = BOk b' out -> aget k (b_tasks b) = Some (TDrain a) ->
    aget k (b_tasks b') = None \/ aget k (b_tasks b') = Some (TOffline (a_offline a)).
  Proof.
    intros G S A. cbn [BrokerModel.bstep] in S. unfold do_done in S. rewrite A in S. destruct (a_bcast a); [|discriminate]. destruct (a_ends a).
    - destruct (remove_client a b) as [b1|] eqn:RC; [|discriminate]. inversion S; subst. rewrite tasks_close. unfold end_task, set_tasks. cbn [b_tasks].
      destruct (remove_tasks _ _ _ RC) as (-> & _). left. apply aget_adel_eq. apply (i_tnd _ (proj1 G)).
    - right. destruct (reg_offline _ _); [|discriminate]. destruct a; inversion S; subst; cbn; rewrite aget_N, N.eqb_refl; reflexivity.
  Qed.
  Lemma end_end k hook b b' out a : good b -> bstep (EEnd k hook) b = BOk b' out -> aget k (b_tasks b) = Some (TEnd a) ->
    aget k (b_tasks b') = None \/ exists a', aget k (b_tasks b') = Some (TDrain a').
  Proof.
    intros G S A. cbn [BrokerModel.bstep] in S. unfold do_end in S. rewrite A in S. pose proof (i_tnd _ (proj1 G)) as ND.
    destruct hook; cbn [negb] in S.
    2:{ inversion S; subst. rewrite tasks_close. left. apply aget_adel_eq. auto. }
    assert (NOW : match send_will pick k a b with
        | None => BPanic
        | Some (a1, b1, out, ok) => if ok then BOk (set_task k (TDrain a1) b1) out else BOk (close (a_id a) (end_task k b1)) (out ++ [OClosed k])%list
        end = BOk b' out -> aget k (b_tasks b') = None \/ exists a', aget k (b_tasks b') = Some (TDrain a')).
    { destruct (send_will pick k a b) as [[[[a1 b1] o1] ok]|] eqn:SW; [|discriminate].
      destruct (send_will_move _ _ _ _ _ _ _ _ SW) as (SP & (rt & rn & ->) & _). destruct ok; intros X; inversion X; subst.
      - right. exists a1. cbn. rewrite aget_N, N.eqb_refl. auto.
      - rewrite tasks_close. left. apply aget_adel_eq. auto. }
    destruct a as [s|s].
    - destruct (s_cdisc s); [inversion S; subst; right; exists (A5 s); cbn; rewrite aget_N, N.eqb_refl; auto|]. destruct (will_due s) as [d|]; [|apply NOW; auto].
      right. exists (A5 s). destruct (_ <? _); inversion S; subst; cbn; rewrite aget_N, N.eqb_refl; auto.
    - destruct (z_disc s); [inversion S; subst; right; exists (A3 s); cbn; rewrite aget_N, N.eqb_refl; auto|apply NOW; auto].
  Qed.

  Lemma tinv_new c : tinv [] (broker_new c).
  Proof.
    assert (NT : forall d m t, ~ token (broker_new c) d m t).
    { intros d m [due|]; cbn; [destruct m; auto|]. intros [H|(ch & H & _)]; [auto|discriminate]. }
    constructor; try discriminate. intros. exfalso. eapply NT; eauto.
  Qed.
  Lemma tinv_step h e b b' out : good b -> tinv h b -> bstep e b = BOk b' out -> tinv (Past b e out :: h) b'.
  Proof.
    intros G T S. destruct (step_now _ _ _ _ G S) as (NOW & STAMP).
    assert (NOTE : forall ct, b_stamp b < ct -> forall c m d, (m = CExpired ct \/ m = CWill ct) -> token b c m d -> False).
    { intros ct L c m d E X. pose proof (t_old _ _ T _ _ _ _ E X). lia. }
    assert (MK : forall c m d, made e b c m d -> exists k t a ct, aget k (b_tasks b) = Some t /\ t_sess t = Some a /\ a_ctime a = Some ct /\ 
       ((m = CExpired ct /\ e = EDone k /\ t = TDrain a /\ d = Some (b_now b + a_expiry a * 1000)) \/ 
        (m = CWill ct /\ e = EEnd k true /\ exists s dl, a = A5 s /\ t = TEnd a /\ s_cdisc s = false /\ will_due s = Some dl /\ d = Some (b_now b + dl * 1000)))).
    { intros c m d [(k & s & -> & A & -> & -> & ->)|(k & s & dl & -> & A & CD & WD & LT & -> & -> & ->)].
      - destruct (sess_time _ _ _ (A5 s) G A eq_refl) as (ct & E & _). cbn in E. exists k, (TDrain (A5 s)), (A5 s), ct. rewrite E. repeat split; auto.
      - destruct (sess_time _ _ _ (A5 s) G A eq_refl) as (ct & E & _). cbn in E. exists k, (TEnd (A5 s)), (A5 s), ct. rewrite E. repeat split; auto. right. repeat split; auto. exists s, dl. auto. }
    (* a token of the new state for an old session time *)
    assert (BACK : forall c m ct d, (m = CExpired ct \/ m = CWill ct) -> token b' c m d -> 
       token b c m d \/ (d = None /\ exists due, token b c m (Some due) /\ due <= b_now b) \/ made e b c m d).
    { intros c m ct d E X. eapply token_back; eauto. destruct E; subst; reflexivity. }
    constructor.
    - (* t_one *)
      intros k1 k2 t1 t2 a1 a2 A1 A2 T1 T2 E.
      destruct (sess_back _ _ _ _ _ _ _ G S A1 T1) as [(u1 & c1 & B1 & U1 & S1)|(x1 & r1 & B1 & -> & _ & L1 & _ & C1 & _)];
      destruct (sess_back _ _ _ _ _ _ _ G S A2 T2) as [(u2 & c2 & B2 & U2 & S2)|(x2 & r2 & B2 & E2 & _ & L2 & _ & C2 & _)].
      + eapply (t_one _ _ T); eauto. unfold asame in *. decompose [and] S1. decompose [and] S2. congruence.
      + destruct (sess_time _ _ _ _ G B1 U1) as (ct & X & L). unfold asame in *. decompose [and] S1. assert (EQ : ct = b_now b) by congruence. lia.
      + destruct (sess_time _ _ _ _ G B2 U2) as (ct & X & L). unfold asame in *. decompose [and] S2. assert (EQ : ct = b_now b) by congruence. lia.
      + congruence.
    - (* t_old *)
      intros c m ct d E X. destruct (BACK _ _ _ _ E X) as [Y|[(-> & due & Y & _)|Y]].
      + pose proof (t_old _ _ T _ _ _ _ E Y). lia.
      + pose proof (t_old _ _ T _ _ _ _ E Y). lia.
      + destruct (MK _ _ _ Y) as (k & t & a & ct' & A & TS & CT & Z). destruct (sess_time _ _ _ _ G A TS) as (ct'' & CT' & L).
        assert (ct = ct') by (destruct E, Z as [Z|Z]; destruct Z as (Z & _); congruence). assert (ct'' = ct') by congruence. lia.
    - (* t_none *)
      intros k t' a' ct c d A TS CN CT X.
      destruct (conn_back _ _ _ _ _ _ _ G S A TS CN) as [(t & a & A0 & T0 & C0 & SA)|(x & r & A0 & -> & _ & L & CT0)].
      + assert (CTa : a_ctime a = Some ct) by (unfold asame in SA; decompose [and] SA; congruence).
        destruct (BACK _ _ _ _ (or_introl eq_refl) X) as [Y|[(-> & due & Y & _)|Y]]; [eapply (t_none _ _ T); eauto|eapply (t_none _ _ T); eauto|].
        destruct (MK _ _ _ Y) as (k1 & t1 & a1 & ct1 & A1 & TS1 & CT1 & [(E1 & -> & -> & _)|(E1 & _)]); [|discriminate].
        assert (k1 = k) by (eapply (t_one _ _ T); eauto; congruence). subst k1.
        destruct (done_drain _ _ _ _ _ G S A1) as [Z|Z]; rewrite A in Z; [discriminate|]. injection Z as ->. discriminate.
      + assert (ct = b_now b) by congruence. subst ct. destruct (BACK _ _ _ _ (or_introl eq_refl) X) as [Y|[(-> & due & Y & _)|Y]]; [exact (NOTE _ L _ _ _ (or_introl eq_refl) Y)|exact (NOTE _ L _ _ _ (or_introl eq_refl) Y)|].
        destruct Y as [(k1 & s1 & E & _)|(k1 & s1 & d1 & E & _)]; discriminate E.
    - (* t_due *)
      intros k t' a' ct c d A TS OF CT X.
      destruct (off_back _ _ _ _ _ _ _ G S A TS OF) as [(t & a & A0 & T0 & O0 & SA & EX & WW)|(a & -> & A0 & -> & -> & EN)].
      + assert (CTa : a_ctime a = Some ct) by (unfold asame in SA; decompose [and] SA; congruence).
        destruct (BACK _ _ _ _ (or_introl eq_refl) X) as [Y|[(-> & due & Y & LE)|Y]].
        * destruct (t_due _ _ T _ _ _ _ _ _ A0 T0 O0 CTa Y) as (p & a0 & I & E & D & EX0 & W0 & TO). exists p, a0. repeat split; auto; [right; auto|congruence|destruct WW as [WW|WW], W0 as [W0|W0]; rewrite WW; auto|eapply tok_ok_mono; eauto].
        * destruct (t_due _ _ T _ _ _ _ _ _ A0 T0 O0 CTa Y) as (p & a0 & I & E & D & EX0 & W0 & TO). exists p, a0. cbn in TO. repeat split; auto; [right; auto|congruence|destruct WW as [WW|WW], W0 as [W0|W0]; rewrite WW; auto|cbn; lia].
        * destruct (MK _ _ _ Y) as (k1 & t1 & a1 & ct1 & A1 & TS1 & CT1 & [(E1 & -> & -> & _)|(E1 & _)]); [|discriminate].
          assert (k1 = k) by (eapply (t_one _ _ T); eauto; congruence). subst k1. rewrite A1 in A0. injection A0 as <-. discriminate.
      + assert (CTa : a_ctime a = Some ct) by (destruct a; auto).
        destruct (BACK _ _ _ _ (or_introl eq_refl) X) as [Y|[(-> & due & Y & LE)|Y]].
        * exfalso. eapply (t_none _ _ T _ _ _ _ c d A0); eauto; reflexivity.
        * exfalso. eapply (t_none _ _ T _ _ _ _ c (Some due) A0); eauto; reflexivity.
        * destruct (MK _ _ _ Y) as (k1 & t1 & a1 & ct1 & A1 & TS1 & CT1 & [(E1 & E & -> & ->)|(E1 & _)]); [|discriminate].
          assert (k1 = k) by (eapply (t_one _ _ T); eauto; congruence). subst k1. rewrite A0 in A1. injection A1 as <-.
          exists (Past b (EDone k) out), a. repeat split; auto; [left; auto|destruct a; auto|left; destruct a; auto].
    - (* t_nowill *)
      intros k t' a' ct c d A TS CN CT X.
      destruct (early_back _ _ _ _ _ _ _ G S A TS CN) as [(t & a & A0 & T0 & C0 & SA)|(x & r & A0 & -> & _ & L & CT0)].
      + assert (CTa : a_ctime a = Some ct) by (unfold asame in SA; decompose [and] SA; congruence).
        destruct (BACK _ _ _ _ (or_intror eq_refl) X) as [Y|[(-> & due & Y & _)|Y]]; [eapply (t_nowill _ _ T); eauto|eapply (t_nowill _ _ T); eauto|].
        destruct (MK _ _ _ Y) as (k1 & t1 & a1 & ct1 & A1 & TS1 & CT1 & [(E1 & _)|(E1 & -> & s & dl & -> & -> & _)]); [discriminate|].
        assert (k1 = k) by (eapply (t_one _ _ T); eauto; congruence). subst k1.
        destruct (end_end _ _ _ _ _ _ G S A1) as [Z|(a2 & Z)]; rewrite A in Z; [discriminate|]. injection Z as ->. discriminate.
      + assert (ct = b_now b) by congruence. subst ct. destruct (BACK _ _ _ _ (or_intror eq_refl) X) as [Y|[(-> & due & Y & _)|Y]]; [exact (NOTE _ L _ _ _ (or_intror eq_refl) Y)|exact (NOTE _ L _ _ _ (or_intror eq_refl) Y)|].
        destruct Y as [(k1 & s1 & E & _)|(k1 & s1 & d1 & E & _)]; discriminate E.
    - (* t_wdue *)
      intros k t' a' ct c d A TS OF CT X.
      destruct (late_step _ _ _ _ _ _ _ G S A TS OF) as [(t & a & A0 & T0 & O0 & SA & _ & _ & WW & _)|(a & -> & A0 & -> & SA & _ & _ & WW)].
      + assert (CTa : a_ctime a = Some ct) by (unfold asame in SA; decompose [and] SA; congruence).
        destruct (BACK _ _ _ _ (or_intror eq_refl) X) as [Y|[(-> & due & Y & LE)|Y]].
        * destruct (t_wdue _ _ T _ _ _ _ _ _ A0 T0 O0 CTa Y) as (p & s & dl & I & E & D & CD & WD & W0 & TO). exists p, s, dl. repeat split; auto; [right; auto|destruct WW as [WW|WW], W0 as [W0|W0]; rewrite WW; auto|eapply tok_ok_mono; eauto].
        * destruct (t_wdue _ _ T _ _ _ _ _ _ A0 T0 O0 CTa Y) as (p & s & dl & I & E & D & CD & WD & W0 & TO). exists p, s, dl. cbn in TO. repeat split; auto; [right; auto|destruct WW as [WW|WW], W0 as [W0|W0]; rewrite WW; auto|cbn; lia].
        * destruct (MK _ _ _ Y) as (k1 & t1 & a1 & ct1 & A1 & TS1 & CT1 & [(E1 & _)|(E1 & -> & s & dl & -> & -> & _)]); [discriminate|].
          assert (k1 = k) by (eapply (t_one _ _ T); eauto; congruence). subst k1. rewrite A1 in A0. injection A0 as <-. discriminate.
      + assert (CTa : a_ctime a = Some ct) by (unfold asame in SA; decompose [and] SA; congruence).
        destruct (BACK _ _ _ _ (or_intror eq_refl) X) as [Y|[(-> & due & Y & LE)|Y]].
        * exfalso. eapply (t_nowill _ _ T _ _ _ _ c d A0); eauto; reflexivity.
        * exfalso. eapply (t_nowill _ _ T _ _ _ _ c (Some due) A0); eauto; reflexivity.
        * destruct (MK _ _ _ Y) as (k1 & t1 & a1 & ct1 & A1 & TS1 & CT1 & [(E1 & _)|(E1 & E & s & dl & -> & -> & CD & WD & ->)]); [discriminate|].
          assert (k1 = k) by (eapply (t_one _ _ T); eauto; congruence). subst k1.
          rewrite A1 in A0. injection A0 as <-. exists (Past b (EEnd k true) out), s, dl. repeat split; auto; [left; auto|]. destruct WW as [(-> & _)|WW]; auto.
  Qed.
  Lemma run_tinv c h b : brun c h b -> tinv h b.
  Proof. induction 1; [apply tinv_new|eapply tinv_step; eauto]. eapply run_good; eauto. Qed.

  (** ** Timers are there as long as they are needed *)
  Lemma expiry_pending c h b k a t : brun c h b -> aget k (b_tasks b) = Some (TOffline a) \/ aget k (b_tasks b) = Some (TOffDrain a false) ->
    a_v5 a = true -> a_ctime a = Some t -> exists d, token b (a_id a) (CExpired t) d.
  Proof.
    intros R. revert a. induction R as [|h b e b' out R IH S]; [intros a [X|X]; discriminate|]. intros a' A' V CT.
    pose proof (run_good _ _ _ _ _ _ R) as G.
    assert (OFF : exists t', aget k (b_tasks b') = Some t' /\ t_sess t' = Some a' /\ t_offline t' = true /\ (t' = TOffline a' \/ t' = TOffDrain a' false)) by (destruct A' as [->| ->]; eauto 8).
    destruct OFF as (t' & A1 & TS & OF & TT).
    destruct (off_back _ _ _ _ _ _ _ G S A1 TS OF) as [(t0 & a & A0 & T0 & O0 & SA & EX & WW)|(a & -> & A0 & -> & -> & EN)].
    - unfold asame in SA. destruct SA as (E1 & E2 & E3 & E4 & E5).
      assert (ST : t0 = TOffline a \/ t0 = TOffDrain a false).
      { destruct t0; try discriminate; cbn in T0; injection T0 as <-; auto. destruct stop; auto.
        pose proof (step_move _ _ _ _ _ _ _ (proj1 G) S k) as M. rewrite A1, A0 in M. inversion M; subst; destruct TT; try discriminate. }
      destruct (IH a) as (d & TK); [destruct ST; subst; auto|congruence|congruence|].
      destruct (token_forth _ _ _ _ _ (CExpired t) _ k t0 (a_ident a) (a_v5 a) G S TK A0) as [(d' & X)|(on & a0 & -> & Y & ID & CV)].
      { destruct ST; subst; reflexivity. }
      { exists d'. congruence. }
      exfalso. assert (t0 = TOffline a /\ a0 = a).
      { destruct ST; subst; destruct on; try discriminate; injection Y as <-; auto. }
      destruct H as (-> & ->). pose proof (step_move _ _ _ _ _ _ _ (proj1 G) S k) as M. rewrite A1, A0 in M.
      pose proof (i_ok _ (proj1 G) _ _ A0) as (CONN & _).
      assert (HC : forall m, head_ctl b (a_id a) m -> m = CExpired t).
      { intros m (ch & q & C1 & C2). rewrite (cv_of _ _ _ C1), C2 in CV. injection CV; intros; auto. }
      destruct TT; subst t'.
      + cbn [BrokerModel.bstep] in S. unfold do_control in S. rewrite A0 in S. destruct (cv_inv _ _ _ _ CV) as (ms & CH). rewrite CH in S.
        destruct a as [s|s]; [|cbn in *; congruence]. cbn [control] in S. cbn in CONN. rewrite CONN in S. cbn [negb andb] in S. cbn in E4, CT. rewrite <- E4, CT, N.eqb_refl in S.
        destruct (send_will _ _ _ _) as [[[[a1 b1] o1] ok]|] eqn:SW; [|discriminate]. destruct (remove_client a1 b1) as [b2|] eqn:RC; [|discriminate].
        inversion S; subst. cbn in A1. rewrite aget_N, N.eqb_refl in A1. discriminate.
      + cbn [BrokerModel.bstep] in S. unfold do_control in S. rewrite A0 in S. destruct (cv_inv _ _ _ _ CV) as (ms & CH). rewrite CH in S.
        destruct a as [s|s]; [|cbn in *; congruence]. cbn [control] in S. cbn in CONN. rewrite CONN in S. cbn [negb andb] in S. cbn in E4, CT. rewrite <- E4, CT, N.eqb_refl in S.
        destruct (send_will _ _ _ _) as [[[[a1 b1] o1] ok]|] eqn:SW; [|discriminate]. destruct (remove_client a1 b1) as [b2|] eqn:RC; [|discriminate].
        inversion S; subst. cbn in A1. rewrite aget_N, N.eqb_refl in A1. discriminate.
    - pose proof (step_smove _ _ _ _ _ _ _ (proj1 G) (proj2 G) S) as SM. destruct a as [s|s]; [|discriminate].
      exists (Some (b_now b + s_expiry s * 1000)). cbn in CT |- *. 
      cbn [BrokerModel.bstep] in S. unfold do_done in S. rewrite A0 in S. destruct (a_bcast (A5 s)); [|discriminate]. rewrite EN in S. destruct (reg_offline _ _); [|discriminate].
      inversion S; subst. cbn. rewrite CT. apply in_or_app. right. left. auto.
  Qed.
End Runs.
