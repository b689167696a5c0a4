(** Properties of runs of the broker: registry, exclusiveness, wills. *)
From Coq Require Import List Bool NArith String Lia.
From Verif Require Import Base BaseLemmas TopicModel MsgModel OutModel RouteModel RetainModel GlobModel Sess5Model Sess3Model ConnModel RegModel BrokerModel
  BrokerSpec FrameProofs CoreProofs BrokerInv TaskMove StepProofs.
Import ListNotations.
Local Open Scope N_scope.

Section Runs.
  Variables (hash5 : wpub5 -> N) (hash3 : wpub3 -> N) (pick : draw -> broker -> string -> string -> N).
  Notation bstep := (bstep hash5 hash3 pick).
  Notation brun := (brun hash5 hash3 pick).
  Notation bgo := (bgo hash5 hash3 pick).

  Definition good (b : broker) : Prop := inv b /\ pres_ok b.
  Lemma good_new c : good (broker_new c).
  Proof. split; [apply inv_new|]. intros k t H. discriminate. Qed.
  Lemma good_step e b b' out : good b -> bstep e b = BOk b' out -> good b'.
  Proof. intros [I P] H. split; [eapply step_inv; eauto|eapply step_pres; eauto]. Qed.
  Lemma run_good c h b : brun c h b -> good b.
  Proof. induction 1; [apply good_new|eapply good_step; eauto]. Qed.
  Lemma go_good b h b' : good b -> bgo b h b' -> good b'.
  Proof. intros G R. induction R; auto. exact (good_step _ _ _ _ (IHR G) H). Qed.
  Lemma run_go c h0 b h b' : brun c h0 b -> bgo b h b' -> brun c (h ++ h0) b'.
  Proof. intros R G. induction G; cbn; auto. econstructor; eauto. Qed.
  Lemma run_split c h1 h2 b : brun c (h1 ++ h2) b -> exists b0, brun c h2 b0 /\ bgo b0 h1 b.
  Proof.
    revert b. induction h1 as [|p h1 IH]; intros b R; cbn in R.
    - exists b. split; auto. constructor.
    - inversion R as [|h b1 e b2 out R1 S1]; subst. destruct (IH _ R1) as (b0 & R0 & G0). exists b0. split; auto. econstructor; eauto.
  Qed.
  Lemma go_split b h1 h2 b' : bgo b (h1 ++ h2) b' -> exists b0, bgo b h2 b0 /\ bgo b0 h1 b'.
  Proof.
    revert b'. induction h1 as [|p h1 IH]; intros b' R; cbn in R.
    - exists b'. split; auto. constructor.
    - inversion R as [|b3 h b1 e b2 out R1 S1]; subst. destruct (IH _ R1) as (b0 & R0 & G0). exists b0. split; auto. econstructor; eauto.
  Qed.
  Lemma go_trans b h1 b1 h2 b2 : bgo b h1 b1 -> bgo b1 h2 b2 -> bgo b (h2 ++ h1) b2.
  Proof. intros A B. induction B; cbn; auto. econstructor; eauto. Qed.
  (** A past state was reached. *)
  Lemma run_past c h b p : brun c h b -> In p h -> exists h1, brun c h1 (w_b p) /\ exists h2, bgo (w_b p) h2 b.
  Proof.
    intros R. induction R as [|h b e b' out R IH S]; [intros []|]. intros [<-|I]; cbn [w_b].
    - exists h. split; auto. exists [Past b e out]. econstructor; [constructor|]. auto.
    - destruct (IH I) as (h1 & R1 & h2 & G). exists h1. split; auto. exists (Past b e out :: h2). econstructor; eauto.
  Qed.

  (** Connection numbers are given out in order. *)
  Lemma step_conns e b b' out : bstep e b = BOk b' out ->
    b_conns b' = b_conns b + match e with EConnect5 _ _ _ _ | EConnect3 _ _ _ => 1 | _ => 0 end.
  Proof.
    intros H. destruct e; cbn [BrokerModel.bstep] in H.
    - destruct (_ <? _); [discriminate|]. unfold add_client in H. destruct (reg_add _ _) as [r []]; inversion H; subst; cbn; lia.
    - destruct (_ <? _); [discriminate|]. unfold add_client in H. destruct (reg_add _ _) as [r []]; inversion H; subst; cbn; lia.
    - unfold do_put in H. destruct (aget k _) as [[]|]; try discriminate. destruct (aget c _); [|discriminate]. destruct (negb _); [|destruct (ctl_room _)]; inversion H; subst; cbn; lia.
    - unfold do_fail in H. destruct (aget k _) as [[]|]; try discriminate.
      + destruct (aget c _) as [ch|]; [|discriminate]. destruct (ch_open ch); inversion H; subst; cbn; lia.
      + inversion H; subst. destruct (close_same (rc_id r) (end_task k b)) as (_&_&_&_&->&_). cbn. lia.
      + inversion H; subst. destruct (close_same (a_id a) (end_task k b)) as (_&_&_&_&->&_). cbn. lia.
    - unfold do_join in H. destruct (_ <=? _); [discriminate|]. destruct (aget k _) as [[| |[] r| | | | | |]|]; try discriminate.
      + destruct (match r with RNew c => Some (RcNew c) | ROld5 st => Some (RcPresent st) | ROld3 _ => None end); [|discriminate].
        destruct (session_connect5 _ _ _ _ _ _) as [[s ack]|]; [|discriminate]. destruct (start_keep_same k (A5 s) b) as (_&_&S3&_).
        destruct (s_connected s); inversion H; subst; [cbn; lia|]. destruct (close_same (s_id s) (end_task k (set_stamp (b_now b) (start_keep k (A5 s) b)))) as (_&_&_&_&->&_). cbn. lia.
      + destruct (match r with RNew c => Some (RcNew3 c) | ROld3 st => Some (RcPresent3 st) | ROld5 _ => None end); [|discriminate].
        destruct (session_connect3 _ _ _) as [s1 ack]. destruct (start_keep_same k (A3 s1) b) as (_&_&S3&_). inversion H; subst; cbn; lia.
    - unfold do_start in H. destruct (aget k _) as [[| | |[]| | | | |]|]; try discriminate; [destruct (pendings5 _ _)|destruct (after_packet3 _ _)]; inversion H; subst; cbn; lia.
    - unfold do_packet5 in H. destruct (aget k _) as [[| | | |[s|s]| | | |]|]; try discriminate. destruct (is_disconnected5 s); [discriminate|].
      destruct (packet_step5 _ _ _ _ _ _ _) as [s1 g o|s1 g|]; inversion H; subst; [destruct (is_disconnected5 s1)|]; cbn; lia.
    - unfold do_packet3 in H. destruct (aget k _) as [[| | | |[s|s]| | | |]|]; try discriminate. destruct (z_disc s); [discriminate|].
      destruct (packet_step3 _ _ _ _ _ _) as [s1 g o|s1 g|]; inversion H; subst; cbn; lia.
    - unfold do_malformed in H. destruct (aget k _) as [[| | | |[s|s]| | | |]|]; try discriminate. destruct (is_disconnected5 s); [discriminate|].
      destruct (error_disconnect _ _ _). inversion H; subst; cbn; lia.
    - unfold do_close in H. destruct (aget k _) as [[| | | |a| | | |]|]; try discriminate. inversion H; subst; cbn; lia.
    - assert (GO : forall on a, match aget (a_id a) (b_chans b) with
        | Some (Chan (m :: r) ms o) => control pick on k a m (set_chan (a_id a) (Chan r ms o) b)
        | _ => BNo
        end = BOk b' out -> b_conns b' = b_conns b + 0).
      { intros on a. destruct (aget (a_id a) (b_chans b)) as [[[|m q] ms o]|]; try discriminate. unfold control, hand_over.
        destruct m, a as [s|s]; try discriminate;
          repeat (match goal with |- context[match ?x with _ => _ end] => lazymatch x with context[match _ with _ => _ end] => fail | _ => destruct x eqn:? end end; try discriminate);
          intros X; inversion X; subst; cbn; try lia.
        all: repeat match goal with H : send_will _ _ _ _ = Some _ |- _ => apply send_will_facts in H; destruct H as (_&_&_&_&_&?&?&->) end;
             repeat match goal with H : remove_client _ _ = Some _ |- _ => apply remove_tasks in H; destruct H as (_&_&_&_&_&H&_) end; cbn in *; lia. }
      unfold do_control in H. destruct (aget k _) as [[| | | |a| | |a|]|]; try discriminate; [apply (GO true a H)|apply (GO false a H)].
    - unfold do_normal in H. destruct (aget k _) as [[| | | |a| | |a|]|]; try discriminate; [destruct (a_disc a); [discriminate|]|];
        (destruct (aget (a_id a) _) as [[? [|? ?] ?]|]; try discriminate; destruct (normal _ _ _ _ _ _); inversion H; subst; cbn; lia).
    - unfold do_flush in H. destruct (aget k _) as [[| | | |a| |a| |a ?]|]; try discriminate;
        (destruct (flush d a b) as [[a1 b1]|] eqn:F; [|discriminate]; destruct (flush_facts _ _ _ _ _ F) as (_ & [->|(ch & ms & C & ->)]); inversion H; subst; cbn; lia).
    - unfold do_end in H. destruct (aget k _) as [[| | | | |a| | |]|]; try discriminate.
      destruct hook; cbn [negb] in H.
      2:{ inversion H; subst. destruct (close_same (a_id a) (end_task k b)) as (_&_&_&_&->&_). cbn. lia. }
      assert (NOW : match send_will pick k a b with
        | None => BPanic
        | Some (a1, b1, out, ok) => if ok then BOk (set_task k (TDrain a1) b1) out else BOk (close (a_id a) (end_task k b1)) (out ++ [OClosed k])%list
        end = BOk b' out -> b_conns b' = b_conns b + 0).
      { destruct (send_will pick k a b) as [[[[a1 b1] o1] ok]|] eqn:SW; [|discriminate].
        destruct (send_will_move _ _ _ _ _ _ _ _ SW) as (SP & (rt & rn & ->) & _). destruct ok; intros X; inversion X; subst; [cbn; lia|].
        destruct (close_same (a_id a) (end_task k (set_tables rt rn b))) as (_&_&_&_&->&_). cbn. lia. }
      destruct a as [s|s].
      + destruct (s_cdisc s); [inversion H; subst; cbn; lia|]. destruct (will_due s) as [d|]; [|apply NOW; auto]. destruct (_ <? _); inversion H; subst; cbn; lia.
      + destruct (z_disc s); [inversion H; subst; cbn; lia|apply NOW; auto].
    - unfold do_done in H. destruct (aget k _) as [[| | | | | |a| |a stop]|]; try discriminate.
      + destruct (a_bcast a); [|discriminate]. destruct (a_ends a).
        { destruct (remove_client a b) as [b1|] eqn:RC; [|discriminate]. inversion H; subst. destruct (close_same (a_id a) (end_task k b1)) as (_&_&_&_&->&_).
          destruct (remove_tasks _ _ _ RC) as (_&_&_&_&_&T&_). cbn. lia. }
        destruct (reg_offline _ _); [|discriminate]. destruct a; inversion H; subst; cbn; lia.
      + destruct (a_bcast a); [|discriminate]. destruct stop; [|inversion H; subst; cbn; lia].
        destruct (remove_client a b) as [b1|] eqn:RC; [|discriminate]. inversion H; subst. destruct (close_same (a_id a) (end_task k b1)) as (_&_&_&_&->&_).
        destruct (remove_tasks _ _ _ RC) as (_&_&_&_&_&T&_). cbn. lia.
    - unfold do_fire in H. destruct (nth_error _ n) as [[c k half due|c t due|c t due|c m]|]; try discriminate.
      + destruct (_ <? _); [discriminate|]. destruct (_ <=? _); [inversion H; subst; cbn; lia|]. destruct (in_list _ _); inversion H; subst; cbn; lia.
      + destruct (_ <? _); [discriminate|]. destruct (in_list _ _); inversion H; subst; cbn; lia.
      + destruct (_ <? _); [discriminate|]. destruct (in_list _ _); inversion H; subst; cbn; lia.
      + destruct (aget c _) as [ch|]; [|discriminate]. destruct (negb _); [inversion H; subst; cbn; lia|]. destruct (ctl_room ch); inversion H; subst; cbn; lia.
    - inversion H; subst. cbn. lia.
  Qed.
  Lemma go_conns b h b' : bgo b h b' -> b_conns b <= b_conns b'.
  Proof. induction 1; [lia|]. apply step_conns in H0. destruct e; lia. Qed.
  Lemma task_num b k t : good b -> aget k (b_tasks b) = Some t -> k < b_conns b.
  Proof. intros [I _] A. eapply (k_num _ _ _ _ _ (i_core _ I)). apply (rl_of _ _ _ A). Qed.

  (** ** Wills *)
  Definition will_at (b : broker) (k : N) : option awill := match aget k (b_tasks b) with Some t => t_will t | None => None end.

  Lemma akept_will a a' : akept a a' -> a_will a' = a_will a.
  Proof. destruct a, a'; cbn; try contradiction; intros (?&?&?&?&W&?); rewrite W; auto. Qed.
  Lemma aspent_will a a' : aspent a a' -> a_will a' = None.
  Proof. destruct a, a'; cbn; try contradiction; intros (?&?&?&?&W&?); rewrite W; auto. Qed.
  Lemma send_ok_cases a : send_ok a = [] \/ exists w, a_will a = Some w /\ send_ok a = [w].
  Proof. unfold send_ok. destruct (a_will a) as [w|]; auto. destruct (aw_ok w); eauto. Qed.

  (** The will stays, is published and gone, or is just gone. *)
  Lemma will_step e b b' out k : good b -> bstep e b = BOk b' out -> k < b_conns b ->
    (wills_of k out = [] /\ (will_at b' k = will_at b k \/ will_at b' k = None)) \/
    (exists w, will_at b k = Some w /\ wills_of k out = [w] /\ will_at b' k = None).
  Proof.
    intros [I P] S L. pose proof (step_move _ _ _ _ _ _ _ I S k) as M. unfold will_at.
    inversion M; subst; try lia; cbn [t_will]; auto 6.
    all: repeat match goal with
      | H : Some _ = aget _ _ |- _ => rewrite <- H in *
      | H : None = aget _ _ |- _ => rewrite <- H in *
      end.
    all: try (left; split; [reflexivity|right; reflexivity]).
    all: try (left; split; [reflexivity|left]; cbn [t_will]; try (apply akept_will; assumption); try reflexivity; fail).
    - left. split; auto. left. cbn [t_will]. eapply joined_will; eauto.
    - left. split; auto. cbn [t_will a_will]. match goal with H : if s_cdisc s' then _ else _ |- _ => rename H into HD end. destruct (s_cdisc s').
      + destruct HD as (W & _). rewrite W. destruct (code =? 0); auto.
      + destruct HD as (W & _). rewrite W. auto.
    - left. split; auto. cbn [t_will a_will]. match goal with H : z_will s' = None |- _ => rewrite H end. auto.
    - destruct (send_ok_cases a) as [E|(w & W & E)]; rewrite E; [left|right]; cbn [t_will]; (match goal with H : aspent _ _ |- _ => rewrite (aspent_will _ _ H) end); eauto.
    - left. split; auto. cbn [t_will]. destruct a; auto.
    - destruct (send_ok_cases a) as [E|(w & W & E)]; rewrite E; [left|right]; cbn [t_will]; (match goal with H : aspent _ _ |- _ => rewrite (aspent_will _ _ H) end); eauto.
    - destruct (send_ok_cases a) as [E|(w & W & E)]; rewrite E; [left|right]; cbn [t_will]; (match goal with H : aspent _ _ |- _ => rewrite (aspent_will _ _ H) end); eauto.
  Qed.

  (** Once gone, it stays gone. *)
  Lemma no_will_later b h b' k : good b -> bgo b h b' -> k < b_conns b -> will_at b k = None -> wills_in k h = [] /\ will_at b' k = None.
  Proof.
    intros G R L W. induction R as [|b0 h b e b' out R IH S]; auto.
    destruct (IH G L W) as [A B]. pose proof (go_conns _ _ _ R). pose proof (go_good _ _ _ G R) as G1.
    destruct (will_step _ _ _ _ k G1 S ltac:(lia)) as [[X [Y|Y]]|(w & Y & _)]; [| |congruence]; split; auto; try congruence;
      unfold wills_in in *; cbn [flat_map w_out]; rewrite X, A; auto.
  Qed.

  Lemma asked_nil_ge c h b : brun c h b -> forall k, b_conns b <= k -> asked_will k h = [].
  Proof.
    induction 1 as [|h b e b' out R IH S]; intros k L; auto.
    unfold asked_will in *. cbn [flat_map]. pose proof (step_conns _ _ _ _ S) as C. rewrite IH by (destruct e; lia).
    unfold connect_will. cbn [w_b w_e]. destruct (N.eqb_spec (b_conns b) k); auto. destruct e; auto; lia.
  Qed.
  Lemma wills_nil_ge c h b : brun c h b -> forall k, b_conns b <= k -> wills_in k h = [].
  Proof.
    induction 1 as [|h b e b' out R IH S]; intros k L; auto.
    pose proof (step_conns _ _ _ _ S) as C. unfold wills_in in *. cbn [flat_map w_out]. rewrite IH by (destruct e; lia). rewrite app_nil_r.
    destruct (run_good _ _ _ R) as [I P]. pose proof (step_move _ _ _ _ _ _ _ I S k) as M.
    assert (N0 : aget k (b_tasks b) = None).
    { destruct (aget k (b_tasks b)) as [t|] eqn:E; auto. pose proof (task_num _ _ _ (run_good _ _ _ R) E). destruct e; lia. }
    rewrite N0 in M. inversion M; subst; auto.
  Qed.

  (** All that happened to the will of connection [k]. *)
  Lemma will_account c h b k : brun c h b ->
    (List.length (asked_will k h) <= 1)%nat /\
    (wills_in k h = [] /\ (will_at b k = None \/ exists w, will_at b k = Some w /\ asked_will k h = [w]) \/
     exists w, wills_in k h = [w] /\ asked_will k h = [w] /\ will_at b k = None).
  Proof.
    induction 1 as [|h b e b' out R IH S]; [cbn; auto|].
    pose proof (run_good _ _ _ R) as G. destruct G as [I P]. pose proof (step_conns _ _ _ _ S) as C.
    unfold asked_will, wills_in in *. cbn [flat_map w_out].
    destruct (N.lt_ge_cases k (b_conns b)) as [L|L].
    - assert (CW : connect_will k (Past b e out) = []).
      { unfold connect_will. cbn [w_b]. destruct (N.eqb_spec (b_conns b) k); auto. lia. }
      rewrite CW. cbn [app]. destruct IH as [LE IH]. split; auto.
      destruct (will_step _ _ _ _ k (conj I P) S L) as [[X Y]|(w & Y & X & Z)]; rewrite X; cbn [app].
      + destruct IH as [[A B]|(w & A & B & D)].
        * left. split; auto. destruct Y as [Y|Y]; auto. rewrite Y. auto.
        * right. exists w. repeat split; auto. destruct Y; congruence.
      + destruct IH as [[A [B|(w' & B & D)]]|(w' & A & B & D)]; try congruence. right. exists w. rewrite A. assert (w' = w) by congruence. subst. auto.
    - pose proof (asked_nil_ge _ _ _ R k L) as AN. pose proof (wills_nil_ge _ _ _ R k L) as WN. unfold asked_will, wills_in in AN, WN. rewrite AN, WN, !app_nil_r.
      assert (WS : wills_of k out = []).
      { pose proof (step_move _ _ _ _ _ _ _ I S k) as M. assert (N0 : aget k (b_tasks b) = None).
        { destruct (aget k (b_tasks b)) as [t|] eqn:E; auto. pose proof (task_num _ _ _ (conj I P) E). lia. }
        rewrite N0 in M. inversion M; subst; auto. }
      rewrite WS. split.
      + unfold connect_will. destruct (_ =? _); auto. cbn [w_e]. destruct e; auto; cbn.
        * destruct (co_will p); cbn; auto.
        * destruct (c3_will p); cbn; auto.
      + left. split; auto. pose proof (step_move _ _ _ _ _ _ _ I S k) as M.
        assert (N0 : aget k (b_tasks b) = None).
        { destruct (aget k (b_tasks b)) as [t|] eqn:E; auto. pose proof (task_num _ _ _ (conj I P) E). lia. }
        rewrite N0 in M. unfold will_at. assert (KX : forall x, k = b_conns b -> connecting b e x -> p_will x = None \/ exists w, p_will x = Some w /\ connect_will k (Past b e out) = [w]).
        { intros x -> [(t0 & uuid & p & data & -> & _ & ->)|(t0 & uuid & p & -> & _ & ->)]; unfold connect_will; cbn [w_b w_e]; rewrite N.eqb_refl; cbn.
          - destruct (co_will p); cbn; eauto.
          - destruct (c3_will p); cbn; eauto. }
        inversion M; subst; auto; cbn [t_will]; apply KX; auto.
  Qed.

  (** ** Identity of a connection *)
  Lemma connecting_asks b e x : connecting b e x -> asks e = Some (p_ident x).
  Proof.
    intros [(t0 & uuid & p & data & -> & _ & ->)|(t0 & uuid & p & -> & _ & ->)]; cbn; [|reflexivity].
    destruct (String.eqb (co_ident p) ""); reflexivity.
  Qed.
  Lemma joined_facts b x r a o j : pre_ok x -> joined b x r a o j ->
    a_ident a = p_ident x /\ a_v5 a = p_v5 x /\ a_id a = rc_id r /\ a_ctime a = Some (b_now b) /\ a_conn a = true.
  Proof.
    destruct x; cbn.
    - intros (P & _) (rc & s & ack & R & S & SC & -> & _). destruct (session_connect5_facts _ _ _ _ _ _ _ S) as (F1 & F2 & _ & F4 & _). cbn. repeat split; auto.
      + rewrite F1. destruct r; inversion R; subst; reflexivity.
      + destruct (ka_code ack =? RC_success); [apply F4|congruence].
    - intros _ (rc & s' & ack & R & S & -> & _). destruct (session_connect3_facts _ _ _ _ _ S) as (F1 & F2 & _ & F4 & F5 & _). cbn. repeat split; auto.
      rewrite F1. destruct r; inversion R; subst; reflexivity.
  Qed.
End Runs.
