(** Runs of the broker: keep-alive timers. *)
From Coq Require Import List Bool NArith String Lia.
From Verif Require Import Base BaseLemmas TopicModel MsgModel OutModel RouteModel RetainModel GlobModel Sess5Model Sess3Model ConnModel RegModel BrokerModel
  BrokerSpec FrameProofs CoreProofs BrokerInv TaskMove StepProofs RunProofs RegProofs TimeProofs WillProofs.
Import ListNotations.
Local Open Scope N_scope.

(** The connection has not begun to end. *)

Section Runs.
  Variables (hash5 : wpub5 -> N) (hash3 : wpub3 -> N) (pick : draw -> broker -> string -> string -> N).
  Notation bstep := (bstep hash5 hash3 pick).
  Notation brun := (brun hash5 hash3 pick).
  Notation bgo := (bgo hash5 hash3 pick).

  (** What a step does to [b_last], and to the connections that go on. *)
  Definition last_ok (e : bev) (b b' : broker) (out : list bout) (k : N) : Prop :=
    (aget k (b_last b') = match heard_now k (Past b e out) with Some t => Some t | None => aget k (b_last b) end \/
     (aget k (b_last b') = aget k (b_last b) /\ forall t, aget k (b_tasks b') = Some t -> t_going t = false)) /\
    (forall t', aget k (b_tasks b') = Some t' -> t_going t' = true -> aget k (b_tasks b) = None \/ exists t, aget k (b_tasks b) = Some t /\ t_going t = true).

  Lemma last_same e b b' out k : heard_now k (Past b e out) = None -> b_last b' = b_last b ->
    (forall t', aget k (b_tasks b') = Some t' -> aget k (b_tasks b) = Some t' \/ t_going t' = false \/ aget k (b_tasks b) = None \/ exists t, aget k (b_tasks b) = Some t /\ t_going t = true) ->
    last_ok e b b' out k.
  Proof.
    intros H L T. split; [left; rewrite H, L; auto|]. intros t' A G. destruct (T _ A) as [X|[X|[X|X]]]; auto; [eauto|congruence].
  Qed.
  Lemma set_task_back b t k0 k t' : aget k (aset k0 t (b_tasks b)) = Some t' -> k <> k0 /\ aget k (b_tasks b) = Some t' \/ k = k0 /\ t' = t.
  Proof. rewrite aget_N. destruct (N.eqb_spec k k0); intros H; [right|left]; auto. injection H as <-. auto. Qed.
  Lemma end_task_back b k0 k t' : NoDup (keys (b_tasks b)) -> aget k (adel k0 (b_tasks b)) = Some t' -> aget k (b_tasks b) = Some t'.
  Proof. intros ND. rewrite adel_N by auto. destruct (k =? k0); [discriminate|auto]. Qed.

  Lemma step_last e b b' out k : good b -> bstep e b = BOk b' out -> last_ok e b b' out k.
  Proof.
    intros [I P]. pose proof I as [K TN CN OK]. destruct e; cbn [BrokerModel.bstep].
    - destruct (_ <? _); [discriminate|]. unfold add_client. destruct (reg_add _ _) as [r []]; [| |discriminate]; intros S; inversion S; subst;
        (split; [left; cbn; rewrite aget_N, (N.eqb_sym (b_conns b)); destruct (k =? b_conns b); reflexivity|]); intros t' A G0; cbn in A; apply (set_task_back b) in A; destruct A as [(_ & A)|(-> & _)]; eauto;
        left; (destruct (aget (b_conns b) (b_tasks b)) as [t|] eqn:E; auto; pose proof (task_num _ _ _ (conj I P) E); lia).
    - destruct (_ <? _); [discriminate|]. unfold add_client. destruct (reg_add _ _) as [r []]; [| |discriminate]; intros S; inversion S; subst;
        (split; [left; cbn; rewrite aget_N, (N.eqb_sym (b_conns b)); destruct (k =? b_conns b); reflexivity|]); intros t' A G0; cbn in A; apply (set_task_back b) in A; destruct A as [(_ & A)|(-> & _)]; eauto;
        left; (destruct (aget (b_conns b) (b_tasks b)) as [t|] eqn:E; auto; pose proof (task_num _ _ _ (conj I P) E); lia).
    - unfold do_put. destruct (aget k0 (b_tasks b)) as [[x c| | | | | | | |]|] eqn:A; try discriminate. destruct (aget c _); [|discriminate].
      destruct (negb _); [|destruct (ctl_room _); [|discriminate]]; intros S; inversion S; subst; apply last_same; auto; cbn; intros t' A'.
      + apply end_task_back in A'; auto.
      + apply set_task_back in A'. destruct A' as [(_ & ?)|(-> & ->)]; eauto 8.
    - unfold do_fail. destruct (aget k0 (b_tasks b)) as [[| x c|x r|a| | | | |]|] eqn:A; try discriminate.
      + destruct (aget c _) as [ch|]; [|discriminate]. destruct (ch_open ch); [discriminate|]. intros S; inversion S; subst; apply last_same; auto; cbn; intros t' A'. apply end_task_back in A'; auto.
      + intros S; inversion S; subst; apply last_same; auto; [destruct (close_same (rc_id r) (end_task k0 b)) as (_&_&_&_&_&->&_); auto|]. rewrite tasks_close. cbn. intros t' A'. apply end_task_back in A'; auto.
      + intros S; inversion S; subst; apply last_same; auto; [destruct (close_same (a_id a) (end_task k0 b)) as (_&_&_&_&_&->&_); auto|]. rewrite tasks_close. cbn. intros t' A'. apply end_task_back in A'; auto.
    - unfold do_join. destruct (_ <=? _); [discriminate|]. destruct (aget k0 (b_tasks b)) as [[| |[cn data|s0] r| | | | | |]|] eqn:A; try discriminate.
      + destruct (match r with RNew c => Some (RcNew c) | ROld5 st => Some (RcPresent st) | ROld3 _ => None end); [|discriminate].
        destruct (session_connect5 _ _ _ _ _ _) as [[s ack]|]; [|discriminate].
        assert (SK : b_last (start_keep k0 (A5 s) b) = b_last b /\ b_tasks (start_keep k0 (A5 s) b) = b_tasks b) by (unfold start_keep; destruct (_ <? _); auto). destruct SK as (SK1 & SK2).
        destruct (s_connected s); intros S; inversion S; subst; apply last_same; auto.
        * cbn. rewrite SK2. intros t' A'. apply set_task_back in A'. destruct A' as [(_ & ?)|(-> & ->)]; eauto 8.
        * destruct (close_same (s_id s) (end_task k0 (set_stamp (b_now b) (start_keep k0 (A5 s) b)))) as (_&_&_&_&_&->&_). auto.
        * rewrite tasks_close. cbn. rewrite SK2. intros t' A'. apply end_task_back in A'; auto.
      + destruct (match r with RNew c => Some (RcNew3 c) | ROld3 st => Some (RcPresent3 st) | ROld5 _ => None end); [|discriminate].
        destruct (session_connect3 _ _ _) as [s ack].
        assert (SK : b_last (start_keep k0 (A3 s) b) = b_last b /\ b_tasks (start_keep k0 (A3 s) b) = b_tasks b) by (unfold start_keep; destruct (_ <? _); auto). destruct SK as (SK1 & SK2).
        intros S; inversion S; subst; apply last_same; auto. cbn. rewrite SK2. intros t' A'. apply set_task_back in A'. destruct A' as [(_ & ?)|(-> & ->)]; eauto 8.
    - unfold do_start. destruct (aget k0 (b_tasks b)) as [[| | |[s|s]| | | | |]|] eqn:A; try discriminate; [destruct (pendings5 _ _) as [s1 o]|destruct (after_packet3 _ _) as [s1 o]];
        intros S; inversion S; subst; (split; [left; cbn; rewrite aget_N, (N.eqb_sym k0); destruct (k =? k0); reflexivity|]); cbn; intros t' A' G0; apply set_task_back in A'; destruct A' as [(_ & ?)|(-> & ->)]; eauto 8.
    - unfold do_packet5. destruct (aget k0 (b_tasks b)) as [[| | | |[s|s]| | | |]|] eqn:A; try discriminate. destruct (is_disconnected5 s) eqn:D; [discriminate|].
      destruct (packet_step5 _ _ _ _ _ _ _) as [s1 g o|s1 g|]; [| |discriminate]; intros S; inversion S; subst.
      + destruct (is_disconnected5 s1) eqn:D1; split; cbn.
        * destruct (N.eqb_spec k0 k) as [->|]; auto. right. split; auto. intros t A'. apply set_task_back in A'. destruct A' as [(? & _)|(_ & ->)]; [congruence|]. cbn. rewrite D1. auto.
        * intros t' A' G0. apply set_task_back in A'. destruct A' as [(_ & ?)|(-> & ->)]; eauto. right. eexists; split; [eassumption|]. cbn. rewrite D. auto.
        * left. rewrite aget_N, (N.eqb_sym k0). destruct (k =? k0); reflexivity.
        * intros t' A' G0. apply set_task_back in A'. destruct A' as [(_ & ?)|(-> & ->)]; eauto. right. eexists; split; [eassumption|]. cbn. rewrite D. auto.
      + split; cbn.
        * destruct (N.eqb_spec k0 k) as [->|]; auto. right. split; auto. intros t A'. apply set_task_back in A'. destruct A' as [(? & _)|(_ & ->)]; [congruence|]. auto.
        * intros t' A' G0. apply set_task_back in A'. destruct A' as [(_ & ?)|(-> & ->)]; eauto. discriminate.
    - unfold do_packet3. destruct (aget k0 (b_tasks b)) as [[| | | |[s|s]| | | |]|] eqn:A; try discriminate. destruct (z_disc s) eqn:D; [discriminate|].
      destruct (packet_step3 _ _ _ _ _ _) as [s1 g o|s1 g|]; [| |discriminate]; intros S; inversion S; subst.
      + split; cbn.
        * left. rewrite aget_N, (N.eqb_sym k0). destruct (k =? k0); reflexivity.
        * intros t' A' G0. apply set_task_back in A'. destruct A' as [(_ & ?)|(-> & ->)]; eauto. right. eexists; split; [eassumption|]. cbn. rewrite D. auto.
      + split; cbn.
        * destruct (N.eqb_spec k0 k) as [->|]; auto. right. split; auto. intros t A'. apply set_task_back in A'. destruct A' as [(? & _)|(_ & ->)]; [congruence|]. auto.
        * intros t' A' G0. apply set_task_back in A'. destruct A' as [(_ & ?)|(-> & ->)]; eauto. discriminate.
    - unfold do_malformed. destruct (aget k0 (b_tasks b)) as [[| | | |[s|s]| | | |]|] eqn:A; try discriminate. destruct (is_disconnected5 s) eqn:D; [discriminate|].
      destruct (error_disconnect _ _ _) as [s1 p]. intros S; inversion S; subst; apply last_same; auto. cbn. intros t' A'. apply set_task_back in A'. destruct A' as [(_ & ?)|(-> & ->)]; auto.
      right. right. right. eexists; split; [eassumption|]. cbn. rewrite D. auto.
    - unfold do_close. destruct (aget k0 (b_tasks b)) as [[| | | |a| | | |]|] eqn:A; try discriminate. intros S; inversion S; subst; apply last_same; auto. cbn. intros t' A'.
      apply set_task_back in A'. destruct A' as [(_ & ?)|(-> & ->)]; auto.
    - assert (GO : forall (on : bool) a, aget k0 (b_tasks b) = Some (if on then TOnline a else TOffline a) -> match aget (a_id a) (b_chans b) with
        | Some (Chan (m :: r) ms o) => control pick on k0 a m (set_chan (a_id a) (Chan r ms o) b)
        | _ => BNo
        end = BOk b' out -> last_ok (EControl k0) b b' out k).
      { intros on a A. destruct (aget (a_id a) (b_chans b)) as [[[|m q] ms o]|]; try discriminate.
        set (b0 := set_chan _ _ b).
        assert (STAY : forall b1 t' o', b_last b1 = b_last b -> b_tasks b1 = b_tasks b -> BOk (set_task k0 t' b1) o' = BOk b' out -> (t_going t' = false \/ aget k0 (b_tasks b) = Some t') -> last_ok (EControl k0) b b' out k).
        { intros b1 t0 o' L1 T1 X Y. inversion X; subst. apply last_same; auto. cbn. rewrite T1. intros t' A'. apply set_task_back in A'. destruct A' as [(_ & ?)|(-> & ->)]; auto. destruct Y; auto. }
        assert (HAND : forall b1 j x r, b_last b1 = b_last b -> b_tasks b1 = b_tasks b -> aget j (b_tasks b) = Some (TReply x (a_id a)) \/ (exists c, aget j (b_tasks b) = Some (TReply x c)) ->
          hand_over k0 j x r b1 = BOk b' out -> last_ok (EControl k0) b b' out k).
        { intros b1 j x r L1 T1 J X. unfold hand_over in X. inversion X; subst. apply last_same; auto. cbn. rewrite T1. intros t' A'. rewrite aget_N in A'. destruct (N.eqb_spec k j) as [->|].
          - right. right. right. destruct J as [J|(c & J)]; eexists; split; eauto.
          - apply end_task_back in A'; auto. }
        assert (REF : forall j x' t', (aget j (b_tasks b) = x') -> t_going t' = false \/ aget k0 (b_tasks b) = Some t' -> BOk (set_task k0 t' (end_task j b0)) [OClosed j] = BOk b' out -> last_ok (EControl k0) b b' out k).
        { intros j x' t0 _ Y X. inversion X; subst. apply last_same; auto. cbn. intros t' A'. rewrite aget_N in A'. destruct (N.eqb_spec k k0) as [->|].
          - injection A' as <-. destruct Y; auto.
          - apply end_task_back in A'; auto. }
        assert (SW : forall a1 b1 o1 ok, send_will pick k0 a b0 = Some (a1, b1, o1, ok) -> b_last b1 = b_last b /\ b_tasks b1 = b_tasks b).
        { intros a1 b1 o1 ok X. destruct (send_will_move _ _ _ _ _ _ _ _ X) as (_ & (rt & rn & ->) & _). auto. }
        unfold control. destruct m, a as [s|s]; try discriminate.
        - change (b_tasks b0) with (b_tasks b). destruct (aget k1 (b_tasks b)) as [[]|] eqn:J; try discriminate. apply HAND; eauto.
        - intros X. eapply REF; [reflexivity| |exact X]. rewrite A. destruct on; auto.
        - intros X. eapply REF; [reflexivity| |exact X]. rewrite A. destruct on; auto.
        - change (b_tasks b0) with (b_tasks b). destruct (aget k1 (b_tasks b)) as [[]|] eqn:J; try discriminate. destruct (aget (z_id s) (b_chans b0)) as [ch|]; [|discriminate].
          destruct on; apply HAND; eauto.
        - destruct on; intros X; (eapply STAY; [| |exact X|]; auto; rewrite ?A; auto).
        - destruct on; intros X; (eapply STAY; [| |exact X|]; auto; rewrite ?A; auto).
        - destruct (_ && _).
          + destruct (send_will pick k0 (A5 s) b0) as [[[[a1 b1] o1] ok]|] eqn:W; [|discriminate]. destruct (SW _ _ _ _ eq_refl) as (W1 & W2). destruct (remove_client a1 b1) as [b2|] eqn:RC; [|discriminate].
            apply remove_tasks in RC. destruct RC as (R1&_&_&_&_&_&R2&_). intros X. eapply STAY; [| |exact X|]; auto; congruence.
          + intros X. eapply STAY; [| |exact X|]; auto. rewrite A. destruct on; auto.
        - destruct (_ && _).
          + destruct (send_will pick k0 (A5 s) b0) as [[[[a1 b1] o1] ok]|] eqn:W; [|discriminate]. destruct (SW _ _ _ _ eq_refl) as (W1 & W2). intros X. eapply STAY; [| |exact X|]; auto.
          + intros X. eapply STAY; [| |exact X|]; auto. rewrite A. destruct on; auto. }
      unfold do_control. destruct (aget k0 (b_tasks b)) as [[| | | |a| | |a|]|] eqn:A; try discriminate; [apply (GO true a eq_refl)|apply (GO false a eq_refl)].
    - unfold do_normal. destruct (aget k0 (b_tasks b)) as [[| | | |a| | |a|]|] eqn:A; try discriminate; [destruct (a_disc a) eqn:D; [discriminate|]|];
        (destruct (aget (a_id a) _) as [[? [|? ?] ?]|]; try discriminate; destruct (normal _ _ _ _ _ _) as [a1 o1]; intros S; inversion S; subst; apply last_same; auto; cbn; intros t' A';
         apply set_task_back in A'; destruct A' as [(_ & ?)|(-> & ->)]; auto).
      right. right. right. eexists; split; [eassumption|]. cbn. rewrite D. auto.
    - unfold do_flush. destruct (aget k0 (b_tasks b)) as [[| | | |a| |a| |a st]|] eqn:A; try discriminate;
        (destruct (flush d a b) as [[a1 b1]|] eqn:F; [|discriminate]; assert (FX : a_disc a1 = a_disc a /\ b_last b1 = b_last b /\ b_tasks b1 = b_tasks b);
         [unfold flush in F; destruct (aget d (a_bcast a)) as [[|m ms]|]; [inversion F; subst; destruct a; auto| |destruct (aget d (b_chans b)); discriminate];
          destruct (aget d (b_chans b)) as [ch|]; [|discriminate]; destruct (negb (ch_open ch)); [inversion F; subst; destruct a; auto|]; destruct (norm_room ch); [|discriminate]; inversion F; subst; destruct a; auto|];
         destruct FX as (F1 & F2 & F3); intros S; inversion S; subst; apply last_same; auto; cbn; rewrite F3; intros t' A'; apply set_task_back in A'; destruct A' as [(_ & ?)|(-> & ->)]; auto).
      destruct (a_disc a) eqn:D; [right; left; cbn; rewrite F1; auto|]. right. right. right. eexists; split; [eassumption|]. cbn. rewrite D. auto.
    - unfold do_end. destruct (aget k0 (b_tasks b)) as [[| | | | |a| | |]|] eqn:A; try discriminate.
      destruct hook; cbn [negb].
      2:{ intros S; inversion S; subst; apply last_same; auto; [destruct (close_same (a_id a) (end_task k0 b)) as (_&_&_&_&_&->&_); auto|]. rewrite tasks_close. cbn. intros t' A'. apply end_task_back in A'; auto. }
      assert (DR : forall b1 a1 o, b_last b1 = b_last b -> b_tasks b1 = b_tasks b -> BOk (set_task k0 (TDrain a1) b1) o = BOk b' out -> last_ok (EEnd k0 true) b b' out k).
      { intros b1 a1 o L1 T1 X. inversion X; subst. apply last_same; auto. cbn. rewrite T1. intros t' A'. apply set_task_back in A'. destruct A' as [(_ & ?)|(-> & ->)]; auto. }
      assert (NOW : match send_will pick k0 a b with
        | None => BPanic
        | Some (a1, b1, out, ok) => if ok then BOk (set_task k0 (TDrain a1) b1) out else BOk (close (a_id a) (end_task k0 b1)) (out ++ [OClosed k0])%list
        end = BOk b' out -> last_ok (EEnd k0 true) b b' out k).
      { destruct (send_will pick k0 a b) as [[[[a1 b1] o1] ok]|] eqn:SW; [|discriminate].
        destruct (send_will_move _ _ _ _ _ _ _ _ SW) as (SP & (rt & rn & ->) & _). destruct ok; [apply DR; auto|]. intros X; inversion X; subst. apply last_same; auto.
        - destruct (close_same (a_id a) (end_task k0 (set_tables rt rn b))) as (_&_&_&_&_&->&_). auto.
        - rewrite tasks_close. cbn. intros t' A'. apply end_task_back in A'; auto. }
      destruct a as [s|s].
      + destruct (s_cdisc s); [apply DR; auto|]. destruct (will_due s) as [d|]; [|apply NOW; auto]. apply DR; destruct (_ <? _); auto.
      + destruct (z_disc s); [apply DR; auto|apply NOW; auto].
    - unfold do_done. destruct (aget k0 (b_tasks b)) as [[| | | | | |a| |a stop]|] eqn:A; try discriminate.
      + destruct (a_bcast a); [|discriminate]. destruct (a_ends a).
        { destruct (remove_client a b) as [b1|] eqn:RC; [|discriminate]. apply remove_tasks in RC. destruct RC as (R1&_&_&_&_&_&R2&_). intros S; inversion S; subst. apply last_same; auto.
          - destruct (close_same (a_id a) (end_task k0 b1)) as (_&_&_&_&_&->&_). auto.
          - rewrite tasks_close. cbn. rewrite R1. intros t' A'. apply end_task_back in A'; auto. }
        destruct (reg_offline _ _); [|discriminate]. destruct a; intros S; inversion S; subst; apply last_same; auto; cbn; intros t' A'; apply set_task_back in A'; destruct A' as [(_ & ?)|(-> & ->)]; auto.
      + destruct (a_bcast a); [|discriminate]. destruct stop.
        { destruct (remove_client a b) as [b1|] eqn:RC; [|discriminate]. apply remove_tasks in RC. destruct RC as (R1&_&_&_&_&_&R2&_). intros S; inversion S; subst. apply last_same; auto.
          - destruct (close_same (a_id a) (end_task k0 b1)) as (_&_&_&_&_&->&_). auto.
          - rewrite tasks_close. cbn. rewrite R1. intros t' A'. apply end_task_back in A'; auto. }
        intros S; inversion S; subst; apply last_same; auto; cbn; intros t' A'; apply set_task_back in A'; destruct A' as [(_ & ?)|(-> & ->)]; auto.
    - intros S. assert (X : b_last b' = b_last b /\ b_tasks b' = b_tasks b).
      { unfold do_fire in S. destruct (nth_error _ n) as [[c k0 half due|c t due|c t due|c m]|]; try discriminate.
        + destruct (_ <? _); [discriminate|]. destruct (_ <=? _); [inversion S; subst; auto|]. destruct (in_list _ _); inversion S; subst; auto.
        + destruct (_ <? _); [discriminate|]. destruct (in_list _ _); inversion S; subst; auto.
        + destruct (_ <? _); [discriminate|]. destruct (in_list _ _); inversion S; subst; auto.
        + destruct (aget c _) as [ch|]; [|discriminate]. destruct (negb _); [inversion S; subst; auto|]. destruct (ctl_room ch); inversion S; subst; auto. }
      destruct X as (X1 & X2). apply last_same; auto. rewrite X2. auto.
    - intros S; inversion S; subst. apply last_same; auto.
  Qed.

  (** ** Keep-alive timers *)
  Lemma remove_timers a b b' : remove_client a b = Some b' -> b_timers b' = b_timers b.
  Proof. intros R. apply remove_tasks in R. apply R. Qed.
  Lemma close_timers c b : b_timers (close c b) = b_timers b. Proof. apply (close_same c b). Qed.
  Lemma send_will_timers k a b a1 b1 out ok : send_will pick k a b = Some (a1, b1, out, ok) -> b_timers b1 = b_timers b.
  Proof. intros W. destruct (send_will_move _ _ _ _ _ _ _ _ W) as (_ & (rt & rn & ->) & _). reflexivity. Qed.
  Lemma flush_timers d a b a1 b1 : flush d a b = Some (a1, b1) -> b_timers b1 = b_timers b.
  Proof.
    unfold flush. destruct (aget d (a_bcast a)) as [[|m ms]|]; [intros F; inversion F; auto| |destruct (aget d (b_chans b)); discriminate].
    destruct (aget d (b_chans b)) as [ch|]; [|discriminate]. destruct (negb (ch_open ch)); [intros F; inversion F; subst; auto|]. destruct (norm_room ch); [|discriminate]. intros F; inversion F; subst; auto.
  Qed.

  Lemma keep_new e b b' out c k half due : good b -> bstep e b = BOk b' out -> In (IKeep c k half due) (b_timers b') ->
    In (IKeep c k half due) (b_timers b) \/
    (exists n due0, e = EFire n /\ nth_error (b_timers b) n = Some (IKeep c k half due0) /\ due = b_now b + half /\
       b_now b - match aget k (b_last b) with Some t => t | None => 0 end <= half * 3) \/
    (e = EJoin k /\ due = b_now b /\ exists x r, aget k (b_tasks b) = Some (TJoin x r) /\ c = rc_id r /\
       ((exists a, aget k (b_tasks b') = Some (TReady a) /\ a_id a = c /\ half = a_keep a * 500) \/ aget k (b_tasks b') = None)).
  Proof.
    intros [I P] S H.
    assert (OUT : b_timers b' = b_timers b -> In (IKeep c k half due) (b_timers b)) by congruence.
    assert (OUT1 : forall i, (forall c k half due, i <> IKeep c k half due) -> b_timers b' = (b_timers b ++ [i])%list -> In (IKeep c k half due) (b_timers b)).
    { intros i NI E. rewrite E in H. apply in_app_or in H. destruct H as [H|[H|[]]]; auto. exfalso. eapply NI; eauto. }
    destruct e; cbn [BrokerModel.bstep] in S.
    - left. apply OUT. destruct (_ <? _); [discriminate|]. unfold add_client in S. destruct (reg_add _ _) as [r []]; inversion S; subst; reflexivity.
    - left. apply OUT. destruct (_ <? _); [discriminate|]. unfold add_client in S. destruct (reg_add _ _) as [r []]; inversion S; subst; reflexivity.
    - left. apply OUT. unfold do_put in S. destruct (aget k0 (b_tasks b)) as [[x d| | | | | | | |]|]; try discriminate. destruct (aget d _); [|discriminate].
      destruct (negb _); [|destruct (ctl_room _); [|discriminate]]; inversion S; subst; reflexivity.
    - left. apply OUT. unfold do_fail in S. destruct (aget k0 (b_tasks b)) as [[| x d|x r|a| | | | |]|]; try discriminate.
      + destruct (aget d _) as [ch|]; [|discriminate]. destruct (ch_open ch); [discriminate|]. inversion S; subst; reflexivity.
      + inversion S; subst. rewrite close_timers; reflexivity.
      + inversion S; subst. rewrite close_timers; reflexivity.
    - unfold do_join in S. destruct (_ <=? _); [discriminate|]. destruct (aget k0 (b_tasks b)) as [[| |[cn data|s0] r| | | | | |]|] eqn:A; try discriminate.
      + destruct (match r with RNew c => Some (RcNew c) | ROld5 st => Some (RcPresent st) | ROld3 _ => None end) as [rc|] eqn:RC; [|discriminate].
        destruct (session_connect5 _ _ _ _ _ _) as [[s ack]|] eqn:SC; [|discriminate]. pose proof (session_connect5_facts _ _ _ _ _ _ _ SC) as (F1 & _).
        assert (F0 : s_id s = rc_id r) by (rewrite F1; destruct r; inversion RC; subst; reflexivity).
        assert (ST : b_timers b' = b_timers (start_keep k0 (A5 s) b)) by (destruct (s_connected s); inversion S; subst; [reflexivity|rewrite close_timers; reflexivity]).
        rewrite ST in H. unfold start_keep in H. cbn [a_keep a_id] in H. destruct (0 <? s_keep s); [|left; exact H]. apply in_app_or in H. destruct H as [H|[H|[]]]; [left; auto|]. right. right.
        inversion H; subst c k0 half due. repeat split. exists (B5 cn data), r. split; auto. split; auto.
        assert (TK : b_tasks (start_keep k (A5 s) b) = b_tasks b) by (unfold start_keep; destruct (0 <? _); reflexivity).
        destruct (s_connected s); inversion S; subst.
        * left. exists (A5 s). cbn. rewrite TK, aget_aset_eq. auto.
        * right. rewrite tasks_close. cbn. rewrite TK. apply aget_adel_eq. apply (i_tnd _ I).
      + destruct (match r with RNew c => Some (RcNew3 c) | ROld3 st => Some (RcPresent3 st) | ROld5 _ => None end) as [rc|] eqn:RC; [|discriminate].
        destruct (session_connect3 _ _ _) as [s ack] eqn:SC. pose proof (session_connect3_facts _ _ _ _ _ SC) as (F1 & _).
        assert (F0 : z_id s = rc_id r) by (rewrite F1; destruct r; inversion RC; subst; reflexivity).
        inversion S; subst b' out. cbn in H. unfold start_keep in H. cbn [a_keep a_id] in H. destruct (0 <? z_keep s); [|left; exact H]. apply in_app_or in H. destruct H as [H|[H|[]]]; [left; auto|]. right. right.
        inversion H; subst c k0 half due. repeat split. exists (B3 s0), r. split; auto. split; auto.
        left. exists (A3 s). cbn. rewrite aget_aset_eq. auto.
    - left. apply OUT. unfold do_start in S. destruct (aget k0 (b_tasks b)) as [[| | |[s|s]| | | | |]|]; try discriminate; [destruct (pendings5 _ _) as [s1 o]|destruct (after_packet3 _ _) as [s1 o]]; inversion S; reflexivity.
    - left. apply OUT. unfold do_packet5 in S. destruct (aget k0 (b_tasks b)) as [[| | | |[s|s]| | | |]|]; try discriminate. destruct (is_disconnected5 s); [discriminate|].
      destruct (packet_step5 _ _ _ _ _ _ _) as [s1 g o|s1 g|]; [destruct (is_disconnected5 s1)| |discriminate]; inversion S; reflexivity.
    - left. apply OUT. unfold do_packet3 in S. destruct (aget k0 (b_tasks b)) as [[| | | |[s|s]| | | |]|]; try discriminate. destruct (z_disc s); [discriminate|].
      destruct (packet_step3 _ _ _ _ _ _) as [s1 g o|s1 g|]; [| |discriminate]; inversion S; reflexivity.
    - left. apply OUT. unfold do_malformed in S. destruct (aget k0 (b_tasks b)) as [[| | | |[s|s]| | | |]|]; try discriminate. destruct (is_disconnected5 s); [discriminate|].
      destruct (error_disconnect _ _ _). inversion S; reflexivity.
    - left. apply OUT. unfold do_close in S. destruct (aget k0 (b_tasks b)) as [[| | | |a| | | |]|]; try discriminate. inversion S; reflexivity.
    - left. apply OUT.
      assert (GO : forall (on : bool) a, match aget (a_id a) (b_chans b) with
        | Some (Chan (m :: r) ms o) => control pick on k0 a m (set_chan (a_id a) (Chan r ms o) b)
        | _ => BNo
        end = BOk b' out -> b_timers b' = b_timers b).
      { intros on a. destruct (aget (a_id a) (b_chans b)) as [[[|m q] ms o]|]; try discriminate. set (b0 := set_chan _ _ b). change (b_timers b) with (b_timers b0). clearbody b0.
        unfold control. destruct m, a as [s|s]; try discriminate.
        - destruct (aget _ (b_tasks b0)) as [[]|]; try discriminate. intros X; inversion X; reflexivity.
        - intros X; inversion X; reflexivity.
        - intros X; inversion X; reflexivity.
        - destruct (aget _ (b_tasks b0)) as [[]|]; try discriminate. destruct (aget (z_id s) (b_chans b0)); [|discriminate]. destruct on; intros X; inversion X; reflexivity.
        - destruct on; intros X; inversion X; reflexivity.
        - destruct on; intros X; inversion X; reflexivity.
        - destruct (_ && _).
          + destruct (send_will pick k0 (A5 s) b0) as [[[[a1 b1] o1] ok]|] eqn:W; [|discriminate]. destruct (remove_client a1 b1) as [b2|] eqn:RC; [|discriminate]. intros X; inversion X; subst. cbn.
            rewrite (remove_timers _ _ _ RC). eapply send_will_timers; eauto.
          + intros X; inversion X; reflexivity.
        - destruct (_ && _).
          + destruct (send_will pick k0 (A5 s) b0) as [[[[a1 b1] o1] ok]|] eqn:W; [|discriminate]. intros X; inversion X; subst. cbn. eapply send_will_timers; eauto.
          + intros X; inversion X; reflexivity. }
      unfold do_control in S. destruct (aget k0 (b_tasks b)) as [[| | | |a| | |a|]|]; try discriminate; [apply (GO true a S)|apply (GO false a S)].
    - left. apply OUT. unfold do_normal in S. destruct (aget k0 (b_tasks b)) as [[| | | |a| | |a|]|]; try discriminate; [destruct (a_disc a); [discriminate|]|];
        (destruct (aget (a_id a) _) as [[? [|? ?] ?]|]; try discriminate; destruct (normal _ _ _ _ _ _) as [a1 o1]; inversion S; reflexivity).
    - left. apply OUT. unfold do_flush in S. destruct (aget k0 (b_tasks b)) as [[| | | |a| |a| |a st]|]; try discriminate;
        (destruct (flush d a b) as [[a1 b1]|] eqn:F; [|discriminate]; inversion S; subst; cbn; eapply flush_timers; eauto).
    - left. unfold do_end in S. destruct (aget k0 (b_tasks b)) as [[| | | | |a| | |]|]; try discriminate. destruct hook; cbn [negb] in S.
      2:{ apply OUT. inversion S; subst. rewrite close_timers; reflexivity. }
      assert (NOW : match send_will pick k0 a b with
        | None => BPanic
        | Some (a1, b1, out, ok) => if ok then BOk (set_task k0 (TDrain a1) b1) out else BOk (close (a_id a) (end_task k0 b1)) (out ++ [OClosed k0])%list
        end = BOk b' out -> b_timers b' = b_timers b).
      { destruct (send_will pick k0 a b) as [[[[a1 b1] o1] ok]|] eqn:SW; [|discriminate]. apply send_will_timers in SW.
        destruct ok; intros X; inversion X; subst; [exact SW|]. rewrite close_timers. exact SW. }
      destruct a as [s|s].
      + destruct (s_cdisc s); [apply OUT; inversion S; reflexivity|]. destruct (will_due s) as [d|]; [|apply OUT, NOW; auto]. destruct (_ <? _); [|apply OUT; inversion S; reflexivity].
        inversion S; subst. eapply OUT1; [|reflexivity]. discriminate.
      + destruct (z_disc s); [apply OUT; inversion S; reflexivity|apply OUT, NOW; auto].
    - left. unfold do_done in S. destruct (aget k0 (b_tasks b)) as [[| | | | | |a| |a stop]|]; try discriminate.
      + destruct (a_bcast a); [|discriminate]. destruct (a_ends a).
        { apply OUT. destruct (remove_client a b) as [b1|] eqn:RC; [|discriminate]. apply remove_timers in RC. inversion S; subst. rewrite close_timers. exact RC. }
        destruct (reg_offline _ _); [|discriminate]. destruct a as [s|s]; inversion S; subst; [eapply OUT1; [|reflexivity]; discriminate|apply OUT; reflexivity].
      + apply OUT. destruct (a_bcast a); [|discriminate]. destruct stop; [|inversion S; reflexivity].
        destruct (remove_client a b) as [b1|] eqn:RC; [|discriminate]. apply remove_timers in RC. inversion S; subst. rewrite close_timers. exact RC.
    - unfold do_fire in S. destruct (nth_error _ n) as [[c0 k0 half0 due0|c0 t due0|c0 t due0|c0 m]|] eqn:N0; try discriminate.
      + destruct (_ <? _); [discriminate|]. destruct (_ <=? _) eqn:L.
        * inversion S; subst. cbn in H. apply in_put in H. destruct H as [H|H]; auto. inversion H; subst. right. left. exists n, due0. repeat split; auto. apply N.leb_le; auto.
        * left. destruct (in_list _ _); inversion S; subst; cbn in H; [apply in_put in H; destruct H as [H|H]; [discriminate|auto]|eapply in_drop; eauto].
      + left. destruct (_ <? _); [discriminate|]. destruct (in_list _ _); inversion S; subst; cbn in H; [apply in_put in H; destruct H as [H|H]; [discriminate|auto]|eapply in_drop; eauto].
      + left. destruct (_ <? _); [discriminate|]. destruct (in_list _ _); inversion S; subst; cbn in H; [apply in_put in H; destruct H as [H|H]; [discriminate|auto]|eapply in_drop; eauto].
      + left. destruct (aget c0 _) as [ch|]; [|discriminate]. destruct (negb _); [|destruct (ctl_room ch); [|discriminate]]; inversion S; subst; cbn in H; eapply in_drop; eauto.
    - left. apply OUT. inversion S; reflexivity.
  Qed.

  (** A task that is gone stays gone. *)
  Lemma none_stays e b b' out k : good b -> bstep e b = BOk b' out -> k < b_conns b -> aget k (b_tasks b) = None -> aget k (b_tasks b') = None.
  Proof. intros G S L N0. pose proof (step_move _ _ _ _ _ _ _ (proj1 G) S k) as M. rewrite N0 in M. inversion M; subst; auto; lia. Qed.

  Definition keep_ok (h : list past) (b : broker) (c : client_id) (k half due : N) : Prop :=
    k < b_conns b /\ due <= b_now b + half /\
    (exists p x r, In p h /\ w_e p = EJoin k /\ aget k (b_tasks (w_b p)) = Some (TJoin x r) /\ rc_id r = c) /\
    (aget k (b_tasks b) = None \/ exists t a, aget k (b_tasks b) = Some t /\ t_sess t = Some a /\ a_id a = c /\ half = a_keep a * 500).
  Lemma run_keep c h b cid k half due : brun c h b -> In (IKeep cid k half due) (b_timers b) -> keep_ok h b cid k half due.
  Proof.
    intros R. revert cid k half due. induction R as [|h b e b' out R IH S]; [intros ? ? ? ? []|]. intros cid k half due H. pose proof (run_good _ _ _ _ _ _ R) as G.
    destruct (step_now _ _ _ _ _ _ _ G S) as (NOW & _). pose proof (step_conns _ _ _ _ _ _ _ S) as CO.
    assert (CO' : b_conns b <= b_conns b') by (destruct e; lia).
    assert (KEEP : forall due0 due1, keep_ok h b cid k half due0 -> due1 <= b_now b + half -> keep_ok (Past b e out :: h) b' cid k half due1).
    { intros due0 due1 (L & D & (p & x & r & P1 & P2) & Q) D1. split; [lia|]. split; [lia|]. split; [exists p, x, r; split; [right|]; auto|].
      destruct Q as [Q|(t & a & A & T & E1 & E2)]; [left; eapply none_stays; eauto|].
      destruct (sess_step _ _ _ _ _ _ _ _ _ _ G S A T) as [X|(t' & a' & A' & T' & SA)]; auto. right. exists t', a'. destruct SA as (_ & _ & S1 & _ & S2). repeat split; auto; congruence. }
    destruct (keep_new _ _ _ _ _ _ _ _ G S H) as [X|[(n & due0 & -> & N0 & -> & _)|(-> & -> & x & r & A & -> & Q)]].
    - pose proof (IH _ _ _ _ X) as Y. eapply KEEP; eauto. apply Y.
    - apply nth_error_In in N0. eapply KEEP; [apply IH; eauto|lia].
    - split; [pose proof (task_num _ _ _ G A); lia|]. split; [lia|]. split; [exists (Past b (EJoin k) out), x, r; split; [left|]; auto|].
      destruct Q as [(a & A' & E1 & E2)|Q]; auto. right. exists (TReady a), a. auto.
  Qed.

  (** ** When a connection was last heard of *)
  Lemma last_heard c h b k t : brun c h b -> aget k (b_tasks b) = Some t -> t_going t = true -> aget k (b_last b) = Some (heard k h).
  Proof.
    intros R. revert t. induction R as [|h b e b' out R IH S]; [discriminate|]. intros t' A' T'. pose proof (run_good _ _ _ _ _ _ R) as G.
    destruct (step_last _ _ _ _ k G S) as (L & B). cbn [heard].
    destruct L as [L|(_ & L)]; [|rewrite (L _ A') in T'; discriminate]. rewrite L. destruct (heard_now k _) eqn:HN; auto.
    destruct (B _ A' T') as [N0|(t & A & T)]; [|eauto]. exfalso.
    pose proof (step_move _ _ _ _ _ _ _ (proj1 G) S k) as M. rewrite N0, A' in M.
    inversion M; subst; (match goal with X : connecting _ _ _ |- _ => destruct X as [(t0 & uuid & q & data & -> & _)|(t0 & uuid & q & -> & _)] end);
      unfold heard_now in HN; cbn in HN; rewrite N.eqb_refl in HN; discriminate.
  Qed.
  Lemma going_back b h b' k t' : good b -> bgo b h b' -> k < b_conns b -> aget k (b_tasks b') = Some t' -> t_going t' = true -> exists t, aget k (b_tasks b) = Some t /\ t_going t = true.
  Proof.
    intros G R L. revert t'. induction R as [|b0 h b e b' out R IH S]; [eauto|]. intros t' A T. pose proof (go_good _ _ _ _ _ _ G R) as G1. pose proof (go_conns _ _ _ _ _ _ R) as C.
    destruct (step_last _ _ _ _ k G1 S) as (_ & B). destruct (B _ A T) as [N0|(t & A1 & T1)]; [|eauto]. rewrite (none_stays _ _ _ _ _ G1 S) in A; auto; [discriminate|lia].
  Qed.

  (** ** Where a kick comes from *)
  Lemma kick_back e b b' out c : good b -> bstep e b = BOk b' out -> kick_coming b' c -> kick_coming b c \/
    exists n k half due, e = EFire n /\ nth_error (b_timers b) n = Some (IKeep c k half due) /\ half * 3 < b_now b - match aget k (b_last b) with Some t => t | None => 0 end.
  Proof.
    intros [I P] S T. change (token b' c CKick None) in T. change (kick_coming b c) with (token b c CKick None). pose proof (step_smove _ _ _ _ _ _ _ I P S) as M. apply token_cv in T.
    assert (KEEP : (forall y, In y (b_timers b') -> In y (b_timers b) \/ y <> IPut c CKick) -> (forall q o, cv b' c = Some (q, o) -> In CKick q -> exists q o, cv b c = Some (q, o) /\ In CKick q) -> token b c CKick None).
    { intros E1 E2. apply token_cv. destruct T as [T|(q & o & C & T)]; [left|right; eauto]. destruct (E1 _ T); auto. congruence. }
    assert (SAME : (forall y, In y (b_timers b') -> In y (b_timers b) \/ y <> IPut c CKick) -> (forall c, cv b' c = cv b c) -> token b c CKick None).
    { intros E1 E2. apply KEEP; auto. intros q o. rewrite E2. eauto. }
    assert (OLD : forall y, b_timers b' = b_timers b -> In y (b_timers b') -> In y (b_timers b) \/ y <> IPut c CKick) by (intros y ->; auto).
    assert (APP : forall tms y, b_timers b' = (b_timers b ++ tms)%list -> (forall z, In z tms -> z <> IPut c CKick) -> In y (b_timers b') -> In y (b_timers b) \/ y <> IPut c CKick).
    { intros tms y E Z Y. rewrite E in Y. apply in_app_or in Y. destruct Y; auto. }
    assert (NOON : forall v j, CKick <> online_msg v j) by (intros [] j; discriminate).
    destruct M.
    - left. auto.
    - left. subst. apply token_cv. exact T.
    - left. apply KEEP; auto. intros q o. match goal with H : forall c, cv b' c = _ |- _ => rewrite H end.
      destruct (aget (p_ident x) _); [eauto|]. unfold upd. destruct (c =? _); [|eauto]. intros X; injection X; intros; subst. contradiction.
    - left. apply KEEP; auto. intros q o. match goal with H : forall c, cv b' c = _ |- _ => rewrite H end.
      unfold upd. destruct (c =? _); [|eauto]. intros X; injection X as <- <-. intros [Y|[]]. exfalso. apply (NOON (p_v5 x) k). auto.
    - left. auto.
    - left. apply KEEP.
      + intros y. eapply APP; eauto. intros z Z. match goal with H : forall m, In m tms -> _ |- _ => destruct (H _ Z) as (hf & ->) end. discriminate.
      + intros q' o. match goal with H : forall c, cv b' c = _ |- _ => rewrite H end. unfold upd. destruct (N.eqb_spec c c0) as [->|]; [|eauto].
        intros X; injection X as <- <-. eauto.
    - left. apply SAME; auto. intros y. eapply APP; eauto. intros z Z. subst tms. destruct (0 <? a_keep a); [|destruct Z]. destruct Z as [<-|[]]. discriminate.
    - left. apply SAME; auto. intros y. eapply APP; eauto. intros z [<-|[]]. discriminate.
    - left. apply SAME; auto. intros y. eapply APP; eauto. intros z Z. destruct a; [destruct Z as [<-|[]]; discriminate|destruct Z].
    - left. auto.
    - left. apply KEEP; auto. intros q o. match goal with H : forall c, cv b' c = _ |- _ => rewrite H end.
      unfold upd. destruct (c =? _); [|eauto]. intros X; injection X as <- <-. intros [].
    - match goal with H : match i with _ => _ end |- _ => rename H into HI end.
      destruct i as [c0 k half due|c0 t due|c0 t due|c0 m0].
      + destruct HI as (_ & CV & HT). cbn zeta in HT. destruct (_ <=? _) eqn:L; [|destruct (in_list _ _)].
        * left. apply SAME; auto. intros y Y. rewrite HT in Y. apply in_put in Y. destruct Y as [->|]; auto. right. discriminate.
        * destruct (N.eq_dec c c0) as [<-|NE]; [right; exists n, k, half, due; repeat split; auto; apply N.leb_gt in L; lia|].
          left. apply SAME; auto. intros y Y. rewrite HT in Y. apply in_put in Y. destruct Y as [->|]; auto. right. congruence.
        * left. apply SAME; auto. intros y Y. rewrite HT in Y. apply in_drop in Y. auto.
      + left. destruct HI as (_ & CV & HT). destruct (in_list _ _); (apply SAME; [|exact CV]); intros y Y; rewrite HT in Y; [apply in_put in Y|apply in_drop in Y; auto].
        destruct Y as [->|]; auto. right. discriminate.
      + left. destruct HI as (_ & CV & HT). destruct (in_list _ _); (apply SAME; [|exact CV]); intros y Y; rewrite HT in Y; [apply in_put in Y|apply in_drop in Y; auto].
        destruct Y as [->|]; auto. right. discriminate.
      + left. destruct HI as (HT & HC). apply token_cv. destruct T as [T|(q & o & C & T)].
        * rewrite HT in T. apply in_drop in T. auto.
        * destruct HC as [[_ CV]|[CE CV]]; rewrite CV in C; [eauto|]. unfold upd in C. destruct (N.eqb_spec c c0) as [->|]; [|eauto].
          injection C as <- <-. destruct T as [->|[]]. left. eapply nth_error_In; eauto.
  Qed.
  (** The firing is in the history. *)
  Lemma kick_from c h b cid : brun c h b -> kick_coming b cid ->
    exists h2 p h1 n k half due, h = (h2 ++ p :: h1)%list /\ brun c h1 (w_b p) /\ w_e p = EFire n /\ nth_error (b_timers (w_b p)) n = Some (IKeep cid k half due) /\
      half * 3 < b_now (w_b p) - match aget k (b_last (w_b p)) with Some t => t | None => 0 end /\ bgo (w_b p) (h2 ++ [p]) b.
  Proof.
    intros R. induction R as [|h b e b' out R IH S].
    - intros [[]|(ch & A & _)]. discriminate.
    - intros KC. pose proof (run_good _ _ _ _ _ _ R) as G. destruct (kick_back _ _ _ _ _ G S KC) as [X|(n & k & half & due & -> & N0 & L)].
      + destruct (IH X) as (h2 & p & h1 & n & k & half & due & -> & R1 & E & N0 & L & GO). exists (Past b e out :: h2), p, h1, n, k, half, due.
        repeat split; auto. cbn. econstructor; eauto.
      + exists [], (Past b (EFire n) out), h, n, k, half, due. repeat split; auto. cbn. econstructor; [constructor|eauto].
  Qed.
  (** Every connection asked for its identifier. *)
  Lemma ident_asked c h b k t : brun c h b -> aget k (b_tasks b) = Some t -> exists q, In q h /\ asks (w_e q) = Some (t_ident t) /\ b_conns (w_b q) = k.
  Proof.
    intros R. revert t. induction R as [|h b e b' out R IH S]; [discriminate|]. intros t' A'. pose proof (run_good _ _ _ _ _ _ R) as G.
    pose proof (step_move _ _ _ _ _ _ _ (proj1 G) S k) as M. rewrite A' in M. destruct (aget k (b_tasks b)) as [t|] eqn:A.
    - destruct (IH _ eq_refl) as (q & Q & E & N0). assert (EQ : t_ident t' = t_ident t).
      { inversion M; subst; try reflexivity; cbn [t_ident];
          repeat match goal with
          | H : akept _ _ |- _ => destruct (akept_facts _ _ H) as (? & ? & ? & ? & ?); clear H
          | H : aspent _ _ |- _ => destruct (aspent_facts _ _ H) as (? & ? & ? & ? & ?); clear H
          end; auto.
        - pose proof (proj2 G _ _ A) as PO. destruct (joined_facts _ _ _ _ _ _ PO ltac:(eassumption)) as (X & _). auto.
        - match goal with |- a_ident (a_offline ?x) = _ => destruct x end; reflexivity. }
      exists q. rewrite EQ. split; [right|]; auto.
    - exists (Past b e out). split; [left; auto|]. inversion M; subst; cbn [w_e w_b t_ident]; (split; [eapply connecting_asks; eauto|auto]).
  Qed.
  Lemma join_known b k x r : inv b -> aget k (b_tasks b) = Some (TJoin x r) -> known b (p_ident x) (rc_id r).
  Proof. intros I A. apply known_iff; auto. eapply (k_reg _ _ _ _ _ (i_core _ I) k). rewrite (rl_of _ _ _ A). reflexivity. Qed.

  Lemma going_sess t a : t_going t = true -> t_sess t = Some a -> (t = TReady a \/ t = TOnline a) /\ (forall x, t <> TOffDrain x true).
  Proof. destruct t; cbn; intros H1 H2; try discriminate; injection H2 as ->; (split; [auto|discriminate]). Qed.

  (** A connection that goes on is only asked to end after its own silence, or that of another
      connection with the same client identifier. *)
  Lemma join_pos k b b' out c half due : bstep (EJoin k) b = BOk b' out -> In (IKeep c k half due) (b_timers b') -> In (IKeep c k half due) (b_timers b) \/ 0 < half.
  Proof.
    cbn [BrokerModel.bstep]. unfold do_join. destruct (_ <=? _); [discriminate|].
    assert (ST : forall a, In (IKeep c k half due) (b_timers (start_keep k a b)) -> In (IKeep c k half due) (b_timers b) \/ 0 < half).
    { intros a. unfold start_keep. destruct (N.ltb_spec 0 (a_keep a)); auto. cbn. intros I. apply in_app_or in I. destruct I as [I|[I|[]]]; auto. right. inversion I. lia. }
    destruct (aget k (b_tasks b)) as [[| |[cn data|s0] r| | | | | |]|] eqn:A0; try discriminate.
    - destruct (match r with RNew c => Some (RcNew c) | ROld5 st => Some (RcPresent st) | ROld3 _ => None end); [|discriminate].
      destruct (session_connect5 _ _ _ _ _ _) as [[s ack]|]; [|discriminate].
      destruct (s_connected s); intros S I; inversion S; subst; [|rewrite close_timers in I]; apply ST in I; auto.
    - destruct (match r with RNew c => Some (RcNew3 c) | ROld3 st => Some (RcPresent3 st) | ROld5 _ => None end); [|discriminate].
      destruct (session_connect3 _ _ _) as [s ack]. intros S I; inversion S; subst. apply ST in I; auto.
  Qed.
  Lemma keep_pos c h b cid k half due : brun c h b -> In (IKeep cid k half due) (b_timers b) -> 0 < half.
  Proof.
    intros R. revert due. induction R as [|h b e b' out R IH S]; intros due I; [destruct I|]. pose proof (run_good _ _ _ _ _ _ R) as G.
    destruct (keep_new _ _ _ _ _ _ _ _ G S I) as [X|[(n & due0 & _ & X & _)|(-> & _)]]; eauto using nth_error_In.
    destruct (join_pos _ _ _ _ _ _ _ S I); eauto.
  Qed.
  Lemma kick_reason c h b k t a : brun c h b -> aget k (b_tasks b) = Some t -> t_sess t = Some a -> t_going t = true -> kick_coming b (a_id a) ->
    exists h2 p h1 n k0 half due, h = (h2 ++ p :: h1)%list /\ w_e p = EFire n /\ nth_error (b_timers (w_b p)) n = Some (IKeep (a_id a) k0 half due) /\
      (k0 = k /\ 0 < a_keep a /\ heard k h1 + a_keep a * 1500 < b_now (w_b p) \/
       k0 <> k /\ exists q, In q h /\ asks (w_e q) = Some (a_ident a) /\ b_conns (w_b q) = k0).
  Proof.
    intros R A T GO KC. destruct (kick_from _ _ _ _ R KC) as (h2 & p & h1 & n & k0 & half & due & -> & R1 & E & N0 & L & GB).
    exists h2, p, h1, n, k0, half, due. split; auto. split; auto. split; auto.
    pose proof (run_good _ _ _ _ _ _ R1) as G1. destruct (run_keep _ _ _ _ _ _ _ R1 (nth_error_In _ _ N0)) as (L0 & D0 & (q & x & r & Q1 & Q2 & Q3 & Q4) & Z).
    destruct (N.eq_dec k0 k) as [->|NE]; [left|right]; (split; [reflexivity || exact NE|]).
    - destruct (going_back _ _ _ _ _ G1 GB L0 A GO) as (t1 & A1 & T1). rewrite (last_heard _ _ _ _ _ R1 A1 T1) in L.
      destruct Z as [Z|(t2 & a2 & A2 & T2 & E2 & E3)]; [congruence|].
      destruct (go_sess _ _ _ _ _ _ _ _ _ G1 GB A2 T2 L0) as [X|(t3 & a3 & A3 & T3 & SA)]; [congruence|]. rewrite A in A3. injection A3 as <-. rewrite T in T3. injection T3 as <-.
      destruct SA as (_ & _ & _ & _ & KP). rewrite KP. pose proof (keep_pos _ _ _ _ _ _ _ R1 (nth_error_In _ _ N0)). lia.
    - assert (Q1' : In q (h2 ++ p :: h1)) by (apply in_or_app; right; right; auto).
      destruct (run_past _ _ _ _ _ _ _ R Q1') as (hq & Rq & hq' & GBq). destruct (run_at _ _ _ _ _ _ _ R Q1') as (hq2 & Rq2 & SUB & _).
      destruct (ident_asked _ _ _ _ _ Rq2 Q3) as (q' & Q' & AS & CN). exists q'. split; [auto|]. split; auto. rewrite AS. f_equal. cbn [t_ident].
      pose proof (run_good _ _ _ _ _ _ Rq) as Gq. pose proof (run_good _ _ _ _ _ _ R) as G. pose proof (join_known _ _ _ _ (proj1 Gq) Q3) as KN. rewrite Q4 in KN.
      destruct (going_sess _ _ GO T) as (_ & NO). eapply id_stays; [exact Gq|exact GBq|exact KN|]. eapply sess_known; eauto. apply G.
  Qed.

  (** ** Silent connections are asked to end *)
  Lemma kick_ends k b b' out a : bstep (EControl k) b = BOk b' out -> aget k (b_tasks b) = Some (TOnline a) -> cv b (a_id a) = Some ([CKick], true) ->
    aget k (b_tasks b') = Some (TEnd a).
  Proof.
    intros S A CV. destruct (cv_inv _ _ _ _ CV) as (ms & CH). cbn [BrokerModel.bstep] in S. unfold do_control in S. rewrite A, CH in S. unfold control in S.
    destruct a; inversion S; subst; cbn; apply aget_aset_eq.
  Qed.
  Lemma fire_kicks n b b' out c k half due t a : good b -> bstep (EFire n) b = BOk b' out -> nth_error (b_timers b) n = Some (IKeep c k half due) ->
    aget k (b_tasks b) = Some t -> t_sess t = Some a -> (forall x, t <> TOffDrain x true) -> a_id a = c ->
    half * 3 < b_now b - match aget k (b_last b) with Some t => t | None => 0 end -> kick_coming b' c.
  Proof.
    intros G S N0 A T NO E L. pose proof (sess_known _ _ _ _ (proj1 G) A T NO) as KN. apply known_iff in KN; [|apply G]. destruct KN as (o & KN). rewrite E in KN.
    assert (IL : in_list c (r_clients (b_reg b)) = true) by (apply (k_cl _ _ _ _ _ (i_core _ (proj1 G))); rewrite KN; discriminate).
    cbn [BrokerModel.bstep] in S. unfold do_fire in S. rewrite N0 in S. destruct (_ <? _); [discriminate|]. destruct (N.leb_spec (b_now b - match aget k (b_last b) with Some t => t | None => 0 end) (half * 3)); [lia|].
    rewrite IL in S. inversion S; subst. left. cbn. apply put_in.
  Qed.
  Lemma heard_le c h b k : brun c h b -> heard k h <= b_now b.
  Proof.
    intros R. induction R as [|h b e b' out R IH S]; [reflexivity|]. destruct (step_now _ _ _ _ _ _ _ (run_good _ _ _ _ _ _ R) S) as (NOW & _). cbn [heard].
    destruct (heard_now k _) as [t|] eqn:HN; [|lia]. unfold heard_now in HN. cbn [w_e w_b] in HN.
    destruct e; try discriminate; destruct (_ =? _); try discriminate; injection HN as <-; try lia; cbn [BrokerModel.bstep] in S; destruct (N.ltb_spec (b_now b) t0); try discriminate; lia.
  Qed.
  Lemma heard_mono c h b e b' out k : brun c h b -> bstep e b = BOk b' out -> k < b_conns b -> heard k h <= heard k (Past b e out :: h).
  Proof.
    intros R S L. pose proof (heard_le _ _ _ k R). cbn [heard]. unfold heard_now. cbn [w_e w_b]. destruct e; try lia; destruct (N.eqb_spec (b_conns b) k); try lia; destruct (_ =? _); lia.
  Qed.
  Lemma join_keep k b b' out a : good b -> bstep (EJoin k) b = BOk b' out -> aget k (b_tasks b') = Some (TReady a) -> 0 < a_keep a -> In (IKeep (a_id a) k (a_keep a * 500) (b_now b)) (b_timers b').
  Proof.
    intros G. cbn [BrokerModel.bstep]. unfold do_join. destruct (_ <=? _); [discriminate|]. destruct (aget k (b_tasks b)) as [[| |[cn data|s0] r| | | | | |]|] eqn:A0; try discriminate.
    - destruct (match r with RNew c => Some (RcNew c) | ROld5 st => Some (RcPresent st) | ROld3 _ => None end); [|discriminate].
      destruct (session_connect5 _ _ _ _ _ _) as [[s ack]|]; [|discriminate].
      assert (TK : b_tasks (start_keep k (A5 s) b) = b_tasks b) by (unfold start_keep; destruct (0 <? _); reflexivity).
      destruct (s_connected s); intros S A L; inversion S; subst.
      + cbn in A. rewrite aget_aset_eq in A. injection A as <-. cbn. unfold start_keep. destruct (N.ltb_spec 0 (a_keep (A5 s))); [|lia]. cbn. apply in_or_app. right. left. reflexivity.
      + rewrite tasks_close in A. cbn in A. rewrite TK, aget_adel_eq in A by apply (i_tnd _ (proj1 G)). discriminate.
    - destruct (match r with RNew c => Some (RcNew3 c) | ROld3 st => Some (RcPresent3 st) | ROld5 _ => None end); [|discriminate].
      destruct (session_connect3 _ _ _) as [s ack]. intros S A L; inversion S; subst. cbn in A. rewrite aget_aset_eq in A. injection A as <-. cbn. unfold start_keep. destruct (N.ltb_spec 0 (a_keep (A3 s))); [|lia].
      cbn. apply in_or_app. right. left. reflexivity.
  Qed.
  Lemma keep_stays e b b' out c k half due t a : good b -> bstep e b = BOk b' out -> In (IKeep c k half due) (b_timers b) ->
    aget k (b_tasks b) = Some t -> t_sess t = Some a -> (forall x, t <> TOffDrain x true) -> a_id a = c ->
    In (IKeep c k half due) (b_timers b') \/
    (In (IKeep c k half (b_now b + half)) (b_timers b') /\ b_now b <= match aget k (b_last b) with Some t => t | None => 0 end + half * 3) \/ kick_coming b' c.
  Proof.
    intros G S H A T NO E. destruct e.
    16:{ pose proof (fire_kicks n b b' out) as FK. pose proof S as S'. cbn [BrokerModel.bstep] in S. unfold do_fire in S. destruct (nth_error _ n) as [[c0 k0 half0 due0|c0 t0 due0|c0 t0 due0|c0 m]|] eqn:N0; try discriminate.
      - destruct (_ <? _); [discriminate|]. destruct (N.leb_spec (b_now b - match aget k0 (b_last b) with Some t => t | None => 0 end) (half0 * 3)).
        + inversion S; subst. destruct (in_keep_put n _ (IKeep c0 k0 half0 (b_now b + half0)) _ H) as [X|X]; [|left; exact X].
          rewrite N0 in X. inversion X; subst. right. left. split; [apply put_in|lia].
        + destruct (in_keep_put n _ (IPut c0 CKick) _ H) as [X|X].
          * rewrite N0 in X. inversion X; subst. right. right. eapply FK; eauto.
          * destruct (in_keep n _ _ H) as [Y|Y]; [rewrite N0 in Y; inversion Y; subst; right; right; eapply FK; eauto|]. left. destruct (in_list _ _); inversion S; subst; auto.
      - left. destruct (_ <? _); [discriminate|]. destruct (in_keep_put n _ (IPut c0 (CExpired t0)) _ H) as [X|X]; [congruence|]. destruct (in_keep n _ _ H) as [Y|Y]; [congruence|]. destruct (in_list _ _); inversion S; subst; auto.
      - left. destruct (_ <? _); [discriminate|]. destruct (in_keep_put n _ (IPut c0 (CWill t0)) _ H) as [X|X]; [congruence|]. destruct (in_keep n _ _ H) as [Y|Y]; [congruence|]. destruct (in_list _ _); inversion S; subst; auto.
      - left. destruct (in_keep n _ _ H) as [Y|Y]; [congruence|]. destruct (aget c0 _) as [ch|]; [|discriminate]. destruct (negb _); [|destruct (ctl_room ch); [|discriminate]]; inversion S; subst; auto. }
    all: left; pose proof (step_smove _ _ _ _ _ _ _ (proj1 G) (proj2 G) S) as M; destruct M; subst; try discriminate; try exact H;
      try (match goal with X : b_timers _ = _ |- _ => rewrite X end; first [exact H|apply in_or_app; left; exact H]).
  Qed.

  Lemma keep_watch c h b k t a : brun c h b -> aget k (b_tasks b) = Some t -> t_sess t = Some a -> t_going t = true -> 0 < a_keep a ->
    (exists due, In (IKeep (a_id a) k (a_keep a * 500) due) (b_timers b) /\ (t = TOnline a -> due <= heard k h + a_keep a * 2000)) \/ kick_coming b (a_id a).
  Proof.
    intros R. revert t a. induction R as [|h b e b' out R IH S]; [discriminate|]. intros t' a' A' T' GO' KP. pose proof (run_good _ _ _ _ _ _ R) as G.
    destruct (sess_back _ _ _ _ _ _ _ _ _ _ G S A' T') as [(t & a & A & T & SA)|(x & r & A & -> & -> & _)].
    - destruct (step_last _ _ _ _ k G S) as (_ & B). destruct (B _ A' GO') as [X|(t0 & A0 & GO)]; [congruence|]. rewrite A in A0. injection A0 as <-.
      destruct SA as (_ & _ & EI & _ & EK). rewrite EI, EK in *. destruct (going_sess _ _ GO T) as (TT & NO). pose proof (task_num _ _ _ G A) as LT.
      pose proof (heard_mono _ _ _ _ _ _ _ R S LT) as HM. pose proof (last_heard _ _ _ _ _ R A GO) as LH.
      destruct (IH _ _ A T GO KP) as [(due & I & D)|KC].
      + destruct (run_keep _ _ _ _ _ _ _ R I) as (_ & DN & _).
        assert (DD : due <= b_now b + a_keep a * 500) by lia.
        assert (OLD : t' = TOnline a' -> due <= heard k (Past b e out :: h) + a_keep a * 2000).
        { intros ->. destruct TT as [->| ->]; [|specialize (D eq_refl); lia]. pose proof (step_move _ _ _ _ _ _ _ (proj1 G) S k) as M. rewrite A, A' in M. inversion M; subst.
          cbn [heard]. unfold heard_now. cbn [w_e w_b]. rewrite N.eqb_refl. lia. }
        destruct (keep_stays _ _ _ _ _ _ _ _ _ _ G S I A T NO eq_refl) as [X|[(X & L)|X]]; auto; left.
        * exists due. auto.
        * exists (b_now b + a_keep a * 500). split; auto. intros _. rewrite LH in L. lia.
      + right. assert (RO : exists v i, role_of t = Owns v i (a_id a) false) by (destruct TT as [->| ->]; cbn; eauto). destruct RO as (v & i & RO).
        destruct (token_forth _ _ _ _ _ _ _ _ CKick None _ _ _ _ G S KC A RO) as [(d & X)|(on & a1 & -> & E1 & E2 & CV)]; [destruct d; [contradiction|exact X]|].
        exfalso. destruct TT as [->| ->]; destruct on; try discriminate. injection E1 as <-. rewrite (kick_ends _ _ _ _ _ S A CV) in A'. injection A' as <-. discriminate.
    - left. exists (b_now b). split; [eapply join_keep; eauto|discriminate].
  Qed.
End Runs.
