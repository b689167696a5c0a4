(** Proofs about AccSpec. *)
From Coq Require Import List Bool Arith NArith String Lia.
From Verif Require Import Base BaseLemmas TopicModel MsgModel OutModel RouteModel RetainModel GlobModel Sess5Model Sess3Model ConnModel RegModel BrokerModel
  BrokerSpec FrameProofs CoreProofs BrokerInv TaskMove StepProofs RunProofs RegProofs TimeProofs WillProofs KeepProofs EvolProofs HistProofs LifeSpec LifeFacts OnlineModel HookFacts DelivSpec InSpec AccSpec.
Import ListNotations.
Local Open Scope N_scope.
Local Open Scope list_scope.

Section Acc.
  Variables (hash5 : wpub5 -> N) (hash3 : wpub3 -> N) (pick : draw -> broker -> string -> string -> N).
  Notation bstep := (bstep hash5 hash3 pick).
  Notation brun := (brun hash5 hash3 pick).

  Lemma waiting_eq b b' d : b_chans b' = b_chans b -> waiting b' d = waiting b d.
  Proof. unfold waiting. intros ->. reflexivity. Qed.
  Lemma waiting_set b b' c ch d : b_chans b' = aset c ch (b_chans b) -> waiting b' d = if d =? c then ch_norm ch else waiting b d.
  Proof. unfold waiting. intros ->. rewrite aget_N. destruct (d =? c); reflexivity. Qed.
  Lemma waiting_close c b d : waiting (close c b) d = waiting b d.
  Proof.
    unfold close. destruct (aget c (b_chans b)) as [ch|] eqn:E; [|reflexivity]. erewrite waiting_set by reflexivity.
    destruct (N.eqb_spec d c) as [->|]; [|reflexivity]. unfold waiting. rewrite E. reflexivity.
  Qed.
  Lemma set_same_norm b b' c ch ch0 d : b_chans b' = aset c ch (b_chans b) -> aget c (b_chans b) = Some ch0 -> ch_norm ch = ch_norm ch0 -> waiting b' d = waiting b d.
  Proof.
    intros E A N. rewrite (waiting_set _ _ _ _ _ E). destruct (N.eqb_spec d c) as [->|]; [|reflexivity]. unfold waiting. now rewrite A.
  Qed.
  Lemma send_will_chans k a b a1 b1 out ok : send_will pick k a b = Some (a1, b1, out, ok) -> b_chans b1 = b_chans b /\ a_id a1 = a_id a.
  Proof.
    intros S. destruct (send_will_move _ _ _ _ _ _ _ _ S) as (SP & (rt & rn & ->) & _). split; auto. destruct a, a1; cbn in SP; try contradiction; cbn; try tauto.
    all: unfold send_will in S; destruct (_ : res _) as [|]; discriminate.
  Qed.
  Lemma open_own b a k t : good b -> aget k (b_tasks b) = Some t -> t_sess t = Some a -> received_for b (a_id a) = true.
  Proof.
    intros [I P] A T. pose proof (i_core _ I) as K. unfold received_for.
    assert (O : exists v i d, rl b k = Some (Owns v i (a_id a) d)) by (unfold rl; rewrite A; destruct t; cbn in T; try discriminate; injection T as ->; cbn; eauto).
    destruct O as (v & i & d & O). pose proof (k_own _ _ _ _ _ K _ _ _ _ _ O) as L. pose proof (proj2 (k_chan _ _ _ _ _ K (a_id a)) L) as E.
    unfold cv in E. destruct (aget (a_id a) (b_chans b)) as [ch|] eqn:C; [|contradiction]. cbn in E.
    apply (proj2 (k_open _ _ _ _ _ K (a_id a) (ch_ctl ch) (ch_open ch) ltac:(unfold cv; rewrite C; reflexivity))). eauto 6.
  Qed.

  Lemma control_wait online k a m b cs ms b' out d : bstep (EControl k) b = BOk b' out ->
    control pick online k a m (set_chan (a_id a) (Chan cs ms true) b) = BOk b' out -> aget (a_id a) (b_chans b) = Some (Chan (m :: cs) ms true) ->
    waiting b d = (if (d =? a_id a) && negb online && match m, a with COnline3 _, A3 _ => true | _, _ => false end then ms else []) ++ waiting b' d.
  Proof.
    intros _ S C. set (b0 := set_chan (a_id a) (Chan cs ms true) b) in *.
    assert (W0 : waiting b0 d = waiting b d) by (eapply set_same_norm; [reflexivity|exact C|reflexivity]).
    assert (G : forall b', b_chans b' = b_chans b0 -> waiting b d = waiting b' d) by (intros; rewrite <- W0; symmetry; apply waiting_eq; auto).
    unfold control in S. destruct m as [j|j| |t|t], a as [s|s]; rewrite ?andb_false_r; cbn [app].
    - destruct (aget j (b_tasks b0)) as [[| | | | | | | |]|]; try discriminate. injection S as <- <-. apply G. reflexivity.
    - injection S as <- <-. apply G. reflexivity.
    - injection S as <- <-. apply G. reflexivity.
    - destruct (aget j (b_tasks b0)) as [[| | | | | | | |]|]; try discriminate. destruct (aget (z_id s) (b_chans b0)) as [ch|] eqn:C0; [|discriminate].
      subst b0. cbn [set_chan set_chans b_chans a_id] in C0. rewrite aget_N, N.eqb_refl in C0. injection C0 as <-. destruct online.
      + cbn [negb andb]. rewrite andb_false_r. injection S as <- <-. apply G. reflexivity.
      + cbn [negb andb ch_norm ch_ctl ch_open a_id] in *. injection S as <- <-. rewrite andb_true_r, andb_true_r. unfold waiting.
        cbn [set_task end_task set_tasks set_chan set_chans b_chans]. rewrite !aget_N. destruct (N.eqb_spec d (z_id s)) as [->|]; [|reflexivity]. rewrite C. cbn. now rewrite app_nil_r.
    - destruct online; injection S as <- <-; apply G; reflexivity.
    - destruct online; injection S as <- <-; apply G; reflexivity.
    - destruct (_ && _); [|injection S as <- <-; apply G; reflexivity]. destruct (send_will _ _ _ _) as [[[[a1 b1] o1] ok]|] eqn:SW; [|discriminate].
      destruct (remove_client a1 b1) as [b2|] eqn:RM; [|discriminate]. injection S as <- <-. apply G. apply send_will_chans in SW. apply remove_tasks in RM. destruct RM as (_ & X & _).
      cbn [set_task set_tasks b_chans]. rewrite X. apply SW.
    - discriminate.
    - destruct (_ && _); [|injection S as <- <-; apply G; reflexivity]. destruct (send_will _ _ _ _) as [[[[a1 b1] o1] ok]|] eqn:SW; [|discriminate].
      injection S as <- <-. apply G. apply send_will_chans in SW. apply SW.
    - discriminate.
  Qed.

  Lemma chan_step e b b' out d : good b -> bstep e b = BOk b' out ->
    waiting b d ++ map snd (passed d (Past b e out)) = taken d (Past b e out) ++ waiting b' d.
  Proof.
    intros GB S. pose proof GB as [I P].
    assert (SAME : (match e with ENormal _ | EControl _ | EFlush _ _ => False | _ => True end) -> waiting b' d = waiting b d -> waiting b d ++ map snd (passed d (Past b e out)) = taken d (Past b e out) ++ waiting b' d).
    { intros Q ->. destruct e; try contradiction; cbn; now rewrite app_nil_r. }
    assert (AC : forall t0 x, add_client t0 x b = BOk b' out -> waiting b' d = waiting b d).
    { intros t0 x. unfold add_client. destruct (reg_add _ _) as [r a] eqn:RA. destruct a as [c|c|]; [| |discriminate]; intros H; injection H as <- <-; [|apply waiting_eq; reflexivity].
      erewrite waiting_set by reflexivity. cbn [ch_norm]. destruct (N.eqb_spec d c) as [->|]; [|reflexivity]. unfold waiting.
      assert (N : aget c (b_chans b) = None); [|now rewrite N].
      unfold reg_add in RA. destruct (aget (p_ident x) (r_idents (b_reg b))) as [c1|]; [destruct (in_list _ _); discriminate|]. injection RA as _ <-.
      pose proof (proj1 (k_chan _ _ _ _ _ (i_core _ I) (r_next (b_reg b)))) as K. unfold cv in K. destruct (aget _ (b_chans b)); [|reflexivity]. cbn in K. specialize (K ltac:(discriminate)). lia. }
    destruct e as [t0 uuid p data|t0 uuid p|k|k|k|k|k len x|k len x|k reason|k|k|k|k d'|k hook|k|n|dt]; cbn [BrokerModel.bstep] in S.
    - apply SAME; auto. destruct (_ <? _); [discriminate|]. eapply AC; eauto.
    - apply SAME; auto. destruct (_ <? _); [discriminate|]. eapply AC; eauto.
    - apply SAME; auto. unfold do_put in S. destruct (aget k _) as [[x c|x c|x r|a|a|a|a|a|a st]|]; try discriminate. destruct (aget c (b_chans b)) as [ch|] eqn:C; [|discriminate].
      destruct (negb _); [injection S as <- <-; apply waiting_eq; reflexivity|]. destruct (ctl_room ch); [|discriminate]. injection S as <- <-. eapply set_same_norm; [reflexivity|exact C|reflexivity].
    - apply SAME; auto. unfold do_fail in S. destruct (aget k _) as [[x c|x c|x r|a|a|a|a|a|a st]|]; try discriminate.
      + destruct (aget c (b_chans b)) as [ch|] eqn:C; [|discriminate]. destruct (ch_open ch); [discriminate|]. injection S as <- <-. apply waiting_eq. reflexivity.
      + injection S as <- <-. rewrite waiting_close. apply waiting_eq. reflexivity.
      + injection S as <- <-. rewrite waiting_close. apply waiting_eq. reflexivity.
    - apply SAME; auto. unfold do_join in S. destruct (_ <=? _); [discriminate|]. destruct (aget k _) as [[x c|x c|[cn data|s0] r|a|a|a|a|a|a st]|]; try discriminate.
      + destruct (match r with RNew c => Some (RcNew c) | ROld5 st => Some (RcPresent st) | ROld3 _ => None end) as [rc|]; [|discriminate].
        destruct (session_connect5 _ _ _ _ _ _) as [[s ack]|]; [|discriminate]. destruct (s_connected s); injection S as <- <-.
        * apply waiting_eq. unfold start_keep. destruct (_ <? _); reflexivity.
        * rewrite waiting_close. apply waiting_eq. unfold start_keep. destruct (_ <? _); reflexivity.
      + destruct (match r with RNew c => Some (RcNew3 c) | ROld3 st => Some (RcPresent3 st) | ROld5 _ => None end) as [rc|]; [|discriminate].
        destruct (session_connect3 _ _ _) as [s ack]. injection S as <- <-. apply waiting_eq. unfold start_keep. destruct (_ <? _); reflexivity.
    - apply SAME; auto. unfold do_start in S. destruct (aget k _) as [[x c|x c|x r|[s|s]|a|a|a|a|a st]|]; try discriminate.
      + destruct (pendings5 _ _) as [s1 o]. injection S as <- <-. apply waiting_eq. reflexivity.
      + destruct (after_packet3 _ _) as [s1 o]. injection S as <- <-. apply waiting_eq. reflexivity.
    - apply SAME; auto. unfold do_packet5 in S. destruct (aget k _) as [[| | | |[s|s]| | | |]|]; try discriminate. destruct (is_disconnected5 s); [discriminate|].
      destruct (packet_step5 _ _ _ _ _ _ _) as [s1 g o|s1 g|]; try discriminate; injection S as <- <-; apply waiting_eq; [destruct (is_disconnected5 s1); reflexivity|reflexivity].
    - apply SAME; auto. unfold do_packet3 in S. destruct (aget k _) as [[| | | |[s|s]| | | |]|]; try discriminate. destruct (z_disc s); [discriminate|].
      destruct (packet_step3 _ _ _ _ _ _) as [s1 g o|s1 g|]; try discriminate; injection S as <- <-; apply waiting_eq; reflexivity.
    - apply SAME; auto. unfold do_malformed in S. destruct (aget k _) as [[| | | |[s|s]| | | |]|]; try discriminate. destruct (is_disconnected5 s); [discriminate|].
      destruct (error_disconnect _ _ _) as [s1 q]. injection S as <- <-. apply waiting_eq. reflexivity.
    - apply SAME; auto. unfold do_close in S. destruct (aget k _) as [[| | | |a| | | |]|]; try discriminate. injection S as <- <-. apply waiting_eq. reflexivity.
    - pose proof S as S0. unfold do_control in S. cbn [passed w_e map]. rewrite app_nil_r. unfold taken. cbn [w_e w_b].
      destruct (aget k (b_tasks b)) as [[x c|x c|x r|a|a|a|a|a|a st]|] eqn:A; try discriminate.
      + pose proof (open_own _ _ _ _ GB A eq_refl) as O. unfold received_for in O. destruct (aget (a_id a) (b_chans b)) as [[[|m cs] ms o]|] eqn:C; try discriminate. cbn in O. subst o.
        rewrite (control_wait _ _ _ _ _ _ _ _ _ d S0 S C). cbn [negb]. rewrite andb_false_r. reflexivity.
      + pose proof (open_own _ _ _ _ GB A eq_refl) as O. unfold received_for in O. destruct (aget (a_id a) (b_chans b)) as [[[|m cs] ms o]|] eqn:C; try discriminate. cbn in O. subst o.
        rewrite (control_wait _ _ _ _ _ _ _ _ _ d S0 S C). f_equal. cbn [negb]. rewrite andb_true_r. destruct a as [s|s]; cbn [a_id] in *; [destruct m; now rewrite ?andb_false_r|].
        destruct (N.eqb_spec d (z_id s)) as [->|NE].
        * rewrite C. destruct m; cbn [andb]; auto. now rewrite N.eqb_refl.
        * destruct (aget d (b_chans b)) as [[[|[ ] ] ? ?]|]; auto. now rewrite (proj2 (N.eqb_neq (z_id s) d)) by auto.
    - unfold do_normal in S. cbn [passed w_e map]. rewrite app_nil_r. unfold taken. cbn [w_e w_b]. unfold sess_at.
      assert (G : forall a t, aget k (b_tasks b) = Some t -> t_sess t = Some a -> (exists f : sess -> task, forall q, q = match aget (a_id a) (b_chans b) with
          | Some (Chan cs (m :: r) o) => let '(a1, out) := normal (seconds b) (b_cfg b) k (match t with TOnline _ => true | _ => false end) (snd m) a in
              BOk (set_task k (f a1) (set_chan (a_id a) (Chan cs r o) b)) out | _ => BNo end -> q = BOk b' out) ->
        waiting b d = match match aget k (b_tasks b) with Some t => t_sess t | None => None end with Some a => if a_id a =? d then firstn 1 (waiting b d) else [] | None => [] end ++ waiting b' d).
      { intros a t A T (f & Q). rewrite A, T. specialize (Q _ eq_refl). destruct (aget (a_id a) (b_chans b)) as [[cs [|m r] o]|] eqn:C; try discriminate.
        destruct (normal _ _ _ _ _ _) as [a1 o1]. injection Q as <- <-. erewrite (waiting_set b (set_task _ _ (set_chan _ _ _))) by reflexivity. rewrite (N.eqb_sym d). destruct (N.eqb_spec (a_id a) d) as [<-|]; [|reflexivity].
        unfold waiting. rewrite C. reflexivity. }
      destruct (aget k (b_tasks b)) as [[x c|x c|x r|a|a|a|a|a|a st]|] eqn:A; try discriminate.
      + destruct (a_disc a); [discriminate|]. apply (G a _ eq_refl eq_refl). exists TOnline. intros q ->. exact S.
      + apply (G a _ eq_refl eq_refl). exists TOffline. intros q ->. exact S.
    - unfold do_flush in S. cbn [taken w_e app]. unfold passed. cbn [w_e w_b]. unfold sess_at.
      assert (G : forall a t, aget k (b_tasks b) = Some t -> t_sess t = Some a -> (exists f a1 b1, flush d' a b = Some (a1, b1) /\ b' = set_task k (f a1) b1) ->
        waiting b d ++ map snd (if (d' =? d) && received_for b d then match match aget k (b_tasks b) with Some t => t_sess t | None => None end with
            Some a => map (fun m => (k, (a_id a, m))) (firstn 1 (queue_of (a_bcast a) d)) | None => [] end else []) = waiting b' d).
      { intros a t A T (f & a1 & b1 & F & ->). rewrite A, T. erewrite (waiting_eq b1 (set_task _ _ _)) by reflexivity. unfold flush in F.
        destruct (aget d' (a_bcast a)) as [[|m ms]|] eqn:Q; [| |discriminate].
        - injection F as _ <-. destruct (N.eqb_spec d' d) as [->|]; [|cbn; now rewrite app_nil_r]. unfold queue_of. rewrite Q. destruct (received_for b d); cbn; now rewrite app_nil_r.
        - destruct (aget d' (b_chans b)) as [ch|] eqn:C; [|discriminate]. destruct (ch_open ch) eqn:O; cbn [negb] in F.
          + destruct (norm_room ch); [|discriminate]. injection F as _ <-. erewrite (waiting_set b (set_chan _ _ _)) by reflexivity. rewrite (N.eqb_sym d). destruct (N.eqb_spec d' d) as [->|]; [|cbn; now rewrite app_nil_r].
            unfold received_for. rewrite C, O. cbn [andb]. unfold queue_of, waiting. rewrite Q, C. reflexivity.
          + injection F as _ <-. destruct (N.eqb_spec d' d) as [->|]; [|cbn; now rewrite app_nil_r]. unfold received_for. rewrite C, O. cbn. now rewrite app_nil_r. }
      destruct (aget k (b_tasks b)) as [[x c|x c|x r|a|a|a|a|a|a st]|] eqn:A; try discriminate; (destruct (flush d' a b) as [[a1 b1]|] eqn:F; [|discriminate]); injection S as <- <-; apply (G a _ eq_refl eq_refl).
      + exists TOnline, a1, b1. auto.
      + exists TDrain, a1, b1. auto.
      + exists (fun a1 => TOffDrain a1 st), a1, b1. auto.
    - apply SAME; auto. unfold do_end in S. destruct (aget k _) as [[| | | | |a| | |]|]; try discriminate. destruct (negb hook); [injection S as <- <-; rewrite waiting_close; apply waiting_eq; reflexivity|].
      assert (W : forall r, match send_will pick k a b with None => BPanic | Some (a1, b1, out, ok) => if ok then BOk (set_task k (TDrain a1) b1) out else BOk (close (a_id a) (end_task k b1)) (out ++ [OClosed k])%list end = r -> r = BOk b' out -> waiting b' d = waiting b d).
      { intros r <-. destruct (send_will _ _ _ _) as [[[[a1 b1] o1] ok]|] eqn:SW; [|discriminate]. apply send_will_chans in SW. destruct SW as (SW & _).
        destruct ok; intros H; injection H as <- <-; rewrite ?waiting_close; apply waiting_eq; auto. }
      destruct a as [s|s].
      + destruct (s_cdisc s); [injection S as <- <-; apply waiting_eq; reflexivity|]. destruct (will_due s); [injection S as <- <-; apply waiting_eq; destruct (_ <? _); reflexivity|]. eapply W; eauto.
      + destruct (z_disc s); [injection S as <- <-; apply waiting_eq; reflexivity|]. eapply W; eauto.
    - apply SAME; auto. unfold do_done in S.
      assert (W : forall a, match remove_client a b with None => BPanic | Some b1 => BOk (close (a_id a) (end_task k b1)) [] end = BOk b' out -> waiting b' d = waiting b d).
      { intros a. destruct (remove_client a b) as [b1|] eqn:RM; [|discriminate]. intros H; injection H as <- <-. rewrite waiting_close. apply waiting_eq. apply remove_tasks in RM. apply RM. }
      destruct (aget k _) as [[| | | | | |a| |a st]|]; try discriminate.
      + destruct (a_bcast a); [|discriminate]. destruct (a_ends a); [eauto|]. destruct (reg_offline _ _); [|discriminate]. destruct a; injection S as <- <-; apply waiting_eq; reflexivity.
      + destruct (a_bcast a); [|discriminate]. destruct st; [eauto|]. injection S as <- <-. apply waiting_eq. reflexivity.
    - apply SAME; auto. unfold do_fire in S. destruct (nth_error _ _) as [[c k half due|c t due|c t due|c m]|]; try discriminate.
      + destruct (_ <? _); [discriminate|]. destruct (_ <=? _); [injection S as <- <-; apply waiting_eq; reflexivity|]. destruct (in_list _ _); injection S as <- <-; apply waiting_eq; reflexivity.
      + destruct (_ <? _); [discriminate|]. destruct (in_list _ _); injection S as <- <-; apply waiting_eq; reflexivity.
      + destruct (_ <? _); [discriminate|]. destruct (in_list _ _); injection S as <- <-; apply waiting_eq; reflexivity.
      + destruct (aget c (b_chans b)) as [ch|] eqn:C; [|discriminate]. destruct (negb _); [injection S as <- <-; apply waiting_eq; reflexivity|]. destruct (ctl_room ch); [|discriminate].
        injection S as <- <-. eapply set_same_norm; [reflexivity|exact C|reflexivity].
    - apply SAME; auto. injection S as <- <-. apply waiting_eq. reflexivity.
  Qed.

  Lemma channel_lemma c h b d : brun c h b -> map snd (passed_in d h) = taken_in d h ++ waiting b d.
  Proof.
    induction 1 as [|h b e b' out R IH S]; [reflexivity|]. pose proof (run_good _ _ _ _ _ _ R) as G. cbn [passed_in taken_in]. rewrite map_app, IH, <- !app_assoc. f_equal. apply chan_step; auto.
  Qed.
  Notation evol := (evol hash5 hash3 pick).
  (** ** What a session has queued for others *)
  Definition sbc (a : sess) : bcast * N := (a_bcast a, a_bcnt a).
  Definition bc_ok (a : sess) : Prop := NoDup (keys (a_bcast a)) /\ a_bcnt a = total (a_bcast a).

  Lemma sbc_set bc n a : sbc (a_set_bcast bc n a) = (bc, n).
  Proof. destruct a; reflexivity. Qed.
  Lemma send_will_grows k a b a1 b1 out ok : send_will pick k a b = Some (a1, b1, out, ok) -> bgrows (sbc a) (sbc a1).
  Proof.
    unfold send_will. destruct a as [s|s].
    - unfold send_will5. destruct (s_will s) as [w|].
      + destruct (enc_len5 _); [|intros H; injection H as <- <- <- <-; apply bgrows_refl].
        destruct (send_publish5 _ _ _ _) as [[[s2 g2] n2]|] eqn:E; [|discriminate]. intros H; injection H as <- <- <- <-. apply send_publish5_grows in E. exact E.
      + intros H; injection H as <- <- <- <-; apply bgrows_refl.
    - unfold send_will3. destruct (z_will s) as [w|].
      + destruct (enc_len3 _); [|intros H; injection H as <- <- <- <-; apply bgrows_refl].
        destruct (send_publish3 _ _ _) as [[s2 g2]|] eqn:E; [|discriminate]. intros H; injection H as <- <- <- <-. apply send_publish3_grows in E. exact E.
      + intros H; injection H as <- <- <- <-; apply bgrows_refl.
  Qed.
  Lemma normal_grows now c k on m a a' out : normal now c k on m a = (a', out) -> bgrows (sbc a) (sbc a').
  Proof.
    unfold normal. destruct a as [s|s].
    - pose proof (normal_same now c m s) as N. destruct (handle_normal5 now c m s) as [s1 r]. apply samebc_grows in N. cbn [fst] in N. destruct r as [[q p]|]; [|intros H; injection H as <- <-; exact N].
      destruct on; [|intros H; injection H as <- <-; exact N]. pose proof (pendings_same now s1) as P. apply samebc_grows in P.
      destruct (qos_eqb q L0); [intros H; injection H as <- <-; exact N|]. destruct (pendings5 now s1) as [s2 more]. intros H; injection H as <- <-. eapply bgrows_trans; [exact N|exact P].
    - pose proof (normal3_same now m s) as N. destruct (handle_normal3 now m s) as [s1 r]. apply same3_grows in N. cbn [fst] in N. destruct r as [[q p]|]; [|intros H; injection H as <- <-; exact N].
      destruct on; [|intros H; injection H as <- <-; exact N]. pose proof (pendings3_same now s1) as P. apply same3_grows in P.
      destruct (qos_eqb q L0); [intros H; injection H as <- <-; exact N|]. destruct (pendings3 now s1) as [s2 more]. intros H; injection H as <- <-. eapply bgrows_trans; [exact N|exact P].
  Qed.
  Lemma evol_grows b e out k a a' : evol b e out k a a' -> (forall d, e <> EFlush k d) -> bgrows (sbc a) (sbc a').
  Proof.
    intros V NF. destruct V as [a ID|len x s1 s2 g o E A D PS O|len x s1 s2 g E A D PS O|reason s1 s2 p E D ED O|len x s1 s2 g o E A D PS O|len x s1 s2 g E A D PS O
      |on a a' cs m r o E A D CH NM|d a bc n E O|s1 s2 o E A PE O|s1 s2 o E A PE O|a a' b0 b1 ok GB E SW|a E O].
    - apply bgrows_refl.
    - unfold packet_step5 in PS. destruct (handle_packet5 _ _ _ _ _ _ _) as [s3 g3 o3| |] eqn:H; try discriminate. apply packet_grows in H.
      pose proof (after_same (seconds b) s3) as AS. destruct (after_packet5 _ s3) as [s4 o4]. injection PS as <- _ _. apply samebc_grows in AS. eapply bgrows_trans; [exact H|exact AS].
    - unfold packet_step5 in PS. destruct (handle_packet5 _ _ _ _ _ _ _) as [s3 g3 o3|s3 g3|] eqn:H; try discriminate.
      + destruct (after_packet5 _ s3); discriminate.
      + injection PS as <- <-. apply packet_stop in H. destruct H as (-> & _). apply bgrows_refl.
    - pose proof (error_same RC_malformed reason s1) as ES. rewrite ED in ES. apply samebc_grows in ES. exact ES.
    - unfold packet_step3 in PS. pose proof (packet3_both hash3 (seconds b) len x s1 (glob_of b)) as H. destruct (handle_packet3 _ _ _ _ _ _) as [s3 g3 o3| |]; try discriminate.
      pose proof (pendings3_same (seconds b) (zwith_last (seconds b) s3)) as AS. unfold after_packet3 in PS. destruct (pendings3 _ _) as [s4 o4]. injection PS as <- _ _. apply same3_grows in AS.
      eapply bgrows_trans; [exact H|exact AS].
    - unfold packet_step3 in PS. pose proof (packet3_both hash3 (seconds b) len x s1 (glob_of b)) as H. destruct (handle_packet3 _ _ _ _ _ _) as [s3 g3 o3|s3 g3|]; try discriminate.
      + destruct (after_packet3 _ s3); discriminate.
      + injection PS as <- <-. exact H.
    - eapply normal_grows; eauto.
    - destruct (NF _ E).
    - pose proof (pendings_same (seconds b) (with_last (seconds b) s1)) as P. rewrite PE in P. apply samebc_grows in P. exact P.
    - pose proof (pendings3_same (seconds b) (zwith_last (seconds b) s1)) as P. unfold after_packet3 in PE. rewrite PE in P. apply same3_grows in P. exact P.
    - eapply send_will_grows; eauto.
    - apply bgrows_eq. destruct a; reflexivity.
  Qed.

  Lemma joined_empty c h b k x r a o : brun c h b -> aget k (b_tasks b) = Some (TJoin x r) -> joined b x r a o k -> a_bcast a = [] /\ a_bcnt a = 0.
  Proof.
    intros R A J. pose proof (conn_from _ _ _ _ _ _ _ _ R A) as CO. cbn in CO.
    assert (C : exists q, connecting (w_b q) (w_e q) x) by (destruct r; destruct CO as (q & _ & Q & _); exists q; exact Q). clear CO. destruct C as (q & C).
    destruct C as [(t0 & uuid & p & data & _ & _ & ->)|(t0 & uuid & p & _ & _ & ->)]; cbn [joined] in J.
    - destruct J as (rc & s & ack & _ & SC & _ & -> & _). cbn [a_bcast a_bcnt]. unfold session_connect5 in SC.
      destruct (match rc with RcNew id => (with_id id _, false) | RcPresent st => _ end) as [s1 present] eqn:E1.
      assert (B : s_bcast s1 = [] /\ s_bcnt s1 = 0).
      { destruct rc as [id|st]; [injection E1 as <- <-; split; reflexivity|]. destruct (negb _); injection E1 as <- <-; split; reflexivity. }
      destruct (max_allowed_qos _); [|discriminate]. injection SC as <- _. destruct (_ =? RC_success); cbn; destruct (cf_max_expiry (b_cfg b) <? _); exact B.
    - destruct J as (rc & s & ack & _ & SC & -> & _). cbn [a_bcast a_bcnt]. unfold session_connect3 in SC. destruct rc as [id|st]; [|destruct (_ && _)]; injection SC as <- _; split; reflexivity.
  Qed.

  Lemma total_adel d (b : bcast) : NoDup (keys b) -> total (adel d b) + N.of_nat (List.length (queue_of b d)) = total b.
  Proof.
    induction b as [|[d' l] b IH]; intros ND; [reflexivity|]. inversion_clear ND as [|? ? N1 N2]. unfold queue_of. cbn [adel aget]. change (@eqb client_id _ d d') with (N.eqb d d').
    destruct (N.eqb_spec d d') as [->|]; cbn [total fold_right snd]; fold (total b).
    - lia.
    - specialize (IH N2). unfold queue_of in IH. fold (total (adel d b)). lia.
  Qed.
  Lemma queue_adel d d' (b : bcast) : NoDup (keys b) -> queue_of (adel d b) d' = if d' =? d then [] else queue_of b d'.
  Proof. intros ND. unfold queue_of. destruct (N.eqb_spec d' d) as [->|NE]; [rewrite aget_adel_eq by auto|rewrite aget_adel_ne by auto]; reflexivity. Qed.

  (** A message leaves a queue, or the queue is dropped. *)
  Lemma flush_queue d a b a1 b1 : bc_ok a -> flush d a b = Some (a1, b1) -> bc_ok a1 /\
    (forall d', d' <> d -> queue_of (a_bcast a1) d' = queue_of (a_bcast a) d') /\
    queue_of (a_bcast a1) d = if received_for b d then skipn 1 (queue_of (a_bcast a) d) else [].
  Proof.
    clear pick. intros (ND & CN) F. unfold flush in F. destruct (aget d (a_bcast a)) as [[|m ms]|] eqn:Q; [| |discriminate].
    - injection F as <- <-. unfold bc_ok. pose proof (f_equal fst (sbc_set (adel d (a_bcast a)) (a_bcnt a) a)) as E1. pose proof (f_equal snd (sbc_set (adel d (a_bcast a)) (a_bcnt a) a)) as E2. cbn in E1, E2.
      rewrite E1, E2. pose proof (total_adel d (a_bcast a) ND) as T. unfold queue_of in T. rewrite Q in T. cbn in T. repeat split.
      + apply NoDup_adel. auto.
      + lia.
      + intros d' NE. rewrite queue_adel by auto. apply N.eqb_neq in NE. now rewrite NE.
      + rewrite queue_adel by auto. rewrite N.eqb_refl. unfold queue_of. rewrite Q. destruct (received_for b d); reflexivity.
    - destruct (aget d (b_chans b)) as [ch|] eqn:C; [|discriminate]. unfold received_for. rewrite C. destruct (ch_open ch) eqn:O; cbn [negb] in F.
      + destruct (norm_room ch); [|discriminate]. injection F as <- <-. unfold bc_ok.
        pose proof (f_equal fst (sbc_set (aset d ms (a_bcast a)) (a_bcnt a - 1) a)) as E1. pose proof (f_equal snd (sbc_set (aset d ms (a_bcast a)) (a_bcnt a - 1) a)) as E2. cbn in E1, E2.
        rewrite E1, E2. pose proof (total_aset d ms (a_bcast a) ND) as T. unfold OnlineModel.queue_of in T. rewrite Q in T. cbn [List.length] in T. repeat split.
        * apply NoDup_aset. auto.
        * lia.
        * intros d' NE. change (OnlineModel.queue_of (aset d ms (a_bcast a)) d' = queue_of (a_bcast a) d'). rewrite queue_of_aset. apply N.eqb_neq in NE. now rewrite NE.
        * change (OnlineModel.queue_of (aset d ms (a_bcast a)) d = skipn 1 (queue_of (a_bcast a) d)). rewrite queue_of_aset, N.eqb_refl. unfold queue_of. rewrite Q. reflexivity.
      + injection F as <- <-. unfold bc_ok. set (n := a_bcnt a - _). pose proof (f_equal fst (sbc_set (adel d (a_bcast a)) n a)) as E1. pose proof (f_equal snd (sbc_set (adel d (a_bcast a)) n a)) as E2. cbn in E1, E2.
        rewrite E1, E2. pose proof (total_adel d (a_bcast a) ND) as T. unfold queue_of in T. rewrite Q in T. repeat split.
        * apply NoDup_adel. auto.
        * subst n. cbn [List.length] in *. lia.
        * intros d' NE. rewrite queue_adel by auto. apply N.eqb_neq in NE. now rewrite NE.
        * rewrite queue_adel by auto. now rewrite N.eqb_refl.
  Qed.
  Lemma flush_step k d b b' out a' : bstep (EFlush k d) b = BOk b' out -> sess_at b' k = Some a' -> exists a b1, sess_at b k = Some a /\ flush d a b = Some (a', b1).
  Proof.
    cbn [BrokerModel.bstep]. unfold do_flush, sess_at. intros S SA.
    destruct (aget k (b_tasks b)) as [[x c|x c|x r|a|a|a|a|a|a st]|] eqn:A; try discriminate; (destruct (flush d a b) as [[a1 b1]|] eqn:F; [|discriminate]); injection S as <- <-;
      cbn [set_task set_tasks b_tasks] in SA; rewrite aget_N, N.eqb_refl in SA; cbn in SA; injection SA as <-; exists a, b1; auto.
  Qed.

  Lemma run_bc c h b k a : brun c h b -> sess_at b k = Some a -> bc_ok a.
  Proof.
    intros R. revert k a. induction R as [|h b e b' out R IH S]; [discriminate|]. intros k a' SA. pose proof (run_good _ _ _ _ _ _ R) as G.
    destruct (step_evol _ _ _ _ _ _ _ G S k _ SA) as [(a & A & V)|(x & r & o & A & E & O & J)].
    - assert (NF : (exists d, e = EFlush k d) \/ forall d, e <> EFlush k d).
      { destruct e; try (right; intros; discriminate). destruct (N.eq_dec k k0) as [->|NE]; [left; eauto|right; intros d' X; injection X as X _; auto]. }
      destruct NF as [(d & ->)|NF].
      + destruct (flush_step _ _ _ _ _ _ S SA) as (a0 & b1 & A0 & F). rewrite A in A0. injection A0 as <-. apply (flush_queue _ _ _ _ _ (IH _ _ A) F).
      + exact (proj1 (evol_grows _ _ _ _ _ _ V NF (IH _ _ A))).
    - destruct (joined_empty _ _ _ _ _ _ _ _ R A J) as (E1 & E2). unfold bc_ok. rewrite E1, E2. split; [constructor|reflexivity].
  Qed.

  Lemma unborn_sess b k : unborn b k -> sess_at b k = None.
  Proof. unfold unborn, sess_at. destruct (aget k (b_tasks b)) as [t|]; [|auto]. destruct t; cbn; auto; discriminate. Qed.
  Lemma passed_other k d p : (forall d', w_e p <> EFlush k d') -> passed_by k (passed d p) = [].
  Proof.
    intros NF. unfold passed. destruct (w_e p); try reflexivity. destruct (_ && _); [|reflexivity]. destruct (sess_at _ k0) as [a|]; [|reflexivity].
    assert (NE : k0 <> k) by (intros ->; exact (NF _ eq_refl)). induction (firstn 1 (queue_of (a_bcast a) d)); [reflexivity|]. cbn. rewrite (proj2 (N.eqb_neq _ _) NE). auto.
  Qed.
  Lemma unborn_none c h b k d : brun c h b -> unborn b k -> queued_in k d h b = [] /\ passed_by k (passed_in d h) = [].
  Proof.
    induction 1 as [|h b e b' out R IH S]; [split; reflexivity|]. intros U. pose proof (run_good _ _ _ _ _ _ R) as G. pose proof (unborn_back _ _ _ _ _ _ _ _ G S U) as U0. destruct (IH U0) as (A & B).
    cbn [queued_in passed_in w_b]. rewrite A. unfold queued. rewrite (unborn_sess _ _ U0). split; [reflexivity|]. unfold passed_by in *. rewrite flat_map_app, B. apply passed_other. intros d' X. cbn in X. subst e.
    cbn [BrokerModel.bstep] in S. unfold do_flush in S. unfold unborn in U0. destruct (aget k (b_tasks b)) as [[]|]; discriminate.
  Qed.
  Lemma skipn_all_app {A} (l m : list A) : skipn (List.length l) (l ++ m) = m.
  Proof. rewrite skipn_app, skipn_all, Nat.sub_diag. reflexivity. Qed.

  Lemma sender_lemma c h b k a d : brun c h b -> sess_at b k = Some a -> (forall p, In p h -> ~ cut_off k d p) ->
    queued_in k d h b = passed_by k (passed_in d h) ++ queue_of (a_bcast a) d.
  Proof.
    intros R. revert a. induction R as [|h b e b' out R IH S]; [discriminate|]. intros a' SA NC. pose proof (run_good _ _ _ _ _ _ R) as G. cbn [queued_in passed_in w_b].
    unfold passed_by in *. rewrite flat_map_app. fold (passed_by k (passed d (Past b e out))).
    destruct (step_evol _ _ _ _ _ _ _ G S k _ SA) as [(a & A & V)|(x & r & o & A & E & O & J)].
    - rewrite (IH _ A) by (intros; apply NC; right; auto). rewrite <- !app_assoc. f_equal. unfold queued. rewrite A, SA.
      assert (NF : (exists d, e = EFlush k d) \/ forall d, e <> EFlush k d).
      { destruct e; try (right; intros; discriminate). destruct (N.eq_dec k k0) as [->|NE]; [left; eauto|right; intros d' X; injection X as X _; auto]. }
      pose proof (run_bc _ _ _ _ _ R A) as BC.
      destruct NF as [(d1 & ->)|NF].
      + destruct (flush_step _ _ _ _ _ _ S SA) as (a0 & b1 & A0 & F). rewrite A in A0. injection A0 as <-. destruct (flush_queue _ _ _ _ _ BC F) as (_ & F1 & F2).
        unfold passed. cbn [w_e w_b]. destruct (N.eqb_spec d1 d) as [->|NE].
        * assert (RF : received_for b d = true) by (destruct (received_for b d) eqn:RF; [reflexivity|]; destruct (NC _ (or_introl eq_refl)); split; auto).
          rewrite RF in F2 |- *. rewrite F2, A. cbn [andb]. destruct (queue_of (a_bcast a) d) as [|m ms]; cbn [skipn firstn map]; [reflexivity|].
          unfold passed_by. cbn [flat_map fst snd]. rewrite N.eqb_refl. cbn [app List.length].
          rewrite (skipn_all2 ms) by (cbn; lia). now rewrite app_nil_r.
        * cbn [andb]. rewrite F1 by auto. rewrite skipn_all. cbn. now rewrite app_nil_r.
      + rewrite passed_other by (cbn; auto). destruct (evol_grows _ _ _ _ _ _ V NF BC) as (_ & _ & Q). destruct (Q d) as (ms & E). cbn [sbc fst] in E.
        change (queue_of (a_bcast a') d = queue_of (a_bcast a) d ++ ms) in E. rewrite E, skipn_all_app. reflexivity.
    - subst e. pose proof (join_unborn _ _ _ _ _ _ _ S) as U. destruct (unborn_none _ _ _ _ d R U) as (Q1 & Q2). rewrite Q1. unfold passed_by in Q2. rewrite Q2. cbn [app].
      unfold queued. rewrite (unborn_sess _ _ U). destruct (joined_empty _ _ _ _ _ _ _ _ R A J) as (E1 & _). rewrite E1. reflexivity.
  Qed.
End Acc.
