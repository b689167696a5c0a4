(** What the packet handlers leave alone: the identity of the session, its will and its
    intervals; and to whom they queue messages. *)
From Coq Require Import List Bool String Ascii NArith Lia.
From Verif Require Import Base BaseLemmas TopicModel MsgModel PendingModel AliasModel OutModel RouteModel RetainModel GlobModel Sess5Model Sess3Model ConnModel.
Import ListNotations.
Local Open Scope N_scope.

Definition same5 (s s' : sess5) : Prop :=
  s_id s' = s_id s /\ s_ident s' = s_ident s /\ s_connected s' = s_connected s /\ s_ctime s' = s_ctime s /\
  s_will s' = s_will s /\ s_keep s' = s_keep s /\ s_clean s' = s_clean s /\ s_expiry s' = s_expiry s /\ s_cdisc s' = s_cdisc s.
Lemma same5_refl s : same5 s s. Proof. repeat split. Qed.
Lemma same5_trans a b c : same5 a b -> same5 b c -> same5 a c.
Proof. unfold same5. intros (?&?&?&?&?&?&?&?&?) (?&?&?&?&?&?&?&?&?). repeat split; congruence. Qed.
Local Hint Resolve same5_refl : core.

Definition live_only (live : list client_id) (b b' : bcast) : Prop :=
  forall d, aget d b' <> None -> aget d b <> None \/ existsb (N.eqb d) live = true.
Lemma live_refl l b : live_only l b b. Proof. intros d H; auto. Qed.
Lemma live_trans l a b c : live_only l a b -> live_only l b c -> live_only l a c.
Proof. intros H1 H2 d H. destruct (H2 d H) as [A|A]; auto. Qed.
Local Hint Resolve live_refl : core.

Lemma queue_msg_live g c m bc : live_only (g_live g) (fst bc) (fst (queue_msg g c m bc)).
Proof.
  destruct bc as [b n]. intros d H. revert H. unfold queue_msg. destruct (aget c b) as [l|] eqn:A.
  - rewrite A. cbn [fst]. rewrite aget_aset. change (@eqb client_id _ d c) with (N.eqb d c). destruct (N.eqb_spec d c) as [->|]; auto.
    intros _. left. congruence.
  - destruct (has_sender g c) eqn:L.
    + rewrite aget_aset_eq. cbn [fst]. rewrite !aget_aset. change (@eqb client_id _ d c) with (N.eqb d c). destruct (N.eqb_spec d c) as [->|]; auto.
    + rewrite A. cbn [fst]. auto.
Qed.
Lemma queue_all_live g mk (l : list (client_id * mk)) (f : client_id * mk -> nmsg) : forall bc,
  live_only (g_live g) (fst bc) (fst (fold_left (fun bc e => queue_msg g (fst e) (f e) bc) l bc)).
Proof.
  induction l as [|e l IH]; intros bc; cbn [fold_left]; auto.
  eapply live_trans; [|apply IH]. apply queue_msg_live.
Qed.

Lemma store_keep r x g : g_live (store_retained r x g) = g_live g /\ g_cfg (store_retained r x g) = g_cfg g /\ g_route (store_retained r x g) = g_route g.
Proof. unfold store_retained. destruct r; auto. destruct (String.eqb _ _); auto. Qed.

Definition gkeep (g g' : glob) : Prop := g_live g' = g_live g /\ g_cfg g' = g_cfg g.
Lemma gkeep_refl g : gkeep g g. Proof. split; auto. Qed.
Lemma gkeep_trans a b c : gkeep a b -> gkeep b c -> gkeep a c.
Proof. intros [? ?] [? ?]. split; congruence. Qed.
Local Hint Resolve gkeep_refl : core.

(** All three facts about a step from [s, g] to [s', g']. *)
Definition keep5 (s : sess5) (g : glob) (s' : sess5) (g' : glob) : Prop :=
  same5 s s' /\ gkeep g g' /\ live_only (g_live g) (s_bcast s) (s_bcast s').
Lemma keep5_refl s g : keep5 s g s g. Proof. repeat split; auto. Qed.
Lemma keep5_trans s1 g1 s2 g2 s3 g3 : keep5 s1 g1 s2 g2 -> keep5 s2 g2 s3 g3 -> keep5 s1 g1 s3 g3.
Proof.
  intros (A & B & C) (A' & B' & C'). split; [eapply same5_trans; eauto|]. split; [eapply gkeep_trans; eauto|].
  eapply live_trans; [exact C|]. destruct B as [B _]. rewrite <- B. exact C'.
Qed.
Local Hint Resolve keep5_refl : core.
Lemma keep5_same s g s' : same5 s s' -> s_bcast s' = s_bcast s -> keep5 s g s' g.
Proof. intros A B. split; auto. split; auto. rewrite B. auto. Qed.
Ltac k5 := apply keep5_same; [repeat split|reflexivity].

Lemma send_publish5_keep pick m s g s' g' n : send_publish5 pick m s g = Done (s', g', n) -> keep5 s g s' g'.
Proof.
  unfold send_publish5.
  set (g1 := store_retained _ _ g). destruct (store_keep (sp_retain m) (RContent (s_ident s) (sp_qos m) (sp_topic m) (sp_payload m) (Some (sp_props m)) (sp_len m)) g) as (L & C & R).
  fold g1 in L, C, R. destruct (collect_senders _ _ _) as [l|]; [|discriminate].
  match goal with |- context[fold_left ?f l ?i] => pose proof (queue_all_live g1 _ l (fun e => NM5 (NMsg5 (sp_retain m) (sp_qos m) (sp_topic m) (sp_payload m) (fst (snd e)) (snd (snd e)) (sp_props m) (sp_len m))) i) as Q; destruct (fold_left f l i) as [b c] eqn:E end.
  intros H. inversion H; subst; clear H. split; [repeat split|]. split; [split; auto|].
  cbn [s_bcast with_bcast]. rewrite <- L. exact Q.
Qed.

Lemma resolve_keep amax w s g s1 r : resolve_topic amax w s = (s1, r) -> keep5 s g s1 g.
Proof.
  unfold resolve_topic. destruct (pp_alias _).
  - destruct (_ =? 0); [intros H; inversion H; subst; auto|]. destruct (_ <? _); [intros H; inversion H; subst; auto|].
    destruct (String.eqb _ _); [destruct (aget _ _); intros H; inversion H; subst; auto|].
    intros H; inversion H; subst. k5.
  - destruct (String.eqb _ _); intros H; inversion H; subst; auto.
Qed.
Lemma check_qos2_keep hash limit w s g s1 v : check_qos2 hash limit w s = (s1, v) -> keep5 s g s1 g.
Proof.
  unfold check_qos2. destruct (w5_qp w); try (intros H; inversion H; subst; auto; fail).
  destruct (aget p (s_qos2 s)).
  - destruct (negb _); [intros H; inversion H; subst; auto|]. destruct (negb _); intros H; inversion H; subst; auto.
  - destruct (_ <=? _); intros H; inversion H; subst; auto. k5.
Qed.
Lemma error_keep code reason s g : keep5 s g (fst (error_disconnect code reason s)) g.
Proof. unfold error_disconnect; cbn [fst]. k5. Qed.

Lemma handle_publish5_keep hash pick w s g s' g' out : handle_publish5 hash pick w s g = Done (s', g', out) -> keep5 s g s' g'.
Proof.
  unfold handle_publish5.
  assert (REF : forall code reason s0, keep5 s g s0 g ->
    (let '(s1, k) := error_disconnect code reason s0 in Done (s1, g, [k])) = Done (s', g', out) -> keep5 s g s' g').
  { intros code reason s0 K H. pose proof (error_keep code reason s0 g) as E. destruct (error_disconnect code reason s0) as [s1 k].
    inversion H; subst. eapply keep5_trans; eauto. }
  destruct (starts_with_dollar _); [intros H; eapply REF; [|exact H]; auto|].
  destruct (_ && _); [intros H; eapply REF; [|exact H]; auto|].
  destruct (resolve_topic _ w s) as [s1 [T|[code reason]]] eqn:RT.
  2:{ intros H. eapply REF; [|exact H]. eapply resolve_keep; eauto. }
  pose proof (resolve_keep _ _ _ g _ _ RT) as K1.
  destruct (negb _); [intros H; eapply REF; [|exact H]; auto|].
  destruct (check_qos2 _ _ _ s1) as [s2 v] eqn:CQ. pose proof (check_qos2_keep _ _ _ _ g _ _ CQ) as K2.
  assert (K12 : keep5 s g s2 g) by (eapply keep5_trans; eauto).
  destruct v as [| |code reason].
  - destruct (_ && _); [intros H; inversion H; subst; auto|]. destruct (enc_len5 w); [|discriminate].
    destruct (send_publish5 _ _ s2 g) as [[[s3 g3] n3]|] eqn:SP; [|discriminate]. intros H; inversion H; subst.
    eapply keep5_trans; [exact K12|]. eapply send_publish5_keep; eauto.
  - intros H; inversion H; subst; auto.
  - intros H. eapply REF; [|exact H]. auto.
Qed.

Lemma recv_publish5_keep now m s g s' r : recv_publish5 now m s = (s', r) -> keep5 s g s' g.
Proof.
  unfold recv_publish5. destruct (match rp_ids m with Lookup f => _ | Precomputed l => _ end); [|intros H; inversion H; subst; auto].
  destruct (negb (qos_eqb _ L0)).
  - destruct (_ <? _); [intros H; inversion H; subst; auto|]. destruct (out5_push _ _ _). intros H; inversion H; subst. k5.
  - destruct (_ && _); [|intros H; inversion H; subst; auto]. destruct (_ <? _); [intros H; inversion H; subst; auto|].
    destruct (out5_qos0 _ _ _ _ _). intros H; inversion H; subst. k5.
Qed.
Lemma handle_normal5_keep now c m s g s' r : handle_normal5 now c m s = (s', r) -> keep5 s g s' g.
Proof.
  unfold handle_normal5. destruct m as [m|m].
  - destruct (aget _ _); [|intros H; inversion H; subst; auto]. apply recv_publish5_keep.
  - destruct (filters_info _ _) as [[has rap] ids]. destruct has; [|intros H; inversion H; subst; auto]. apply recv_publish5_keep.
Qed.
Lemma pendings5_keep now s g s' out : pendings5 now s = (s', out) -> keep5 s g s' g.
Proof. unfold pendings5. destruct (handle_pendings5 _ _). intros H; inversion H; subst. k5. Qed.
Lemma send_retained_keep now f o ms g : forall s s' out p, send_retained now f o ms s = (s', out, p) -> keep5 s g s' g.
Proof.
  induction ms as [|m r IH]; intros s s' out p; cbn [send_retained]; [intros H; inversion H; subst; auto|].
  destruct (_ && _); [apply IH|].
  destruct (recv_publish5 _ _ s) as [s1 res] eqn:R. pose proof (recv_publish5_keep _ _ _ g _ _ R) as K1.
  destruct (send_retained now f o r s1) as [[s2 out2] pend] eqn:S. pose proof (IH _ _ _ _ S) as K2.
  destruct res as [[q k]|]; intros H; inversion H; subst; eapply keep5_trans; eauto.
Qed.
Lemma route_keep t g : gkeep g (set_route t g). Proof. split; reflexivity. Qed.
Lemma keep5_route s g s' g' t : keep5 s g s' g' -> keep5 s g s' (set_route t g').
Proof. intros (A & B & C). split; auto. Qed.
Lemma subscribe_one_keep now id f o s g s' g' code out : subscribe_one now id f o s g = Done (s', g', code, out) -> keep5 s g s' g'.
Proof.
  unfold subscribe_one. destruct (max_allowed_qos _); [|discriminate].
  destruct (_ <? 0x80); [|intros H; inversion H; subst; auto].
  destruct (rt_subscribe _ _ _ _) as [t p]. destruct p; [discriminate|].
  set (s1 := with_subs _ s). assert (K1 : keep5 s g s1 g) by k5.
  destruct (_ && _ && _).
  - destruct (ret_get_matches _ _) as [ms|]; [|discriminate].
    destruct (send_retained _ _ _ _ s1) as [[s2 o2] pend] eqn:S. pose proof (send_retained_keep _ _ _ _ g _ _ _ _ S) as K2.
    destruct pend.
    + destruct (pendings5 now s2) as [s3 o3] eqn:P. pose proof (pendings5_keep _ _ g _ _ P) as K3.
      intros H; inversion H; subst. apply keep5_route. eapply keep5_trans; [exact K1|]. eapply keep5_trans; eauto.
    + intros H; inversion H; subst. apply keep5_route. eapply keep5_trans; eauto.
  - intros H; inversion H; subst. apply keep5_route. auto.
Qed.
Lemma subscribe_all_keep now id fs : forall s g s' g' codes out, subscribe_all now id fs s g = Done (s', g', codes, out) -> keep5 s g s' g'.
Proof.
  induction fs as [|[f o] r IH]; intros s g s' g' codes out; cbn [subscribe_all]; [intros H; inversion H; subst; auto|].
  destruct (subscribe_one now id f o s g) as [[[[s1 g1] code] out1]|] eqn:S; [|discriminate].
  destruct (subscribe_all now id r s1 g1) as [[[[s2 g2] codes2] out2]|] eqn:A; [|discriminate].
  intros H; inversion H; subst. eapply keep5_trans; [eapply subscribe_one_keep; eauto|eapply IH; eauto].
Qed.
Lemma unsubscribe_all_keep fs : forall s g s' g' codes, unsubscribe_all fs s g = Done (s', g', codes) -> keep5 s g s' g'.
Proof.
  induction fs as [|f r IH]; intros s g s' g' codes; cbn [unsubscribe_all]; [intros H; inversion H; subst; auto|].
  destruct (rt_unsubscribe _ _ _) as [t p]. destruct p; [discriminate|].
  destruct (unsubscribe_all r _ _) as [[[s2 g2] codes2]|] eqn:A; [|discriminate].
  intros H; inversion H; subst. eapply keep5_trans; [|eapply IH; eauto]. apply keep5_route. k5.
Qed.

(** All packets but DISCONNECT. *)
Definition is_disconnect5 (x : in5) : bool := match x with IDisconnect _ _ => true | _ => false end.
Lemma handle_packet5_keep hash pick now len x s g : is_disconnect5 x = false ->
  match handle_packet5 hash pick now len x s g with
  | Go s' g' _ | Stop s' g' => keep5 s g s' g'
  | Crash => True
  end.
Proof.
  intros D. unfold handle_packet5. destruct (_ <? len); [exact (error_keep RC_packet_too_large "Packet too large" s g)|].
  destruct x; try discriminate D.
  - destruct (handle_publish5 hash pick w s g) as [[[s' g'] out]|] eqn:H; auto. eapply handle_publish5_keep; eauto.
  - k5.
  - unfold handle_pubrec5. destruct (out5_on_queue _ _). k5.
  - unfold handle_pubrel5. destruct (aget p (s_qos2 s)); auto. k5.
  - k5.
  - destruct (handle_subscribe5 now p id fs s g) as [[[s' g'] out]|] eqn:H; auto. revert H. unfold handle_subscribe5.
    assert (D0 : forall r : outcome (sess5 * glob * list pkt5),
      match subscribe_all now id fs s g with Panic => Panic | Done (s0, g0, codes, out0) => Done (s0, g0, (out0 ++ [KSuback p codes])%list) end = r ->
      r = Done (s', g', out) -> keep5 s g s' g').
    { intros r E H. rewrite H in E. destruct (subscribe_all now id fs s g) as [[[[s0 g0] codes] o0]|] eqn:A; [|discriminate].
      inversion E; subst. eapply subscribe_all_keep; eauto. }
    destruct id as [n|].
    + destruct n as [|n].
      * pose proof (error_keep RC_protocol_error "Subscription identifier value=0 is not allowed" s g) as E.
        destruct (error_disconnect _ _ s). intros H; inversion H; subst. exact E.
      * destruct (_ && _); [intros H; inversion H; subst; auto|]. intros H. eapply D0; eauto.
    + destruct (_ && _); [intros H; inversion H; subst; auto|]. intros H. eapply D0; eauto.
  - unfold handle_unsubscribe5. destruct (unsubscribe_all fs s g) as [[[s' g'] codes]|] eqn:A; auto. eapply unsubscribe_all_keep; eauto.
  - auto.
  - auto.
Qed.

Lemma after_packet5_keep now s g s' out : after_packet5 now s = (s', out) -> keep5 s g s' g.
Proof.
  unfold after_packet5. destruct (is_disconnected5 s); [intros H; inversion H; subst; auto|].
  intros H. eapply keep5_trans; [|eapply pendings5_keep; eauto]. k5.
Qed.
Lemma after_packet5_disc now s s' out : after_packet5 now s = (s', out) -> s_cdisc s' = s_cdisc s /\ s_sdisc s' = s_sdisc s.
Proof.
  unfold after_packet5. destruct (is_disconnected5 s); [intros H; inversion H; subst; auto|].
  unfold pendings5. destruct (handle_pendings5 _ _). intros H; inversion H; subst; auto.
Qed.

(** Any packet: the session keeps its identity; its will stays or is dropped. *)
Definition step_kept5 (x : in5) (s : sess5) (g : glob) (s' : sess5) (g' : glob) : Prop :=
  if is_disconnect5 x then
    (s_id s' = s_id s /\ s_ident s' = s_ident s /\ s_connected s' = s_connected s /\ s_ctime s' = s_ctime s /\
     (s_will s' = s_will s \/ s_will s' = None) /\ s_keep s' = s_keep s /\ s_clean s' = s_clean s) /\
    gkeep g g' /\ s_bcast s' = s_bcast s
  else keep5 s g s' g'.
Lemma packet_step5_keep hash pick now len x s g :
  match packet_step5 hash pick now len x s g with
  | Go s' g' _ | Stop s' g' => step_kept5 x s g s' g'
  | Crash => True
  end.
Proof.
  unfold packet_step5, step_kept5. destruct (is_disconnect5 x) eqn:D.
  - destruct x; try discriminate D. unfold handle_packet5. destruct (_ <? len).
    + unfold error_disconnect. cbn [is_disconnected5]. unfold after_packet5, is_disconnected5. cbn [with_disc s_cdisc s_sdisc]. rewrite orb_true_r.
      cbn. repeat split; auto.
    + unfold handle_disconnect5. destruct expiry as [v|].
      * destruct (_ && _).
        -- unfold error_disconnect, after_packet5, is_disconnected5. cbn [with_disc s_cdisc s_sdisc]. rewrite orb_true_r. cbn. repeat split; auto.
        -- unfold after_packet5, is_disconnected5. destruct (code =? 0); cbn; repeat split; auto.
      * unfold after_packet5, is_disconnected5. destruct (code =? 0); cbn; repeat split; auto.
  - pose proof (handle_packet5_keep hash pick now len x s g D) as K. destruct (handle_packet5 hash pick now len x s g) as [s1 g1 o1|s1 g1|]; auto.
    destruct (after_packet5 now s1) as [s2 o2] eqn:A. eapply keep5_trans; [exact K|]. eapply after_packet5_keep; eauto.
Qed.

Lemma send_will5_keep pick s g s' g' ok : send_will5 pick s g = Done (s', g', ok) ->
  (s_id s' = s_id s /\ s_ident s' = s_ident s /\ s_connected s' = s_connected s /\ s_ctime s' = s_ctime s /\
   s_will s' = None /\ s_keep s' = s_keep s /\ s_clean s' = s_clean s /\ s_expiry s' = s_expiry s /\ s_cdisc s' = s_cdisc s) /\
  gkeep g g' /\ live_only (g_live g) (s_bcast s) (s_bcast s').
Proof.
  unfold send_will5. destruct (s_will s) as [w|] eqn:W.
  2:{ intros H; inversion H; subst. repeat split; auto. }
  destruct (enc_len5 _).
  2:{ intros H; inversion H; subst. repeat split; auto. }
  destruct (send_publish5 _ _ _ g) as [[[s2 g2] n2]|] eqn:S; [|discriminate]. intros H; inversion H; subst.
  apply send_publish5_keep in S. destruct S as ((?&?&?&?&?&?&?&?&?) & B & C). cbn in *. repeat split; auto; apply B.
Qed.

(** ** MQTT 3 *)
Definition same3 (s s' : sess3) : Prop :=
  z_id s' = z_id s /\ z_ident s' = z_ident s /\ z_connected s' = z_connected s /\ z_ctime s' = z_ctime s /\
  z_will s' = z_will s /\ z_keep s' = z_keep s /\ z_clean s' = z_clean s /\ z_v310 s' = z_v310 s /\ z_disc s' = z_disc s.
Lemma same3_refl s : same3 s s. Proof. repeat split. Qed.
Lemma same3_trans a b c : same3 a b -> same3 b c -> same3 a c.
Proof. unfold same3. intros (?&?&?&?&?&?&?&?&?) (?&?&?&?&?&?&?&?&?). repeat split; congruence. Qed.
Local Hint Resolve same3_refl : core.
Definition keep3 (s : sess3) (g : glob) (s' : sess3) (g' : glob) : Prop :=
  same3 s s' /\ gkeep g g' /\ live_only (g_live g) (z_bcast s) (z_bcast s').
Lemma keep3_refl s g : keep3 s g s g. Proof. repeat split; auto. Qed.
Lemma keep3_trans s1 g1 s2 g2 s3 g3 : keep3 s1 g1 s2 g2 -> keep3 s2 g2 s3 g3 -> keep3 s1 g1 s3 g3.
Proof.
  intros (A & B & C) (A' & B' & C'). split; [eapply same3_trans; eauto|]. split; [eapply gkeep_trans; eauto|].
  eapply live_trans; [exact C|]. destruct B as [B _]. rewrite <- B. exact C'.
Qed.
Local Hint Resolve keep3_refl : core.
Lemma keep3_same s g s' : same3 s s' -> z_bcast s' = z_bcast s -> keep3 s g s' g.
Proof. intros A B. split; auto. split; auto. rewrite B. auto. Qed.
Ltac k3 := apply keep3_same; [repeat split|reflexivity].
Lemma keep3_route s g s' g' t : keep3 s g s' g' -> keep3 s g s' (set_route t g').
Proof. intros (A & B & C). split; auto. Qed.

Lemma send_publish3_keep m s g s' g' : send_publish3 m s g = Done (s', g') -> keep3 s g s' g'.
Proof.
  unfold send_publish3.
  set (g1 := store_retained _ _ g). destruct (store_keep (sp3_retain m) (RContent (z_ident s) (sp3_qos m) (sp3_topic m) (sp3_payload m) None (sp3_len m)) g) as (L & C & R).
  fold g1 in L, C, R. destruct (collect3 _) as [l|]; [|discriminate].
  match goal with |- context[fold_left ?f l ?i] => pose proof (queue_all_live g1 _ l (fun e => NM3 (NMsg3 (sp3_retain m) (sp3_qos m) (sp3_topic m) (sp3_payload m) (fst (snd e)) (snd (snd e)) (sp3_len m))) i) as Q; destruct (fold_left f l i) as [b c] eqn:E end.
  intros H. inversion H; subst; clear H. split; [repeat split|]. split; [split; auto|].
  cbn [z_bcast zwith_bcast]. rewrite <- L. exact Q.
Qed.
Lemma handle_publish3_keep hash w s g s' g' out : handle_publish3 hash w s g = Ok3 (s', g', out) -> keep3 s g s' g'.
Proof.
  unfold handle_publish3. destruct (String.eqb _ _); [discriminate|]. destruct (starts_with_dollar _); [discriminate|].
  destruct (is_q0 _ && _); [discriminate|].
  match goal with |- match ?c with None => _ | Some _ => _ end = _ -> _ => destruct c as [s1|] eqn:CK; [|discriminate] end.
  assert (K1 : keep3 s g s1 g).
  { destruct (w3_qp w); try (inversion CK; subst; auto; fail). destruct (aget p (z_qos2 s)).
    - destruct (negb _); [discriminate|]. destruct (negb _); [discriminate|]. inversion CK; subst; auto.
    - inversion CK; subst. k3. }
  destruct (_ && _); [intros H; inversion H; subst; auto|]. destruct (enc_len3 w); [|discriminate].
  destruct (send_publish3 _ s1 g) as [[s2 g2]|] eqn:S; [|discriminate]. intros H; inversion H; subst.
  eapply keep3_trans; [exact K1|]. eapply send_publish3_keep; eauto.
Qed.
Lemma recv_publish3_keep now m s g s' r : recv_publish3 now m s = (s', r) -> keep3 s g s' g.
Proof.
  unfold recv_publish3. destruct (aget _ _); [|intros H; inversion H; subst; auto]. destruct (negb _).
  - destruct (out3_push _ _ _). intros H; inversion H; subst. k3.
  - destruct (negb _); intros H; inversion H; subst; auto.
Qed.
Lemma handle_normal3_keep now m s g s' r : handle_normal3 now m s = (s', r) -> keep3 s g s' g.
Proof.
  unfold handle_normal3. destruct m as [m|m]; [apply recv_publish3_keep|].
  destruct (n5_filters m); [intros H; inversion H; subst; auto|apply recv_publish3_keep].
Qed.
Lemma pendings3_keep now s g s' out : pendings3 now s = (s', out) -> keep3 s g s' g.
Proof. unfold pendings3. destruct (handle_pendings3 _ _). intros H; inversion H; subst. k3. Qed.
Lemma send_retained3_keep now f q ms g : forall s s' out p, send_retained3 now f q ms s = (s', out, p) -> keep3 s g s' g.
Proof.
  induction ms as [|m r IH]; intros s s' out p; cbn [send_retained3]; [intros H; inversion H; subst; auto|].
  destruct (qos_leb _ _); [|apply IH].
  destruct (recv_publish3 _ _ s) as [s1 res] eqn:R. pose proof (recv_publish3_keep _ _ _ g _ _ R) as K1.
  destruct (send_retained3 now f q r s1) as [[s2 out2] pend] eqn:S. pose proof (IH _ _ _ _ S) as K2.
  destruct res as [[q' k]|]; intros H; inversion H; subst; eapply keep3_trans; eauto.
Qed.
Lemma subscribe_one3_keep now f q s g s' g' code out : subscribe_one3 now f q s g = Ok3 (s', g', code, out) -> keep3 s g s' g'.
Proof.
  unfold subscribe_one3. destruct (is_shared f); [discriminate|]. destruct (max_allowed_qos _); [|discriminate].
  destruct (rt_subscribe _ _ _ _) as [t p]. destruct p; [discriminate|]. destruct (ret_get_matches _ _) as [ms|]; [|discriminate].
  set (s1 := zwith_subs _ s). assert (K1 : keep3 s g s1 g) by k3.
  destruct (send_retained3 _ _ _ _ s1) as [[s2 o2] pend] eqn:S. pose proof (send_retained3_keep _ _ _ _ g _ _ _ _ S) as K2.
  destruct pend.
  - destruct (pendings3 now s2) as [s3 o3] eqn:P. pose proof (pendings3_keep _ _ g _ _ P) as K3.
    intros H; inversion H; subst. apply keep3_route. eapply keep3_trans; [exact K1|]. eapply keep3_trans; eauto.
  - intros H; inversion H; subst. apply keep3_route. eapply keep3_trans; eauto.
Qed.
Lemma subscribe_all3_keep now fs : forall s g s' g' r, subscribe_all3 now fs s g = (s', g', r) -> keep3 s g s' g'.
Proof.
  induction fs as [|[f o] r IH]; intros s g s' g' res; cbn [subscribe_all3]; [intros H; inversion H; subst; auto|].
  destruct (subscribe_one3 now f o s g) as [[[[s1 g1] code] out1]| |] eqn:S; try (intros H; inversion H; subst; auto; fail).
  destruct (subscribe_all3 now r s1 g1) as [[s2 g2] r2] eqn:A. pose proof (IH _ _ _ _ _ A) as K2.
  pose proof (subscribe_one3_keep _ _ _ _ _ _ _ _ _ S) as K1.
  destruct r2 as [[codes2 out2]| |]; intros H; inversion H; subst; eapply keep3_trans; eauto.
Qed.
Lemma unsubscribe_all3_keep fs : forall s g s' g', unsubscribe_all3 fs s g = Done (s', g') -> keep3 s g s' g'.
Proof.
  induction fs as [|f r IH]; intros s g s' g'; cbn [unsubscribe_all3]; [intros H; inversion H; subst; auto|].
  destruct (rt_unsubscribe _ _ _) as [t p]. destruct p; [discriminate|].
  intros H. eapply keep3_trans; [|eapply IH; eauto]. apply keep3_route. k3.
Qed.
Definition is_disconnect3 (x : in3) : bool := match x with YDisconnect => true | _ => false end.
Lemma handle_packet3_keep hash now len x s g : is_disconnect3 x = false ->
  match handle_packet3 hash now len x s g with
  | Go3 s' g' _ | Stop3 s' g' => keep3 s g s' g'
  | Crash3 => True
  end.
Proof.
  intros D. unfold handle_packet3. destruct (_ <? len); auto.
  destruct x; try discriminate D.
  - destruct (handle_publish3 hash w s g) as [[[s' g'] out]| |] eqn:H; auto. eapply handle_publish3_keep; eauto.
  - k3.
  - unfold handle_pubrec3. k3.
  - unfold handle_pubrel3. destruct (aget p (z_qos2 s)); auto. k3.
  - k3.
  - unfold handle_subscribe3. destruct (subscribe_all3 now fs s g) as [[s' g'] r] eqn:A. pose proof (subscribe_all3_keep _ _ _ _ _ _ _ A).
    destruct r as [[codes out]| |]; auto.
  - unfold handle_unsubscribe3. destruct (unsubscribe_all3 fs s g) as [[s' g']|] eqn:A; auto. eapply unsubscribe_all3_keep; eauto.
  - auto.
  - auto.
Qed.
Lemma after_packet3_keep now s g s' out : after_packet3 now s = (s', out) -> keep3 s g s' g.
Proof. unfold after_packet3. intros H. eapply keep3_trans; [|eapply pendings3_keep; eauto]. k3. Qed.
Definition step_kept3 (x : in3) (s : sess3) (g : glob) (s' : sess3) (g' : glob) : Prop :=
  if is_disconnect3 x then
    (z_id s' = z_id s /\ z_ident s' = z_ident s /\ z_connected s' = z_connected s /\ z_ctime s' = z_ctime s /\
     (z_will s' = z_will s \/ z_will s' = None) /\ z_keep s' = z_keep s /\ z_clean s' = z_clean s) /\
    gkeep g g' /\ z_bcast s' = z_bcast s
  else keep3 s g s' g'.
Lemma packet_step3_keep hash now len x s g :
  match packet_step3 hash now len x s g with
  | Go3 s' g' _ | Stop3 s' g' => step_kept3 x s g s' g'
  | Crash3 => True
  end.
Proof.
  unfold packet_step3, step_kept3. destruct (is_disconnect3 x) eqn:D.
  - destruct x; try discriminate D. unfold handle_packet3. destruct (_ <? len).
    + repeat split; auto.
    + unfold after_packet3, pendings3. destruct (handle_pendings3 _ _). repeat split; auto.
  - pose proof (handle_packet3_keep hash now len x s g D) as K. destruct (handle_packet3 hash now len x s g) as [s1 g1 o1|s1 g1|]; auto.
    destruct (after_packet3 now s1) as [s2 o2] eqn:A. eapply keep3_trans; [exact K|]. eapply after_packet3_keep; eauto.
Qed.
Lemma send_will3_keep s g s' g' ok : send_will3 s g = Done (s', g', ok) ->
  (z_id s' = z_id s /\ z_ident s' = z_ident s /\ z_connected s' = z_connected s /\ z_ctime s' = z_ctime s /\
   z_will s' = None /\ z_keep s' = z_keep s /\ z_clean s' = z_clean s /\ z_disc s' = z_disc s) /\
  gkeep g g' /\ live_only (g_live g) (z_bcast s) (z_bcast s').
Proof.
  unfold send_will3. destruct (z_will s) as [w|] eqn:W.
  2:{ intros H; inversion H; subst. repeat split; auto. }
  destruct (enc_len3 _).
  2:{ intros H; inversion H; subst. repeat split; auto. }
  destruct (send_publish3 _ _ g) as [[s2 g2]|] eqn:S; [|discriminate]. intros H; inversion H; subst.
  apply send_publish3_keep in S. destruct S as ((?&?&?&?&?&?&?&?&?) & B & C). cbn in *. repeat split; auto; apply B.
Qed.
