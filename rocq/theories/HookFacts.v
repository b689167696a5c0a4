(** The v5 and v3 sessions behave as the event loop expects. *)
From Coq Require Import List Bool String Ascii NArith Lia.
From Coq Require Import ZifyBool ZifyNat ZifyN.
From Verif Require Import Base BaseLemmas TopicModel MsgModel PendingModel OutModel RouteModel RetainModel GlobModel Sess5Model Sess3Model
  OnlineModel OnlineSpec HookModel.
Import ListNotations.
Local Open Scope N_scope.

Definition bgrows (x y : bcast * N) : Prop :=
  NoDup (keys (fst x)) /\ snd x = total (fst x) ->
  (NoDup (keys (fst y)) /\ snd y = total (fst y)) /\ incl (keys (fst x)) (keys (fst y)) /\
  forall d, exists ms, queue_of (fst y) d = (queue_of (fst x) d ++ ms)%list.

Lemma bgrows_refl x : bgrows x x.
Proof. intros H. split; [exact H|]. split; [apply incl_refl|]. intros d. exists []. now rewrite app_nil_r. Qed.
Lemma bgrows_trans x y z : bgrows x y -> bgrows y z -> bgrows x z.
Proof.
  intros A B H. destruct (A H) as (A1 & A2 & A3). destruct (B A1) as (B1 & B2 & B3). split; [exact B1|].
  split; [eauto using incl_tran|]. intros d. destruct (A3 d) as (m1 & E1), (B3 d) as (m2 & E2). exists (m1 ++ m2)%list.
  now rewrite E2, E1, app_assoc.
Qed.
Lemma bgrows_eq x y : x = y -> bgrows x y.
Proof. intros ->. apply bgrows_refl. Qed.

Lemma total_aset c (ms : list nmsg) b : NoDup (keys b) -> total (aset c ms b) + N.of_nat (List.length (queue_of b c)) = total b + N.of_nat (List.length ms).
Proof.
  induction b as [|(d, l) b IH]; intros ND; cbn [aset].
  - unfold queue_of. cbn. lia.
  - inversion_clear ND as [|? ? N1 N2]. change (@eqb client_id _ c d) with (N.eqb c d). unfold queue_of. cbn [aget].
    change (@eqb client_id _ c d) with (N.eqb c d). destruct (N.eqb_spec c d) as [->|X]; cbn [total fold_right snd]; fold (total b).
    + lia.
    + fold (total (aset c ms b)). specialize (IH N2). unfold queue_of in IH. lia.
Qed.

Lemma queue_of_aset c d (ms : list nmsg) b : queue_of (aset c ms b) d = if N.eqb d c then ms else queue_of b d.
Proof. unfold queue_of. rewrite aget_aset. change (@eqb client_id _ d c) with (N.eqb d c). destruct (N.eqb d c); reflexivity. Qed.

Lemma queue_msg_step g c m b n b' n' : NoDup (keys b) -> total b < n -> queue_msg g c m (b, n) = (b', n') ->
  NoDup (keys b') /\ incl (keys b) (keys b') /\ (forall d, exists ms, queue_of b' d = (queue_of b d ++ ms)%list) /\
  (n' - total b') = (n - total b) - 1 /\ total b' <= n'.
Proof.
  intros ND LT E. cbv beta iota zeta delta [queue_msg] in E.
  set (b1 := match aget c b with Some _ => b | None => if has_sender g c then aset c [] b else b end) in *.
  assert (B : NoDup (keys b1) /\ incl (keys b) (keys b1) /\ total b1 = total b /\ forall d, queue_of b1 d = queue_of b d).
  { unfold b1. destruct (aget c b) eqn:EA; [repeat split; auto; apply incl_refl|]. destruct (has_sender g c); [|repeat split; auto; apply incl_refl].
    split; [now apply NoDup_aset|]. split; [intros d H; apply in_keys_aset; now right|]. split.
    - pose proof (total_aset c [] b ND) as T. unfold queue_of in T. rewrite EA in T. cbn in T. lia.
    - intros d. rewrite queue_of_aset. destruct (N.eqb_spec d c) as [->|]; [|reflexivity]. unfold queue_of. now rewrite EA. }
  destruct B as (B1 & B2 & B3 & B4). change (match aget c b1 with Some ms => (aset c (ms ++ [m])%list b1, n) | None => (b1, n - 1) end = (b', n')) in E.
  clearbody b1. destruct (aget c b1) as [ms|] eqn:EA; injection E as <- <-.
  - assert (Q : queue_of b1 c = ms) by (unfold queue_of; now rewrite EA).
    split; [now apply NoDup_aset|]. split; [intros d H; apply in_keys_aset; right; now apply B2|]. split.
    + intros d. rewrite queue_of_aset. destruct (N.eqb_spec d c) as [->|]; [exists [m]; now rewrite <- B4, Q|exists []; now rewrite B4, app_nil_r].
    + pose proof (total_aset c (ms ++ [m])%list b1 B1) as T. rewrite Q, app_length in T. cbn [List.length] in T. lia.
  - split; [exact B1|]. split; [exact B2|]. split; [intros d; exists []; now rewrite B4, app_nil_r|]. lia.
Qed.

Lemma queue_all {A} g (f : A -> client_id * nmsg) l : forall b n b' n', NoDup (keys b) -> n = total b + N.of_nat (List.length l) ->
  fold_left (fun bc e => queue_msg g (fst (f e)) (snd (f e)) bc) l (b, n) = (b', n') ->
  NoDup (keys b') /\ n' = total b' /\ incl (keys b) (keys b') /\ forall d, exists ms, queue_of b' d = (queue_of b d ++ ms)%list.
Proof.
  induction l as [|x l IH]; intros b n b' n' ND EN E; cbn [fold_left List.length] in *.
  - injection E as <- <-. split; [exact ND|]. split; [rewrite EN; apply N.add_0_r|]. split; [apply incl_refl|]. intros d. exists []. now rewrite app_nil_r.
  - destruct (queue_msg g (fst (f x)) (snd (f x)) (b, n)) as (b1, n1) eqn:EQ.
    assert (LT : total b < n) by (rewrite EN, Nat2N.inj_succ; generalize (total b) (N.of_nat (List.length l)); intros; lia).
    destruct (queue_msg_step _ _ _ _ _ _ _ ND LT EQ) as (A1 & A2 & A3 & A4 & A5).
    destruct (IH b1 n1 b' n' A1 ltac:(lia) E) as (B1 & B2 & B3 & B4). split; [exact B1|]. split; [exact B2|].
    split; [eauto using incl_tran|]. intros d. destruct (A3 d) as (m1 & E1), (B4 d) as (m2 & E2). exists (m1 ++ m2)%list.
    now rewrite E2, E1, app_assoc.
Qed.

(** ** v5 *)
Definition bc5 (s : sess5) : bcast * N := (s_bcast s, s_bcnt s).
Section V5.
  Variable hash : wpub5 -> N.
  Variable pick : string -> string -> N.

  Lemma send_publish5_grows m s g s' g' n : send_publish5 pick m s g = Done (s', g', n) -> bgrows (bc5 s) (bc5 s').
  Proof.
    unfold send_publish5. destruct (collect_senders pick s _ []) as [l|]; [|discriminate].
    set (g1 := store_retained _ _ g).
    set (mk := fun e : client_id * (list string * qos) => NM5 (NMsg5 (sp_retain m) (sp_qos m) (sp_topic m) (sp_payload m)
                      (fst (snd e)) (snd (snd e)) (sp_props m) (sp_len m))).
    destruct (fold_left _ l (s_bcast s, s_bcnt s + N.of_nat (List.length l))) as (b, cnt) eqn:EF. intros E. injection E as <- <- <-.
    intros (H1 & H2). cbn in H1, H2. 
    destruct (queue_all g1 (fun e => (fst e, mk e)) l _ _ _ _ H1 (f_equal (fun x => x + _) H2) EF) as (A1 & A2 & A3 & A4).
    cbn. repeat split; auto.
  Qed.

  Definition samebc (s s' : sess5) : Prop := s_bcast s' = s_bcast s /\ s_bcnt s' = s_bcnt s /\ s_cdisc s' = s_cdisc s /\ (s_sdisc s = true -> s_sdisc s' = true).
  Lemma samebc_grows s s' : samebc s s' -> bgrows (bc5 s) (bc5 s').
  Proof. intros (A & B & _). apply bgrows_eq. unfold bc5. now rewrite A, B. Qed.
  Lemma samebc_refl s : samebc s s. Proof. repeat split; auto. Qed.
  Lemma samebc_trans a b c : samebc a b -> samebc b c -> samebc a c.
  Proof. intros (A1 & A2 & A3 & A4) (B1 & B2 & B3 & B4). repeat split; try congruence; auto. Qed.

  Lemma error_same code r s : samebc s (fst (error_disconnect code r s)).
  Proof. repeat split. Qed.
  Lemma resolve_same a w s : samebc s (fst (resolve_topic a w s)).
  Proof.
    unfold resolve_topic. destruct (pp_alias (w5_props w)) as [al|].
    - destruct (al =? 0); [apply samebc_refl|]. destruct (_ <? _); [apply samebc_refl|]. destruct (String.eqb _ _); [|repeat split; auto].
      destruct (aget al (s_alias s)); apply samebc_refl.
    - destruct (String.eqb _ _); apply samebc_refl.
  Qed.
  Lemma check_same lim w s : samebc s (fst (check_qos2 hash lim w s)).
  Proof.
    unfold check_qos2. destruct (w5_qp w) as [|p|p]; try apply samebc_refl. destruct (aget p (s_qos2 s)).
    - destruct (negb _); [apply samebc_refl|]. destruct (negb _); apply samebc_refl.
    - destruct (_ <=? _); [apply samebc_refl|repeat split; auto].
  Qed.

  Lemma publish5_grows w s g s' g' out : handle_publish5 hash pick w s g = Done (s', g', out) -> bgrows (bc5 s) (bc5 s').
  Proof.
    unfold handle_publish5. destruct (starts_with_dollar _); [intros E; injection E as <- <- <-; apply bgrows_refl|].
    destruct (_ && _); [intros E; injection E as <- <- <-; apply bgrows_refl|].
    pose proof (resolve_same (cf_alias_max (g_cfg g)) w s) as R. destruct (resolve_topic _ w s) as (s1, [topic|(code, r)]).
    2:{ intros E. injection E as <- <- <-. apply samebc_grows in R. exact R. }
    apply samebc_grows in R. destruct (negb _); [intros E; injection E as <- <- <-; exact R|].
    pose proof (check_same (cf_inflight_server (g_cfg g)) w s1) as C. destruct (check_qos2 hash _ w s1) as (s2, []);
      apply samebc_grows in C; pose proof (bgrows_trans _ _ _ R C) as RC; cbn [fst] in RC.
    - destruct (_ && _); [intros E; injection E as <- <- <-; exact RC|]. destruct (enc_len5 w); [|discriminate].
      destruct (send_publish5 pick _ s2 g) as [((s3, g3), n3)|] eqn:ES; [|discriminate]. intros E. injection E as <- <- <-.
      eapply bgrows_trans; [exact RC|]. eapply send_publish5_grows; eauto.
    - intros E. injection E as <- <- <-. exact RC.
    - intros E. injection E as <- <- <-. exact RC.
  Qed.

  Lemma recv_same now m s : samebc s (fst (recv_publish5 now m s)).
  Proof.
    unfold recv_publish5. repeat match goal with |- context [match ?x with _ => _ end] => destruct x end; repeat split; auto.
  Qed.
  Lemma normal_same now c m s : samebc s (fst (handle_normal5 now c m s)).
  Proof.
    unfold handle_normal5. repeat match goal with |- context [match ?x with _ => _ end] => destruct x end;
      try apply recv_same; try apply samebc_refl.
  Qed.
  Lemma pendings_same now s : samebc s (fst (pendings5 now s)).
  Proof. unfold pendings5. destruct (handle_pendings5 now (s_out s)). repeat split; auto. Qed.
  Lemma send_retained_same now f o ms : forall s, samebc s (fst (fst (send_retained now f o ms s))).
  Proof.
    induction ms as [|m ms IH]; intros s; cbn [send_retained]; [apply samebc_refl|].
    destruct (_ && _); [apply IH|]. match goal with |- context [recv_publish5 ?a ?b ?c] => pose proof (recv_same a b c) as R; destruct (recv_publish5 a b c) as (s1, r) end.
    specialize (IH s1). destruct (send_retained now f o ms s1) as ((s2, out2), pe). cbn [fst] in *.
    destruct r as [(q, k)|]; eapply samebc_trans; eauto.
  Qed.

  Lemma subscribe_one_same now id f o s g s' g' code out : subscribe_one now id f o s g = Done (s', g', code, out) -> samebc s s'.
  Proof.
    unfold subscribe_one. destruct (max_allowed_qos (g_cfg g)) as [mq|]; [|discriminate].
    destruct (_ <? _); [|intros E; injection E as <- <- <- <-; apply samebc_refl].
    destruct (rt_subscribe _ f (s_id s) _) as (t, p). destruct p; [discriminate|].
    set (s1 := with_subs _ s). assert (S1 : samebc s s1) by (repeat split; auto). clearbody s1.
    destruct (_ && _); [|intros E; injection E as <- <- <- <-; exact S1].
    destruct (ret_get_matches _ f) as [ms|]; [|discriminate].
    match goal with |- context [send_retained ?a ?b ?c ?d ?e] => pose proof (send_retained_same a b c d e) as R; destruct (send_retained a b c d e) as ((s2, o2), pe) end.
    cbn [fst] in R. destruct pe.
    - pose proof (pendings_same now s2) as P. destruct (pendings5 now s2) as (s3, o3). intros E. injection E as <- <- <- <-.
      eapply samebc_trans; [|exact P]. eapply samebc_trans; eauto.
    - intros E. injection E as <- <- <- <-. eapply samebc_trans; eauto.
  Qed.
  Lemma subscribe_all_same now id fs : forall s g s' g' codes out, subscribe_all now id fs s g = Done (s', g', codes, out) -> samebc s s'.
  Proof.
    induction fs as [|(f, o) fs IH]; intros s g s' g' codes out; cbn [subscribe_all].
    - intros E. injection E as <- <- <- <-. apply samebc_refl.
    - destruct (subscribe_one now id f o s g) as [(((s1, g1), c1), o1)|] eqn:E1; [|discriminate].
      destruct (subscribe_all now id fs s1 g1) as [(((s2, g2), c2), o2)|] eqn:E2; [|discriminate].
      intros E. injection E as <- <- <- <-. eapply samebc_trans; [eapply subscribe_one_same; eauto|eauto].
  Qed.
  Lemma subscribe_same now p id fs s g s' g' out : handle_subscribe5 now p id fs s g = Done (s', g', out) -> samebc s s'.
  Proof.
    unfold handle_subscribe5.
    assert (K : (if negb (cf_subid (g_cfg g)) && match id with Some _ => true | None => false end
        then Done (s, g, [KSuback p (map (fun _ => RC_subid_not_supported) fs)])
        else match subscribe_all now id fs s g with
          | Panic => Panic
          | Done (s', g', codes, out) => Done (s', g', (out ++ [KSuback p codes])%list)
          end) = Done (s', g', out) -> samebc s s').
    { destruct (_ && _); [intros E; injection E as <- <- <-; apply samebc_refl|].
      destruct (subscribe_all now id fs s g) as [(((s2, g2), c2), o2)|] eqn:E2; [|discriminate].
      intros E. injection E as <- <- <-. eapply subscribe_all_same; eauto. }
    destruct id as [[|n]|]; auto. intros E. injection E as <- <- <-. repeat split.
  Qed.
  Lemma unsubscribe_all_same fs : forall s g s' g' codes, unsubscribe_all fs s g = Done (s', g', codes) -> samebc s s'.
  Proof.
    induction fs as [|f fs IH]; intros s g s' g' codes; cbn [unsubscribe_all].
    - intros E. injection E as <- <- <-. apply samebc_refl.
    - destruct (rt_unsubscribe _ f (s_id s)) as (t, []); [discriminate|].
      destruct (unsubscribe_all fs _ _) as [((s2, g2), c2)|] eqn:E2; [|discriminate].
      intros E. injection E as <- <- <-. eapply samebc_trans; [|eapply IH; eauto]. repeat split; auto.
  Qed.
  Lemma unsubscribe_same p fs s g s' g' out : handle_unsubscribe5 p fs s g = Done (s', g', out) -> samebc s s'.
  Proof.
    unfold handle_unsubscribe5. destruct (unsubscribe_all fs s g) as [((s2, g2), c2)|] eqn:E2; [|discriminate].
    intros E. injection E as <- <- <-. eapply unsubscribe_all_same; eauto.
  Qed.

  Lemma packet_grows now len x s g s' g' out : handle_packet5 hash pick now len x s g = Go s' g' out -> bgrows (bc5 s) (bc5 s').
  Proof.
    unfold handle_packet5. destruct (_ <? _); [intros E; injection E as <- <- <-; apply bgrows_refl|].
    destruct x.
    - destruct (handle_publish5 hash pick w s g) as [((s2, g2), o2)|] eqn:E2; [|discriminate].
      intros E. injection E as <- <- <-. eapply publish5_grows; eauto.
    - intros E. injection E as <- <- <-. unfold handle_puback5. apply bgrows_eq. reflexivity.
    - unfold handle_pubrec5. destruct (out5_on_queue _ (s_out s)) as (o, f). intros E. injection E as <- <- <-. apply bgrows_refl.
    - unfold handle_pubrel5. destruct (aget p (s_qos2 s)); intros E; injection E as <- <- <-; apply bgrows_refl.
    - intros E. injection E as <- <- <-. apply bgrows_refl.
    - destruct (handle_subscribe5 now p id fs s g) as [((s2, g2), o2)|] eqn:E2; [|discriminate].
      intros E. injection E as <- <- <-. apply samebc_grows. eapply subscribe_same; eauto.
    - destruct (handle_unsubscribe5 p fs s g) as [((s2, g2), o2)|] eqn:E2; [|discriminate].
      intros E. injection E as <- <- <-. apply samebc_grows. eapply unsubscribe_same; eauto.
    - intros E. injection E as <- <- <-. apply bgrows_refl.
    - unfold handle_disconnect5. destruct expiry as [v|].
      + destruct (_ && _); destruct (code =? 0); intros E; injection E as <- <- <-; apply bgrows_refl.
      + destruct (code =? 0); intros E; injection E as <- <- <-; apply bgrows_refl.
    - discriminate.
  Qed.
  Lemma packet_stop now len x s g s' g' : handle_packet5 hash pick now len x s g = Stop s' g' -> s' = s /\ g' = g.
  Proof.
    unfold handle_packet5. destruct (_ <? _); [discriminate|]. destruct x; try discriminate.
    - destruct (handle_publish5 hash pick w s g) as [((?, ?), ?)|]; discriminate.
    - destruct (handle_pubrec5 now p s); discriminate.
    - destruct (handle_pubrel5 p s); discriminate.
    - destruct (handle_subscribe5 now p id fs s g) as [((?, ?), ?)|]; discriminate.
    - destruct (handle_unsubscribe5 p fs s g) as [((?, ?), ?)|]; discriminate.
    - destruct (handle_disconnect5 code expiry s); discriminate.
    - intros E. injection E as <- <-. auto.
  Qed.

  Variable hk : hooks.
  Variable encode : pkt5 -> option (list N).
  Notation i5 := (online5 hk hash pick encode).
  Lemma i5_grows s s' : bgrows (bc5 s) (bc5 s') -> grows i5 s s'.
  Proof. intros H. exact H. Qed.

  Lemma after_same now s : samebc s (fst (after_packet5 now s)).
  Proof.
    unfold after_packet5. destruct (is_disconnected5 s); [apply samebc_refl|]. eapply samebc_trans; [|apply pendings_same]. repeat split; auto.
  Qed.

  Lemma hook5_grows now q a s g : match hook5 hash pick now q a s g with
    | HpOk s' _ _ _ | HpErr s' _ _ => bgrows (bc5 s) (bc5 s') | HpPanic => True end.
  Proof.
    unfold hook5, finish_hook. destruct q, a; try (apply bgrows_refl).
    - destruct (code =? 0); [|apply bgrows_refl].
      destruct (handle_publish5 hash pick w0 s g) as [((s2, g2), o2)|] eqn:E2; [|exact I].
      apply publish5_grows in E2. destruct (is_error5 o2); [exact E2|]. destruct after; exact E2.
    - destruct (code =? 0); [|apply bgrows_refl].
      destruct (handle_subscribe5 now p0 id0 fs0 s g) as [((s2, g2), o2)|] eqn:E2; [|exact I].
      apply subscribe_same, samebc_grows in E2. destruct after; exact E2.
    - destruct (code =? 0); [|apply bgrows_refl].
      destruct (handle_unsubscribe5 p0 fs0 s g) as [((s2, g2), o2)|] eqn:E2; [|exact I].
      apply unsubscribe_same, samebc_grows in E2. destruct after; exact E2.
  Qed.
  Lemma packet5_grows now x s g : match packet5 hk hash pick now x s g with
    | HpOk s' _ _ _ | HpErr s' _ _ => bgrows (bc5 s) (bc5 s') | HpPanic => True end.
  Proof.
    unfold packet5. match goal with |- context [match ?r with Some q => HpOk s g [] (Some q) | None => _ end] => destruct r end.
    - apply bgrows_refl.
    - destruct (handle_packet5 hash pick now (fst x) (snd x) s g) eqn:E; [|apply packet_stop in E as (-> & ->); apply bgrows_refl|exact I].
      eapply packet_grows; eauto.
  Qed.
  Lemma action5_grows now a s g : match action5 pick now a s g with
    | HpOk s' _ _ _ | HpErr s' _ _ => bgrows (bc5 s) (bc5 s') | HpPanic => True end.
  Proof.
    unfold action5. destruct a.
    - destruct (enc_len5 _); [|apply bgrows_refl]. destruct (send_publish5 pick _ s g) as [((s2, g2), o2)|] eqn:E2; [|exact I].
      eapply send_publish5_grows; eauto.
    - destruct (handle_subscribe5 _ _ _ _ s g) as [((s2, g2), o2)|] eqn:E2; [|exact I]. eapply samebc_grows, subscribe_same; eauto.
    - destruct (handle_unsubscribe5 _ _ s g) as [((s2, g2), o2)|] eqn:E2; [|exact I]. eapply samebc_grows, unsubscribe_same; eauto.
  Qed.

  Lemma online5_well : well_behaved i5.
  Proof.
    constructor; cbn [online5 i_set i_bc i_cnt i_decode_error i_packet i_hook i_after i_action i_control i_normal i_pendings].
    - auto.
    - intros [|text] s s' out; [discriminate|]. intros E. injection E as <- <-. apply i5_grows, bgrows_refl.
    - intros n x s g s' g' out r E. pose proof (packet5_grows n x s g) as H. rewrite E in H. exact H.
    - intros n x s g s' g' out E. pose proof (packet5_grows n x s g) as H. rewrite E in H. exact H.
    - intros n q a s g s' g' out r E. pose proof (hook5_grows n q a s g) as H. rewrite E in H. exact H.
    - intros n q a s g s' g' out E. pose proof (hook5_grows n q a s g) as H. rewrite E in H. exact H.
    - intros n s. apply i5_grows, samebc_grows, after_same.
    - intros n a s g s' g' out r E. pose proof (action5_grows n a s g) as H. rewrite E in H. exact H.
    - intros n a s g s' g' out E. pose proof (action5_grows n a s g) as H. rewrite E in H. exact H.
    - intros n c s g s' g' a b. destruct c; intros E; inversion E; subst; apply i5_grows, bgrows_refl.
    - intros n f m s g s' g' r. pose proof (normal_same n (g_cfg g) m s) as H. destruct (handle_normal5 n (g_cfg g) m s) as (s1, r1).
      intros E. injection E as <- <- <-. apply i5_grows, samebc_grows, H.
    - intros n s. apply i5_grows, samebc_grows, pendings_same.
  Qed.

  Lemma disc_sticky s s' : samebc s s' -> disc5 s <> None -> disc5 s' <> None.
  Proof.
    unfold disc5. intros (_ & _ & -> & H) D. destruct (s_cdisc s); [now rewrite andb_false_r|]. cbn in *.
    destruct (s_sdisc s); [|now destruct D]. now rewrite H.
  Qed.
  Lemma online5_sticky : sticky i5.
  Proof.
    constructor; cbn [online5 i_set i_bc i_cnt i_disc i_control i_normal i_pendings].
    - intros b n s H. exact H.
    - intros n c s g s' g' a b. destruct c; intros E; inversion E; subst; auto.
    - intros n f m s g s' g' r. pose proof (normal_same n (g_cfg g) m s) as H. destruct (handle_normal5 n (g_cfg g) m s) as (s1, r1).
      intros E. injection E as <- <- <-. now apply disc_sticky.
    - intros n s. apply disc_sticky, pendings_same.
  Qed.
End V5.

(** ** v3 *)
Definition bc3 (s : sess3) : bcast * N := (z_bcast s, z_bcnt s).
Section V3.
  Variable hash : wpub3 -> N.

  Lemma send_publish3_grows m s g s' g' : send_publish3 m s g = Done (s', g') -> bgrows (bc3 s) (bc3 s').
  Proof.
    unfold send_publish3. destruct (collect3 _) as [l|]; [|discriminate].
    set (g1 := store_retained _ _ g).
    set (mk := fun e : client_id * (string * qos) => NM3 (NMsg3 (sp3_retain m) (sp3_qos m) (sp3_topic m) (sp3_payload m)
                      (fst (snd e)) (snd (snd e)) (sp3_len m))).
    destruct (fold_left _ l (z_bcast s, z_bcnt s + N.of_nat (List.length l))) as (b, cnt) eqn:EF. intros E. injection E as <- <-.
    intros (H1 & H2). cbn in H1, H2.
    destruct (queue_all g1 (fun e => (fst e, mk e)) l _ _ _ _ H1 (f_equal (fun x => x + _) H2) EF) as (A1 & A2 & A3 & A4).
    cbn. repeat split; auto.
  Qed.

  Definition same3 (s s' : sess3) : Prop := z_bcast s' = z_bcast s /\ z_bcnt s' = z_bcnt s /\ z_disc s' = z_disc s.
  Lemma same3_grows s s' : same3 s s' -> bgrows (bc3 s) (bc3 s').
  Proof. intros (A & B & _). apply bgrows_eq. unfold bc3. now rewrite A, B. Qed.
  Lemma same3_refl s : same3 s s. Proof. repeat split; auto. Qed.
  Lemma same3_trans a b c : same3 a b -> same3 b c -> same3 a c.
  Proof. intros (A1 & A2 & A3) (B1 & B2 & B3). repeat split; congruence. Qed.

  Lemma publish3_grows w s g s' g' out : handle_publish3 hash w s g = Ok3 (s', g', out) -> bgrows (bc3 s) (bc3 s').
  Proof.
    unfold handle_publish3. destruct (String.eqb _ _); [discriminate|]. destruct (starts_with_dollar _); [discriminate|].
    destruct (_ && _); [discriminate|].
    match goal with |- context [match ?x with Some s1 => _ | None => Err3 end] => destruct x as [s1|] eqn:EC end; [|discriminate].
    assert (C : bgrows (bc3 s) (bc3 s1)).
    { destruct (w3_qp w) as [|p|p]; try (injection EC as <-; apply bgrows_refl). destruct (aget p (z_qos2 s)).
      - destruct (negb _); [discriminate|]. destruct (negb _); [discriminate|]. injection EC as <-. apply bgrows_refl.
      - injection EC as <-. apply bgrows_refl. }
    destruct (_ && _); [intros E; injection E as <- <- <-; exact C|]. destruct (enc_len3 w); [|discriminate].
    destruct (send_publish3 _ s1 g) as [(s2, g2)|] eqn:ES; [|discriminate]. intros E. injection E as <- <- <-.
    eapply bgrows_trans; [exact C|]. eapply send_publish3_grows; eauto.
  Qed.
  Lemma recv3_same now m s : same3 s (fst (recv_publish3 now m s)).
  Proof. unfold recv_publish3. repeat match goal with |- context [match ?x with _ => _ end] => destruct x end; repeat split; auto. Qed.
  Lemma normal3_same now m s : same3 s (fst (handle_normal3 now m s)).
  Proof.
    unfold handle_normal3. destruct m as [m|m]; [apply recv3_same|]. destruct (n5_filters m); [apply same3_refl|apply recv3_same].
  Qed.
  Lemma pendings3_same now s : same3 s (fst (pendings3 now s)).
  Proof. unfold pendings3. destruct (handle_pendings3 now (z_out s)). repeat split; auto. Qed.
  Lemma send_retained3_same now f q ms : forall s, same3 s (fst (fst (send_retained3 now f q ms s))).
  Proof.
    induction ms as [|m ms IH]; intros s; cbn [send_retained3]; [apply same3_refl|].
    destruct (qos_leb _ _); [|apply IH]. match goal with |- context [recv_publish3 ?a ?b ?c] => pose proof (recv3_same a b c) as R; destruct (recv_publish3 a b c) as (s1, r) end.
    specialize (IH s1). destruct (send_retained3 now f q ms s1) as ((s2, out2), pe). cbn [fst] in *.
    destruct r as [(q', k)|]; eapply same3_trans; eauto.
  Qed.
  Lemma subscribe_one3_same now f q s g s' g' code out : subscribe_one3 now f q s g = Ok3 (s', g', code, out) -> same3 s s'.
  Proof.
    unfold subscribe_one3. destruct (is_shared f); [discriminate|]. destruct (max_allowed_qos (g_cfg g)) as [mq|]; [|discriminate].
    destruct (rt_subscribe _ f (z_id s) _) as (t, p). destruct p; [discriminate|].
    set (s1 := zwith_subs _ s). assert (S1 : same3 s s1) by (repeat split; auto). clearbody s1.
    destruct (ret_get_matches _ f) as [ms|]; [|discriminate].
    match goal with |- context [send_retained3 ?a ?b ?c ?d ?e] => pose proof (send_retained3_same a b c d e) as R; destruct (send_retained3 a b c d e) as ((s2, o2), pe) end.
    cbn [fst] in R. destruct pe.
    - pose proof (pendings3_same now s2) as P. destruct (pendings3 now s2) as (s3, o3). intros E. injection E as <- <- <- <-.
      eapply same3_trans; [|exact P]. eapply same3_trans; eauto.
    - intros E. injection E as <- <- <- <-. eapply same3_trans; eauto.
  Qed.
  Lemma subscribe_all3_same now fs : forall s g, same3 s (fst (fst (subscribe_all3 now fs s g))).
  Proof.
    induction fs as [|(f, o) fs IH]; intros s g; cbn [subscribe_all3]; [apply same3_refl|].
    destruct (subscribe_one3 now f o s g) as [(((s1, g1), c1), o1)| |] eqn:E1; try apply same3_refl.
    apply subscribe_one3_same in E1. specialize (IH s1 g1).
    destruct (subscribe_all3 now fs s1 g1) as ((s2, g2), [(codes, out')| |]); cbn [fst] in *; eapply same3_trans; eauto.
  Qed.
  Lemma subscribe3_same now p fs s g : same3 s (fst (fst (handle_subscribe3 now p fs s g))).
  Proof.
    unfold handle_subscribe3. pose proof (subscribe_all3_same now fs s g) as H.
    destruct (subscribe_all3 now fs s g) as ((s2, g2), [(codes, out')| |]); exact H.
  Qed.
  Lemma unsubscribe_all3_same fs : forall s g s' g', unsubscribe_all3 fs s g = Done (s', g') -> same3 s s'.
  Proof.
    induction fs as [|f fs IH]; intros s g s' g'; cbn [unsubscribe_all3].
    - intros E. injection E as <- <-. apply same3_refl.
    - destruct (rt_unsubscribe _ f (z_id s)) as (t, []); [discriminate|]. intros E. apply IH in E.
      eapply same3_trans; [|exact E]. repeat split; auto.
  Qed.
  Lemma unsubscribe3_same p fs s g s' g' out : handle_unsubscribe3 p fs s g = Done (s', g', out) -> same3 s s'.
  Proof.
    unfold handle_unsubscribe3. destruct (unsubscribe_all3 fs s g) as [(s2, g2)|] eqn:E2; [|discriminate].
    intros E. injection E as <- <- <-. eapply unsubscribe_all3_same; eauto.
  Qed.

  Lemma packet3_both now len x s g : match handle_packet3 hash now len x s g with
    | Go3 s' _ _ | Stop3 s' _ => bgrows (bc3 s) (bc3 s') | Crash3 => True end.
  Proof.
    unfold handle_packet3. destruct (_ <? _); [apply bgrows_refl|].
    destruct x; try apply bgrows_refl.
    - destruct (handle_publish3 hash w s g) as [((s2, g2), o2)| |] eqn:E2; [eapply publish3_grows; eauto|apply bgrows_refl|exact I].
    - unfold handle_pubrel3. destruct (aget p (z_qos2 s)); apply bgrows_refl.
    - pose proof (subscribe3_same now p fs s g) as H. destruct (handle_subscribe3 now p fs s g) as ((s2, g2), [o2| |]);
        [|..]; try exact I; apply same3_grows, H.
    - destruct (handle_unsubscribe3 p fs s g) as [((s2, g2), o2)|] eqn:E2; [|exact I]. eapply same3_grows, unsubscribe3_same; eauto.
  Qed.

  Variable hk : hooks.
  Variable encode : pkt3 -> option (list N).
  Notation i3 := (online3 hk hash encode).
  Lemma i3_grows s s' : bgrows (bc3 s) (bc3 s') -> grows i3 s s'.
  Proof. intros H. exact H. Qed.

  Lemma hook3_grows now q a s g : match hook3 hash now q a s g with
    | HpOk s' _ _ _ | HpErr s' _ _ => bgrows (bc3 s) (bc3 s') | HpPanic => True end.
  Proof.
    unfold hook3, finish_hook. destruct q, a; try (apply bgrows_refl); (destruct ok; [|apply bgrows_refl]).
    - destruct (handle_publish3 hash w0 s g) as [((s2, g2), o2)| |] eqn:E2; [|apply bgrows_refl|exact I].
      apply publish3_grows in E2. destruct after; exact E2.
    - pose proof (subscribe3_same now p0 fs0 s g) as H. destruct (handle_subscribe3 now p0 fs0 s g) as ((s2, g2), [o2| |]);
        try exact I; apply same3_grows in H; [destruct after|]; exact H.
    - destruct (handle_unsubscribe3 p0 fs0 s g) as [((s2, g2), o2)|] eqn:E2; [|exact I].
      apply unsubscribe3_same, same3_grows in E2. destruct after; exact E2.
  Qed.
  Lemma packet3_grows now x s g : match packet3 hk hash now x s g with
    | HpOk s' _ _ _ | HpErr s' _ _ => bgrows (bc3 s) (bc3 s') | HpPanic => True end.
  Proof.
    unfold packet3. match goal with |- context [match ?r with Some q => HpOk s g [] (Some q) | None => _ end] => destruct r end.
    - apply bgrows_refl.
    - pose proof (packet3_both now (fst x) (snd x) s g) as H. destruct (handle_packet3 hash now (fst x) (snd x) s g); exact H.
  Qed.
  Lemma action3_grows now a s g : match action3 now a s g with
    | HpOk s' _ _ _ | HpErr s' _ _ => bgrows (bc3 s) (bc3 s') | HpPanic => True end.
  Proof.
    unfold action3. destruct a.
    - destruct (enc_len3 _); [|apply bgrows_refl]. destruct (send_publish3 _ s g) as [(s2, g2)|] eqn:E2; [|exact I].
      eapply send_publish3_grows; eauto.
    - match goal with |- context [handle_subscribe3 ?a ?b ?c ?d ?e] => pose proof (subscribe3_same a b c d e) as H;
        destruct (handle_subscribe3 a b c d e) as ((s2, g2), [o2| |]) end; try exact I; apply same3_grows, H.
    - destruct (handle_unsubscribe3 _ _ s g) as [((s2, g2), o2)|] eqn:E2; [|exact I]. eapply same3_grows, unsubscribe3_same; eauto.
  Qed.

  Lemma online3_well : well_behaved i3.
  Proof.
    constructor; cbn [online3 i_set i_bc i_cnt i_decode_error i_packet i_hook i_after i_action i_control i_normal i_pendings].
    - auto.
    - discriminate.
    - intros n x s g s' g' out r E. pose proof (packet3_grows n x s g) as H. rewrite E in H. exact H.
    - intros n x s g s' g' out E. pose proof (packet3_grows n x s g) as H. rewrite E in H. exact H.
    - intros n q a s g s' g' out r E. pose proof (hook3_grows n q a s g) as H. rewrite E in H. exact H.
    - intros n q a s g s' g' out E. pose proof (hook3_grows n q a s g) as H. rewrite E in H. exact H.
    - intros n s. apply i3_grows. eapply bgrows_trans; [|apply same3_grows, pendings3_same]. apply bgrows_refl.
    - intros n a s g s' g' out r E. pose proof (action3_grows n a s g) as H. rewrite E in H. exact H.
    - intros n a s g s' g' out E. pose proof (action3_grows n a s g) as H. rewrite E in H. exact H.
    - intros n c s g s' g' a b. destruct c; intros E; inversion E; subst; apply i3_grows, bgrows_refl.
    - intros n f m s g s' g' r. pose proof (normal3_same n m s) as H. destruct (handle_normal3 n m s) as (s1, r1).
      intros E. injection E as <- <- <-. apply i3_grows, same3_grows, H.
    - intros n s. apply i3_grows, same3_grows, pendings3_same.
  Qed.

  Lemma disc3_sticky s s' : same3 s s' -> i_disc i3 s <> None -> i_disc i3 s' <> None.
  Proof. intros (_ & _ & H). cbn. now rewrite H. Qed.
  Lemma online3_sticky : sticky i3.
  Proof.
    constructor; cbn [online3 i_set i_bc i_cnt i_control i_normal i_pendings].
    - intros b n s H. exact H.
    - intros n c s g s' g' a b. destruct c; intros E; inversion E; subst; auto.
    - intros n f m s g s' g' r. pose proof (normal3_same n m s) as H. destruct (handle_normal3 n m s) as (s1, r1).
      intros E. injection E as <- <- <-. now apply disc3_sticky.
    - intros n s. apply disc3_sticky, pendings3_same.
  Qed.
End V3.
