(** A session with more messages waiting for others behaves the same (for C71). *)
From Coq Require Import List Bool NArith String Lia.
From Verif Require Import Base BaseLemmas TopicModel MsgModel PendingModel OutModel RouteModel RetainModel GlobModel Sess5Model Sess3Model.
Import ListNotations.
Local Open Scope N_scope.

Section Lift.
  (** What is in front of the queue of each destination, and how much that is. *)
  Variables (w : client_id -> list nmsg) (H : N).
  Definition up (bc : bcast) : bcast := map (fun x => (fst x, (w (fst x) ++ snd x)%list)) bc.
  Definition fresh (bc : bcast) : Prop := forall d, aget d bc = None -> w d = [].

  Lemma up_get d bc : aget d (up bc) = option_map (app (w d)) (aget d bc).
  Proof.
    induction bc as [|[d' q] bc IH]; [reflexivity|]. cbn [up map fst snd aget]. fold (up bc).
    destruct (eqb_spec d d') as [->|]; [reflexivity|exact IH].
  Qed.
  Lemma up_set d q bc : up (aset d q bc) = aset d (w d ++ q)%list (up bc).
  Proof.
    induction bc as [|[d' q'] bc IH]; [reflexivity|]. cbn [up map fst snd aset]. fold (up bc).
    destruct (eqb_spec d d') as [->|]; cbn [up map fst snd]; [reflexivity|]. fold (up (aset d q bc)). rewrite IH. reflexivity.
  Qed.
  Lemma up_queue g c m bc n : fresh bc -> 1 <= n -> let '(b', n') := queue_msg g c m (bc, n) in
    queue_msg g c m (up bc, n + H) = (up b', n' + H) /\ fresh b' /\ n <= n' + 1.
  Proof.
    intros F N1. unfold queue_msg. rewrite up_get. destruct (aget c bc) as [q|] eqn:A; cbn [option_map].
    - rewrite A, up_get, A. cbn [option_map]. rewrite up_set, app_assoc. split; [reflexivity|]. split; [|lia].
      intros d D. apply F. rewrite aget_aset in D. destruct (eqb_spec d c); [discriminate|exact D].
    - destruct (has_sender g c).
      + rewrite !aget_aset_eq. cbn [app].
        assert (E : up (aset c [m] (aset c [] bc)) = aset c [m] (aset c [] (up bc))) by (rewrite !up_set, (F c A); reflexivity).
        cbn [app]. rewrite E. split; [reflexivity|]. split; [|lia]. intros d D. apply F. rewrite !aget_aset in D. destruct (eqb_spec d c); [discriminate|exact D].
      + rewrite A, up_get, A. cbn [option_map]. split; [f_equal; lia|]. split; [exact F|lia].
  Qed.
  Lemma up_fold {A} g (f : A -> client_id * nmsg) l : forall bc n, fresh bc -> N.of_nat (List.length l) <= n ->
    let '(b', n') := fold_left (fun x e => queue_msg g (fst (f e)) (snd (f e)) x) l (bc, n) in
    fold_left (fun x e => queue_msg g (fst (f e)) (snd (f e)) x) l (up bc, n + H) = (up b', n' + H) /\ fresh b'.
  Proof.
    induction l as [|e l IH]; intros bc n F LE; cbn [fold_left]; [auto|]. cbn [List.length] in LE.
    pose proof (up_queue g (fst (f e)) (snd (f e)) bc n F ltac:(lia)) as Q. destruct (queue_msg g _ _ (bc, n)) as [b1 n1].
    destruct Q as (Q & F1 & L1). rewrite Q. apply IH; auto. lia.
  Qed.

  (** ** MQTT 5 *)
  Definition L5 (s : sess5) : sess5 := with_bcast (up (s_bcast s)) (s_bcnt s + H) s.
  Definition ok5 (s : sess5) : Prop := fresh (s_bcast s).

  Lemma senders5 pick s cts : forall l, collect_senders pick (L5 s) cts l = collect_senders pick s cts l.
  Proof.
    induction cts as [|ct r IH]; intros l; [reflexivity|]. cbn [collect_senders]. destruct (c_filter ct); [|reflexivity].
    change (add_clients (L5 s)) with (add_clients s). destruct (add_groups _ _ _ _); auto.
  Qed.
  Lemma send5 pick m s g : ok5 s ->
    match send_publish5 pick m s g with
    | Done (s', g', n) => send_publish5 pick m (L5 s) g = Done (L5 s', g', n) /\ ok5 s'
    | Panic => send_publish5 pick m (L5 s) g = Panic
    end.
  Proof.
    intros F. unfold send_publish5. rewrite senders5. change (s_ident (L5 s)) with (s_ident s). set (g1 := store_retained _ _ _).
    destruct (collect_senders pick s _ []) as [l|]; [|reflexivity].
    pose proof (up_fold g1 (fun e : client_id * (list string * qos) => (fst e, NM5 (NMsg5 (sp_retain m) (sp_qos m) (sp_topic m) (sp_payload m) (fst (snd e)) (snd (snd e)) (sp_props m) (sp_len m)))) l
                  (s_bcast s) (s_bcnt s + N.of_nat (List.length l)) F ltac:(lia)) as U. cbn [fst snd] in U.
    change (s_bcast (L5 s)) with (up (s_bcast s)). change (s_bcnt (L5 s)) with (s_bcnt s + H).
    replace (s_bcnt s + H + N.of_nat (List.length l)) with (s_bcnt s + N.of_nat (List.length l) + H) by lia.
    destruct (fold_left _ l (s_bcast s, _)) as [b' n']. destruct U as (U & F'). rewrite U. split; [reflexivity|exact F'].
  Qed.

  (** Everything else does not look at the queues. *)
  Ltac cases := repeat (cbn beta iota; match goal with |- context[match ?x with _ => _ end] => lazymatch x with context[match _ with _ => _ end] => fail | (_, _) => fail | _ => destruct x eqn:? end end); cbn beta iota.
  Lemma error5 code r s : error_disconnect code r (L5 s) = (L5 (fst (error_disconnect code r s)), snd (error_disconnect code r s)) /\ s_bcast (fst (error_disconnect code r s)) = s_bcast s.
  Proof. split; reflexivity. Qed.
  Lemma resolve5 a p s : let '(s1, r) := resolve_topic a p s in resolve_topic a p (L5 s) = (L5 s1, r) /\ s_bcast s1 = s_bcast s.
  Proof. unfold resolve_topic. change (s_alias (L5 s)) with (s_alias s). cases; split; reflexivity. Qed.
  Lemma qos25 hash lim p s : let '(s1, r) := check_qos2 hash lim p s in check_qos2 hash lim p (L5 s) = (L5 s1, r) /\ s_bcast s1 = s_bcast s.
  Proof. unfold check_qos2. change (s_qos2 (L5 s)) with (s_qos2 s). cases; split; reflexivity. Qed.
  Lemma publish5 hash pick p s g : ok5 s ->
    match handle_publish5 hash pick p s g with
    | Done (s', g', o) => handle_publish5 hash pick p (L5 s) g = Done (L5 s', g', o) /\ ok5 s'
    | Panic => handle_publish5 hash pick p (L5 s) g = Panic
    end.
  Proof.
    intros F. unfold handle_publish5. destruct (starts_with_dollar _); [split; [reflexivity|exact F]|]. destruct (is_q0 _ && _); [split; [reflexivity|exact F]|].
    pose proof (resolve5 (cf_alias_max (g_cfg g)) p s) as R. destruct (resolve_topic _ p s) as [s1 [topic|[code reason]]]; destruct R as (R & B1); rewrite R.
    2:{ split; [reflexivity|]. unfold ok5. cbn. rewrite B1. exact F. }
    destruct (negb _). { split; [reflexivity|]. unfold ok5. cbn. rewrite B1. exact F. }
    pose proof (qos25 hash (cf_inflight_server (g_cfg g)) p s1) as Q. destruct (check_qos2 hash _ p s1) as [s2 v]. destruct Q as (Q & B2). rewrite Q.
    assert (F2 : ok5 s2) by (unfold ok5; rewrite B2, B1; exact F).
    destruct v as [| |code reason]; [|split; [reflexivity|exact F2]|split; [reflexivity|exact F2]].
    destruct (w5_dup p && _); [split; [reflexivity|exact F2]|]. destruct (enc_len5 p) as [len|]; [|reflexivity].
    pose proof (send5 pick (SendPub topic (w5_retain p) (qp_qos (w5_qp p)) (w5_payload p) (set_alias None (w5_props p)) len) s2 g F2) as S.
    destruct (send_publish5 pick _ s2 g) as [[[s3 g3] n]|]; [|rewrite S; reflexivity]. destruct S as (S & F3). rewrite S. split; [reflexivity|exact F3].
  Qed.
  Lemma recv5 now m s : let '(s1, r) := recv_publish5 now m s in recv_publish5 now m (L5 s) = (L5 s1, r) /\ s_bcast s1 = s_bcast s.
  Proof.
    unfold recv_publish5. change (s_subs (L5 s)) with (s_subs s). change (s_maxpkt (L5 s)) with (s_maxpkt s). change (s_out (L5 s)) with (s_out s).
    change (s_cdisc (L5 s)) with (s_cdisc s). change (s_sdisc (L5 s)) with (s_sdisc s). cases; split; reflexivity.
  Qed.
  Lemma normal5 now c m s : let '(s1, r) := handle_normal5 now c m s in handle_normal5 now c m (L5 s) = (L5 s1, r) /\ s_bcast s1 = s_bcast s.
  Proof.
    unfold handle_normal5. change (s_subs (L5 s)) with (s_subs s). destruct m as [m|m].
    - destruct (aget _ _); [apply recv5|split; reflexivity].
    - destruct (filters_info _ _) as [[has rap] ids]. destruct has; [apply recv5|split; reflexivity].
  Qed.
  Lemma pend5 now s : let '(s1, o) := pendings5 now s in pendings5 now (L5 s) = (L5 s1, o) /\ s_bcast s1 = s_bcast s.
  Proof. unfold pendings5. change (s_out (L5 s)) with (s_out s). destruct (handle_pendings5 _ _). split; reflexivity. Qed.
  Lemma retained5 now f o ms : forall s, let '(s1, out, p) := send_retained now f o ms s in send_retained now f o ms (L5 s) = (L5 s1, out, p) /\ s_bcast s1 = s_bcast s.
  Proof.
    induction ms as [|m r IH]; intros s; cbn [send_retained]; [split; reflexivity|]. change (s_ident (L5 s)) with (s_ident s). destruct (_ && _); [apply IH|].
    match goal with |- context[recv_publish5 now ?x s] => pose proof (recv5 now x s) as R; destruct (recv_publish5 now x s) as [s1 res] end.
    destruct R as (R & B). rewrite R. specialize (IH s1). destruct (send_retained now f o r s1) as [[s2 out] pe]. destruct IH as (IH & B2). rewrite IH.
    destruct res as [[q k]|]; split; try reflexivity; congruence.
  Qed.
  Lemma sub_one5 now id f o s g :
    match subscribe_one now id f o s g with
    | Done (s', g', n, out) => subscribe_one now id f o (L5 s) g = Done (L5 s', g', n, out) /\ s_bcast s' = s_bcast s
    | Panic => subscribe_one now id f o (L5 s) g = Panic
    end.
  Proof.
    unfold subscribe_one. change (s_subs (L5 s)) with (s_subs s). change (s_id (L5 s)) with (s_id s). destruct (max_allowed_qos _) as [mq|]; [|reflexivity].
    destruct (sub_code _ _ _ <? 0x80); [|split; reflexivity]. destruct (rt_subscribe _ _ _ _) as [t p]. destruct p; [reflexivity|].
    match goal with |- match (if ?c then _ else _) with _ => _ end => destruct c end; [|split; reflexivity]. destruct (ret_get_matches _ _) as [ms|]; [|reflexivity].
    set (s1 := with_subs _ s). change (with_subs _ (L5 s)) with (L5 s1).
    match goal with |- context[send_retained now f ?x ms s1] => pose proof (retained5 now f x ms s1) as R; destruct (send_retained now f x ms s1) as [[s2 out] pe] end.
    destruct R as (R & B). rewrite R. destruct pe; [|split; [reflexivity|exact B]]. pose proof (pend5 now s2) as P. destruct (pendings5 now s2) as [s3 out']. destruct P as (P & B3). rewrite P.
    split; [reflexivity|]. rewrite B3. exact B.
  Qed.
  Lemma sub_all5 now id fs : forall s g,
    match subscribe_all now id fs s g with
    | Done (s', g', n, out) => subscribe_all now id fs (L5 s) g = Done (L5 s', g', n, out) /\ s_bcast s' = s_bcast s
    | Panic => subscribe_all now id fs (L5 s) g = Panic
    end.
  Proof.
    induction fs as [|[f o] r IH]; intros s g; cbn [subscribe_all]; [split; reflexivity|].
    pose proof (sub_one5 now id f o s g) as O. destruct (subscribe_one now id f o s g) as [[[[s1 g1] code] out]|]; [|rewrite O; reflexivity]. destruct O as (O & B). rewrite O.
    specialize (IH s1 g1). destruct (subscribe_all now id r s1 g1) as [[[[s2 g2] codes] out2]|]; [|rewrite IH; reflexivity]. destruct IH as (IH & B2). rewrite IH.
    split; [reflexivity|congruence].
  Qed.
  Lemma sub5 now p id fs s g :
    match handle_subscribe5 now p id fs s g with
    | Done (s', g', out) => handle_subscribe5 now p id fs (L5 s) g = Done (L5 s', g', out) /\ s_bcast s' = s_bcast s
    | Panic => handle_subscribe5 now p id fs (L5 s) g = Panic
    end.
  Proof.
    unfold handle_subscribe5. pose proof (sub_all5 now id fs s g) as A.
    destruct id as [[|i]|]; [split; reflexivity| |];
      (destruct (negb _ && _); [split; reflexivity|]; destruct (subscribe_all _ _ fs s g) as [[[[s2 g2] codes] out2]|]; [destruct A as (A & B); rewrite A; split; [reflexivity|exact B]|rewrite A; reflexivity]).
  Qed.
  Lemma unsub_all5 fs : forall s g,
    match unsubscribe_all fs s g with
    | Done (s', g', n) => unsubscribe_all fs (L5 s) g = Done (L5 s', g', n) /\ s_bcast s' = s_bcast s
    | Panic => unsubscribe_all fs (L5 s) g = Panic
    end.
  Proof.
    induction fs as [|f r IH]; intros s g; cbn [unsubscribe_all]; [split; reflexivity|]. change (s_subs (L5 s)) with (s_subs s). change (s_id (L5 s)) with (s_id s).
    destruct (rt_unsubscribe _ _ _) as [t p]. destruct p; [reflexivity|]. set (s1 := with_subs _ s). change (with_subs _ (L5 s)) with (L5 s1).
    specialize (IH s1 (set_route t g)). destruct (unsubscribe_all r s1 _) as [[[s2 g2] codes]|]; [|rewrite IH; reflexivity]. destruct IH as (IH & B2). rewrite IH. split; [reflexivity|exact B2].
  Qed.
  Lemma packet5 hash pick now len x s g : ok5 s ->
    match handle_packet5 hash pick now len x s g with
    | Go s' g' o => handle_packet5 hash pick now len x (L5 s) g = Go (L5 s') g' o /\ ok5 s'
    | Stop s' g' => handle_packet5 hash pick now len x (L5 s) g = Stop (L5 s') g' /\ ok5 s'
    | Crash => handle_packet5 hash pick now len x (L5 s) g = Crash
    end.
  Proof.
    intros F. assert (K : forall s', s_bcast s' = s_bcast s -> ok5 s') by (intros s' E; unfold ok5; rewrite E; exact F).
    unfold handle_packet5. destruct (_ <? len); [split; [reflexivity|apply K; reflexivity]|]. destruct x as [p|p|p|p|p|p id fs|p fs| |code e|].
    - pose proof (publish5 hash pick p s g F) as P. destruct (handle_publish5 hash pick p s g) as [[[s1 g1] o]|]; [destruct P as (P & F1); rewrite P; split; [reflexivity|exact F1]|rewrite P; reflexivity].
    - split; [reflexivity|apply K; reflexivity].
    - unfold handle_pubrec5. change (s_out (L5 s)) with (s_out s). destruct (out5_on_queue _ _). split; [reflexivity|apply K; reflexivity].
    - unfold handle_pubrel5. change (s_qos2 (L5 s)) with (s_qos2 s). destruct (aget _ _); (split; [reflexivity|apply K; reflexivity]).
    - split; [reflexivity|apply K; reflexivity].
    - pose proof (sub5 now p id fs s g) as P. destruct (handle_subscribe5 now p id fs s g) as [[[s1 g1] o]|]; [destruct P as (P & F1); rewrite P; split; [reflexivity|apply K; exact F1]|rewrite P; reflexivity].
    - unfold handle_unsubscribe5. pose proof (unsub_all5 fs s g) as P. destruct (unsubscribe_all fs s g) as [[[s1 g1] o]|]; [destruct P as (P & F1); rewrite P; split; [reflexivity|apply K; exact F1]|rewrite P; reflexivity].
    - split; [reflexivity|exact F].
    - unfold handle_disconnect5. change (s_expiry (L5 s)) with (s_expiry s). destruct e as [v|]; [destruct (_ && _)|]; try (split; [reflexivity|apply K; reflexivity]); destruct (code =? 0); (split; [reflexivity|apply K; reflexivity]).
    - split; [reflexivity|exact F].
  Qed.
  Lemma after5 now s : let '(s1, o) := after_packet5 now s in after_packet5 now (L5 s) = (L5 s1, o) /\ s_bcast s1 = s_bcast s.
  Proof.
    unfold after_packet5. change (is_disconnected5 (L5 s)) with (is_disconnected5 s). destruct (is_disconnected5 s); [split; reflexivity|].
    change (with_last now (L5 s)) with (L5 (with_last now s)). pose proof (pend5 now (with_last now s)) as P. destruct (pendings5 now (with_last now s)). exact P.
  Qed.

  (** ** MQTT 3 *)
  Definition L3 (s : sess3) : sess3 := zwith_bcast (up (z_bcast s)) (z_bcnt s + H) s.
  Definition ok3 (s : sess3) : Prop := fresh (z_bcast s).
  Lemma send3 m s g : ok3 s ->
    match send_publish3 m s g with
    | Done (s', g') => send_publish3 m (L3 s) g = Done (L3 s', g') /\ ok3 s'
    | Panic => send_publish3 m (L3 s) g = Panic
    end.
  Proof.
    intros F. unfold send_publish3. change (z_ident (L3 s)) with (z_ident s). set (g1 := store_retained _ _ _).
    destruct (collect3 _) as [l|]; [|reflexivity].
    pose proof (up_fold g1 (fun e : client_id * (string * qos) => (fst e, NM3 (NMsg3 (sp3_retain m) (sp3_qos m) (sp3_topic m) (sp3_payload m) (fst (snd e)) (snd (snd e)) (sp3_len m)))) l
                  (z_bcast s) (z_bcnt s + N.of_nat (List.length l)) F ltac:(lia)) as U. cbn [fst snd] in U.
    change (z_bcast (L3 s)) with (up (z_bcast s)). change (z_bcnt (L3 s)) with (z_bcnt s + H).
    replace (z_bcnt s + H + N.of_nat (List.length l)) with (z_bcnt s + N.of_nat (List.length l) + H) by lia.
    destruct (fold_left _ l (z_bcast s, _)) as [b' n']. destruct U as (U & F'). rewrite U. split; [reflexivity|exact F'].
  Qed.
  Lemma publish3 hash p s g : ok3 s ->
    match handle_publish3 hash p s g with
    | Ok3 (s', g', o) => handle_publish3 hash p (L3 s) g = Ok3 (L3 s', g', o) /\ ok3 s'
    | Err3 => handle_publish3 hash p (L3 s) g = Err3
    | Panic3 => handle_publish3 hash p (L3 s) g = Panic3
    end.
  Proof.
    intros F. unfold handle_publish3. destruct (String.eqb _ _); [reflexivity|]. destruct (starts_with_dollar _); [reflexivity|]. destruct (is_q0 _ && _); [reflexivity|].
    change (z_qos2 (L3 s)) with (z_qos2 s).
    assert (P : forall s1, ok3 s1 ->
      match (if w3_dup p && is_q2 (w3_qp p) then Ok3 (s1, g, publish_ack3 (w3_qp p)) else
             match enc_len3 p with None => Panic3 | Some len =>
               match send_publish3 (SendPub3 (w3_topic p) (w3_retain p) (qp_qos (w3_qp p)) (w3_payload p) len) s1 g with Panic => Panic3 | Done (s2, g') => Ok3 (s2, g', publish_ack3 (w3_qp p)) end end) with
      | Ok3 (s', g', o) => (if w3_dup p && is_q2 (w3_qp p) then Ok3 (L3 s1, g, publish_ack3 (w3_qp p)) else
             match enc_len3 p with None => Panic3 | Some len =>
               match send_publish3 (SendPub3 (w3_topic p) (w3_retain p) (qp_qos (w3_qp p)) (w3_payload p) len) (L3 s1) g with Panic => Panic3 | Done (s2, g') => Ok3 (s2, g', publish_ack3 (w3_qp p)) end end)
               = Ok3 (L3 s', g', o) /\ ok3 s'
      | Err3 => False
      | Panic3 => (if w3_dup p && is_q2 (w3_qp p) then Ok3 (L3 s1, g, publish_ack3 (w3_qp p)) else
             match enc_len3 p with None => Panic3 | Some len =>
               match send_publish3 (SendPub3 (w3_topic p) (w3_retain p) (qp_qos (w3_qp p)) (w3_payload p) len) (L3 s1) g with Panic => Panic3 | Done (s2, g') => Ok3 (s2, g', publish_ack3 (w3_qp p)) end end) = Panic3
      end).
    { intros s1 F1. destruct (_ && _); [split; [reflexivity|exact F1]|]. destruct (enc_len3 p) as [len|]; [|reflexivity].
      pose proof (send3 (SendPub3 (w3_topic p) (w3_retain p) (qp_qos (w3_qp p)) (w3_payload p) len) s1 g F1) as S.
      destruct (send_publish3 _ s1 g) as [[s3 g3]|]; [|rewrite S; reflexivity]. destruct S as (S & F3). rewrite S. split; [reflexivity|exact F3]. }
    assert (P' : forall s1, ok3 s1 ->
      match (if w3_dup p && is_q2 (w3_qp p) then Ok3 (s1, g, publish_ack3 (w3_qp p)) else
             match enc_len3 p with None => Panic3 | Some len =>
               match send_publish3 (SendPub3 (w3_topic p) (w3_retain p) (qp_qos (w3_qp p)) (w3_payload p) len) s1 g with Panic => Panic3 | Done (s2, g') => Ok3 (s2, g', publish_ack3 (w3_qp p)) end end) with
      | Ok3 (s', g', o) => (if w3_dup p && is_q2 (w3_qp p) then Ok3 (L3 s1, g, publish_ack3 (w3_qp p)) else
             match enc_len3 p with None => Panic3 | Some len =>
               match send_publish3 (SendPub3 (w3_topic p) (w3_retain p) (qp_qos (w3_qp p)) (w3_payload p) len) (L3 s1) g with Panic => Panic3 | Done (s2, g') => Ok3 (s2, g', publish_ack3 (w3_qp p)) end end)
               = Ok3 (L3 s', g', o) /\ ok3 s'
      | Err3 => (if w3_dup p && is_q2 (w3_qp p) then Ok3 (L3 s1, g, publish_ack3 (w3_qp p)) else
             match enc_len3 p with None => Panic3 | Some len =>
               match send_publish3 (SendPub3 (w3_topic p) (w3_retain p) (qp_qos (w3_qp p)) (w3_payload p) len) (L3 s1) g with Panic => Panic3 | Done (s2, g') => Ok3 (s2, g', publish_ack3 (w3_qp p)) end end) = Err3
      | Panic3 => (if w3_dup p && is_q2 (w3_qp p) then Ok3 (L3 s1, g, publish_ack3 (w3_qp p)) else
             match enc_len3 p with None => Panic3 | Some len =>
               match send_publish3 (SendPub3 (w3_topic p) (w3_retain p) (qp_qos (w3_qp p)) (w3_payload p) len) (L3 s1) g with Panic => Panic3 | Done (s2, g') => Ok3 (s2, g', publish_ack3 (w3_qp p)) end end) = Panic3
      end).
    { intros s1 F1. specialize (P s1 F1). destruct (if w3_dup p && is_q2 (w3_qp p) then Ok3 (s1, g, _) else _) as [[[s2 g2] o]| |]; [exact P|destruct P|exact P]. }
    clear P. destruct (w3_qp p) as [|pp|pp]; [apply (P' s F)|apply (P' s F)|].
    destruct (aget pp (z_qos2 s)); [destruct (negb _); [reflexivity|]; destruct (negb _); [reflexivity|]; apply (P' s F)|]. apply (P' (zwith_qos2 _ s)). exact F.
  Qed.
  Lemma recv3 now m s : let '(s1, r) := recv_publish3 now m s in recv_publish3 now m (L3 s) = (L3 s1, r) /\ z_bcast s1 = z_bcast s.
  Proof. unfold recv_publish3. change (z_subs (L3 s)) with (z_subs s). change (z_out (L3 s)) with (z_out s). change (z_disc (L3 s)) with (z_disc s). cases; split; reflexivity. Qed.
  Lemma normal3 now m s : let '(s1, r) := handle_normal3 now m s in handle_normal3 now m (L3 s) = (L3 s1, r) /\ z_bcast s1 = z_bcast s.
  Proof. unfold handle_normal3. destruct m as [m|m]; [apply recv3|]. destruct (n5_filters m); [split; reflexivity|apply recv3]. Qed.
  Lemma pend3 now s : let '(s1, o) := pendings3 now s in pendings3 now (L3 s) = (L3 s1, o) /\ z_bcast s1 = z_bcast s.
  Proof. unfold pendings3. change (z_out (L3 s)) with (z_out s). destruct (handle_pendings3 _ _). split; reflexivity. Qed.
  Lemma retained3 now f q ms : forall s, let '(s1, out, p) := send_retained3 now f q ms s in send_retained3 now f q ms (L3 s) = (L3 s1, out, p) /\ z_bcast s1 = z_bcast s.
  Proof.
    induction ms as [|m r IH]; intros s; cbn [send_retained3]; [split; reflexivity|]. destruct (qos_leb _ _); [|apply IH].
    match goal with |- context[recv_publish3 now ?x s] => pose proof (recv3 now x s) as R; destruct (recv_publish3 now x s) as [s1 res] end.
    destruct R as (R & B). rewrite R. specialize (IH s1). destruct (send_retained3 now f q r s1) as [[s2 out] pe]. destruct IH as (IH & B2). rewrite IH.
    destruct res as [[q0 k]|]; split; try reflexivity; congruence.
  Qed.
  Lemma sub_one3 now f q s g :
    match subscribe_one3 now f q s g with
    | Ok3 (s', g', n, out) => subscribe_one3 now f q (L3 s) g = Ok3 (L3 s', g', n, out) /\ z_bcast s' = z_bcast s
    | Err3 => subscribe_one3 now f q (L3 s) g = Err3
    | Panic3 => subscribe_one3 now f q (L3 s) g = Panic3
    end.
  Proof.
    unfold subscribe_one3. change (z_subs (L3 s)) with (z_subs s). change (z_id (L3 s)) with (z_id s). destruct (is_shared f); [reflexivity|]. destruct (max_allowed_qos _) as [mq|]; [|reflexivity].
    destruct (rt_subscribe _ _ _ _) as [t p]. destruct p; [reflexivity|]. destruct (ret_get_matches _ _) as [ms|]; [|reflexivity].
    set (s1 := zwith_subs _ s). change (zwith_subs _ (L3 s)) with (L3 s1).
    match goal with |- context[send_retained3 now f ?x ms s1] => pose proof (retained3 now f x ms s1) as R; destruct (send_retained3 now f x ms s1) as [[s2 out] pe] end.
    destruct R as (R & B). rewrite R. destruct pe; [|split; [reflexivity|exact B]]. pose proof (pend3 now s2) as P. destruct (pendings3 now s2) as [s3 out']. destruct P as (P & B3). rewrite P.
    split; [reflexivity|]. rewrite B3. exact B.
  Qed.
  Lemma sub_all3 now fs : forall s g,
    let '(s', g', r) := subscribe_all3 now fs s g in subscribe_all3 now fs (L3 s) g = (L3 s', g', r) /\ z_bcast s' = z_bcast s.
  Proof.
    induction fs as [|[f o] r IH]; intros s g; cbn [subscribe_all3]; [split; reflexivity|].
    pose proof (sub_one3 now f o s g) as O. destruct (subscribe_one3 now f o s g) as [[[[s1 g1] code] out]| |]; [|rewrite O; split; reflexivity..]. destruct O as (O & B). rewrite O.
    specialize (IH s1 g1). destruct (subscribe_all3 now r s1 g1) as [[s2 g2] [[codes out2]| |]]; destruct IH as (IH & B2); rewrite IH; split; try reflexivity; congruence.
  Qed.
  Lemma unsub_all3 fs : forall s g,
    match unsubscribe_all3 fs s g with
    | Done (s', g') => unsubscribe_all3 fs (L3 s) g = Done (L3 s', g') /\ z_bcast s' = z_bcast s
    | Panic => unsubscribe_all3 fs (L3 s) g = Panic
    end.
  Proof.
    induction fs as [|f r IH]; intros s g; cbn [unsubscribe_all3]; [split; reflexivity|]. change (z_subs (L3 s)) with (z_subs s). change (z_id (L3 s)) with (z_id s).
    destruct (rt_unsubscribe _ _ _) as [t p]. destruct p; [reflexivity|]. set (s1 := zwith_subs _ s). change (zwith_subs _ (L3 s)) with (L3 s1). apply (IH s1).
  Qed.
  Lemma packet3 hash now len x s g : ok3 s ->
    match handle_packet3 hash now len x s g with
    | Go3 s' g' o => handle_packet3 hash now len x (L3 s) g = Go3 (L3 s') g' o /\ ok3 s'
    | Stop3 s' g' => handle_packet3 hash now len x (L3 s) g = Stop3 (L3 s') g' /\ ok3 s'
    | Crash3 => handle_packet3 hash now len x (L3 s) g = Crash3
    end.
  Proof.
    intros F. assert (K : forall s', z_bcast s' = z_bcast s -> ok3 s') by (intros s' E; unfold ok3; rewrite E; exact F).
    unfold handle_packet3. destruct (_ <? len); [split; [reflexivity|exact F]|]. destruct x as [p|p|p|p|p|p fs|p fs| | |].
    - pose proof (publish3 hash p s g F) as P. destruct (handle_publish3 hash p s g) as [[[s1 g1] o]| |]; [destruct P as (P & F1); rewrite P; split; [reflexivity|exact F1]|rewrite P; split; [reflexivity|exact F]|rewrite P; reflexivity].
    - split; [reflexivity|apply K; reflexivity].
    - split; [reflexivity|apply K; reflexivity].
    - unfold handle_pubrel3. change (z_qos2 (L3 s)) with (z_qos2 s). destruct (aget _ _); (split; [reflexivity|apply K; reflexivity]).
    - split; [reflexivity|apply K; reflexivity].
    - unfold handle_subscribe3. pose proof (sub_all3 now fs s g) as P. destruct (subscribe_all3 now fs s g) as [[s1 g1] [[codes out]| |]]; destruct P as (P & F1); rewrite P; try reflexivity; (split; [reflexivity|apply K; exact F1]).
    - unfold handle_unsubscribe3. pose proof (unsub_all3 fs s g) as P. destruct (unsubscribe_all3 fs s g) as [[s1 g1]|]; [destruct P as (P & F1); rewrite P; split; [reflexivity|apply K; exact F1]|rewrite P; reflexivity].
    - split; [reflexivity|exact F].
    - split; [reflexivity|apply K; reflexivity].
    - split; [reflexivity|exact F].
  Qed.
  Lemma after3 now s : let '(s1, o) := after_packet3 now s in after_packet3 now (L3 s) = (L3 s1, o) /\ z_bcast s1 = z_bcast s.
  Proof.
    unfold after_packet3. change (zwith_last now (L3 s)) with (L3 (zwith_last now s)). pose proof (pend3 now (zwith_last now s)) as P. destruct (pendings3 now (zwith_last now s)). exact P.
  Qed.
End Lift.
