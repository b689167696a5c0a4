(** Proofs for C86, QoS 0. *)
From Coq Require Import List Bool NArith String Lia Sorting.Sorted.
From Verif Require Import Base BaseLemmas MsgModel PendingModel OutModel OutSpec OutProofs OutInv OrderProofs OrderLast GlobModel Sess5Model Sess3Model ConnModel InSpec InProofs LinkSpec LinkProofs LinkProofs3
  AckProofs RegModel BrokerModel BrokerSpec LifeSpec LifeProofs LifeFacts AccSpec AccRecv LinkFacts PubOrderSpec PubOrderProofs PubZeroSpec.
Import ListNotations.
Local Open Scope N_scope.
Local Open Scope list_scope.

Lemma zero5_app a b : zero5 (a ++ b) = zero5 a ++ zero5 b.
Proof. apply flat_map_app. Qed.
Lemma zero3_app a b : zero3 (a ++ b) = zero3 a ++ zero3 b.
Proof. apply flat_map_app. Qed.
Lemma zero5_wire out : flat_map wire5 out = [] -> zero5 out = [].
Proof. induction out as [|k out IH]; [reflexivity|]. cbn [flat_map]. intros E. apply app_eq_nil in E. destruct E as (E1 & E2). change (k :: out) with ([k] ++ out). rewrite zero5_app, (IH E2). destruct k; try reflexivity. discriminate E1. Qed.
Lemma zero3_wire out : flat_map wire3 out = [] -> zero3 out = [].
Proof. induction out as [|k out IH]; [reflexivity|]. cbn [flat_map]. intros E. apply app_eq_nil in E. destruct E as (E1 & E2). change (k :: out) with ([k] ++ out). rewrite zero3_app, (IH E2). destruct k; try reflexivity. discriminate E1. Qed.

Lemma scanned_pid {M W} (wpid : W -> option pid) wdup carries lifetime now timeout n l l1 (o : list (sent W)) e :
  @scanned M W wpid wdup carries lifetime now timeout n l l1 o e -> Forall (fun s => match s with SPub w => wpid w <> None | _ => True end) o.
Proof. induction 1; auto; constructor; auto. congruence. Qed.

Definition ok5 (o : out5) : Prop := Forall (entry_ok mok5) (pq (o5_q o)).
Definition ok3 (o : out3) : Prop := Forall (entry_ok mok3) (pq (o3_q o)).
Lemma pendings_zero t s s' out : ok5 (s_out s) -> pendings5 t s = (s', out) -> zero5 out = [].
Proof.
  intros OK. unfold pendings5, handle_pendings5.
  destruct (loop_wstep wpid5 w5_dup carries5 lifetime5 mok5 (pendings_body5 t (o5_amax (s_out s))) t (o5_q (s_out s)) (o5_al (s_out s)) (good_body5 _ _) OK) as (q1 & a' & o & e & l1 & EL & _ & _ & SC & _).
  rewrite EL. intros E. injection E as <- <-. apply scanned_pid in SC. clear - SC. induction SC as [|s o H F IH]; [reflexivity|]. change (map of_sent5 (s :: o)) with ([of_sent5 s] ++ map of_sent5 o). rewrite zero5_app, IH, app_nil_r.
  destruct s as [w|p]; [|reflexivity]. cbn. unfold wpid5 in H. destruct (w5_qp w); try reflexivity. now contradiction H.
Qed.
Lemma pendings3_zero t s s' out : ok3 (z_out s) -> pendings3 t s = (s', out) -> zero3 out = [].
Proof.
  intros OK. unfold pendings3, handle_pendings3.
  destruct (loop_wstep wpid3 w3_dup carries3 lifetime3 mok3 (pendings_body3 t) t (o3_q (z_out s)) tt (good_body3 _) OK) as (q1 & a' & o & e & l1 & EL & _ & _ & SC & _).
  rewrite EL. intros E. injection E as <- <-. apply scanned_pid in SC. clear - SC. induction SC as [|s o H F IH]; [reflexivity|]. change (map of_sent3 (s :: o)) with ([of_sent3 s] ++ map of_sent3 o). rewrite zero3_app, IH, app_nil_r.
  destruct s as [w|p]; [|reflexivity]. cbn. unfold wpid3 in H. destruct (w3_qp w); try reflexivity. now contradiction H.
Qed.
Lemma ack_ok5 k t p o : ok5 o -> ok5 (fst (out5_on_queue (ack_queue k t p) o)).
Proof. intros OK. apply (ack_entry_ok mok5 k t p) in OK. unfold ok5, out5_on_queue. destruct (ack_queue k t p (o5_q o)). exact OK. Qed.
Lemma ack_ok3 k t p o : ok3 o -> ok3 (fst (out3_on_queue (ack_queue k t p) o)).
Proof. intros OK. apply (ack_entry_ok mok3 k t p) in OK. unfold ok3, out3_on_queue. destruct (ack_queue k t p (o3_q o)). exact OK. Qed.

(** A QoS 0 PUBLISH is the message that came. *)
Definition shown5 (y : nmsg) (w : wpub5) : Prop := w5_payload w = nm_payload y /\ qp_qos (w5_qp w) = LinkSpec.nm_qos y /\
  (w5_topic w = nm_topic y \/ w5_topic w = EmptyString /\ pp_alias (w5_props w) <> None).
Definition shown3 (y : nmsg) (w : wpub3) : Prop := w3_payload w = nm_payload y /\ qp_qos (w3_qp w) = LinkSpec.nm_qos y /\ w3_topic w = nm_topic y.
Lemma recv_zero t m s s' r : recv_publish5 t m s = (s', r) ->
  match r with Some (_, Some k) => exists w, k = KPub w /\ w5_qp w = Q0 /\ w5_payload w = rp_payload m /\ L0 = qos_min (rp_qos m) (rp_sqos m) /\
    (w5_topic w = rp_topic m \/ w5_topic w = EmptyString /\ pp_alias (w5_props w) <> None) | _ => True end.
Proof.
  unfold recv_publish5.
  destruct (match rp_ids m with Precomputed l => Some l | Lookup f => _ end) as [l|]; [|intros E; injection E as _ <-; exact I].
  destruct (negb (qos_eqb _ L0)) eqn:Q.
  - destruct (_ <? _); [intros E; injection E as _ <-; exact I|]. destruct (out5_push t _ (s_out s)). intros E. injection E as _ <-. exact I.
  - destruct (_ && _); [|intros E; injection E as _ <-; exact I]. destruct (_ <? _); [intros E; injection E as _ <-; exact I|].
    unfold out5_qos0. destruct (apply_alias_cases (o5_amax (s_out s)) (rp_topic m) (set_subids l (match rp_props m with Some p => p | None => pprops_default end)) (o5_al (s_out s))) as (al & t' & a & -> & H).
    intros E. injection E as _ <-. eexists. split; [reflexivity|]. cbn. split; [reflexivity|]. split; [reflexivity|]. split.
    + destruct (qos_min _ _); [reflexivity|discriminate Q..].
    + destruct H as [H|(H & A)]; [now left|right]. split; [exact H|]. destruct a; [discriminate|congruence].
Qed.
Lemma normal_zero t c m s s' r : handle_normal5 t c m s = (s', r) ->
  match r with Some (_, Some k) => exists w, k = KPub w /\ w5_qp w = Q0 /\ shown5 m w | _ => True end.
Proof.
  unfold handle_normal5. destruct m as [m|m].
  - destruct (aget _ _); [|intros E; injection E as _ <-; exact I]. intros E. apply recv_zero in E. destruct r as [[q [k|]]|]; try exact I. destruct E as (w & -> & Q & P & N & T).
    exists w. split; [reflexivity|]. split; [exact Q|]. split; [exact P|]. split; [rewrite Q; exact N|exact T].
  - destruct (filters_info _ _) as ((has, rap), ids). destruct has; [|intros E; injection E as _ <-; exact I].
    intros E. apply recv_zero in E. destruct r as [[q [k|]]|]; try exact I. destruct E as (w & -> & Q & P & N & T).
    exists w. split; [reflexivity|]. split; [exact Q|]. split; [exact P|]. split; [rewrite Q; exact N|exact T].
Qed.
Lemma recv3_zero t m s s' r : recv_publish3 t m s = (s', r) ->
  match r with Some (_, Some k) => exists w, k = JPub w /\ w3_qp w = Q0 /\ w3_payload w = rp3_payload m /\ L0 = qos_min (rp3_qos m) (rp3_sqos m) /\ w3_topic w = rp3_topic m | _ => True end.
Proof.
  unfold recv_publish3. destruct (aget _ _); [|intros E; injection E as _ <-; exact I].
  destruct (negb (qos_eqb _ L0)) eqn:Q.
  - destruct (out3_push t _ (z_out s)). intros E. injection E as _ <-. exact I.
  - destruct (negb (z_disc s)); [|intros E; injection E as _ <-; exact I]. intros E. injection E as _ <-. eexists. split; [reflexivity|]. cbn. repeat (split; [reflexivity|]). split; [|reflexivity].
    destruct (qos_min _ _); [reflexivity|discriminate Q..].
Qed.
Lemma normal3_zero t m s s' r : handle_normal3 t m s = (s', r) ->
  match r with Some (_, Some k) => exists w, k = JPub w /\ w3_qp w = Q0 /\ shown3 m w | _ => True end.
Proof.
  unfold handle_normal3. destruct m as [m|m].
  - intros E. apply recv3_zero in E. destruct r as [[q [k|]]|]; try exact I. destruct E as (w & -> & Q & P & N & T).
    exists w. split; [reflexivity|]. split; [exact Q|]. split; [exact P|]. split; [rewrite Q; exact N|exact T].
  - destruct (n5_filters m); [intros E; injection E as _ <-; exact I|].
    intros E. apply recv3_zero in E. destruct r as [[q [k|]]|]; try exact I. destruct E as (w & -> & Q & P & N & T).
    exists w. split; [reflexivity|]. split; [exact Q|]. split; [exact P|]. split; [rewrite Q; exact N|exact T].
Qed.

Section Pkt.
  Variables (hash : wpub5 -> N) (hash3 : wpub3 -> N) (cfg : config).
  Lemma packet_zero pick t len x s g s' g' out : ok5 (s_out s) -> packet_step5 hash pick t len x s g = Go s' g' out -> by_subscribe5 x \/ zero5 out = [].
  Proof.
    intros OK. unfold packet_step5, handle_packet5.
    assert (AFT : forall s1 g1 o, ok5 (s_out s1) -> flat_map wire5 o = [] \/ zero5 o = [] -> (let '(s2, out') := after_packet5 t s1 in Go s2 g1 (o ++ out')) = Go s' g' out -> zero5 out = []).
    { intros s1 g1 o OK1 Z. unfold after_packet5. assert (ZO : zero5 o = []) by (destruct Z; auto using zero5_wire).
      destruct (is_disconnected5 s1); [intros E; injection E as _ _ <-; now rewrite app_nil_r|].
      match goal with |- (let '(_, _) := ?a in _) = _ -> _ => destruct a as (s2, k) eqn:A end. apply pendings_zero in A; [|exact OK1].
      intros E. injection E as _ _ <-. now rewrite zero5_app, ZO, A. }
    destruct (_ <? len); [intros H; right; revert H; apply AFT; auto|]. destruct x as [w|p|p|p|p|p id fs|p fs| |code expiry|].
    - destruct (handle_publish5 hash pick w s g) as [((s1, g1), o1)|] eqn:P; [|discriminate]. apply publish_out in P. destruct P as ((P1 & _) & P2). intros H. right. revert H. apply AFT; auto. now rewrite P1.
    - intros H. right. revert H. apply AFT; auto. exact (ack_ok5 AckPuback t p _ OK).
    - unfold handle_pubrec5. pose proof (ack_ok5 AckPubrec t p _ OK) as K. cbn [ack_queue] in K. destruct (out5_on_queue _ _). intros H. right. revert H. apply AFT; auto.
    - unfold handle_pubrel5. destruct (aget p (s_qos2 s)); intros H; right; revert H; apply AFT; auto.
    - intros H. right. revert H. apply AFT; auto. exact (ack_ok5 AckPubcomp t p _ OK).
    - intros _. left. do 3 eexists. reflexivity.
    - unfold handle_unsubscribe5. destruct (unsubscribe_all fs s g) as [((s1, g1), cs)|] eqn:P; [|discriminate]. apply unsubscribe_all_out in P. intros H. right. revert H. apply AFT; auto. now rewrite P.
    - intros H. right. revert H. apply AFT; auto.
    - destruct (handle_disconnect5 code expiry s) as (s1, o1) eqn:P. apply disconnect_out in P. destruct P as ((P1 & _) & P2). intros H. right. revert H. apply AFT; auto. now rewrite P1.
    - discriminate.
  Qed.
End Pkt.
Lemma packet3_zero hash t len x s g s' g' out : ok3 (z_out s) -> packet_step3 hash t len x s g = Go3 s' g' out -> by_subscribe3 x \/ zero3 out = [].
Proof.
  intros OK. unfold packet_step3, handle_packet3.
  assert (AFT : forall s1 g1 o, ok3 (z_out s1) -> flat_map wire3 o = [] \/ zero3 o = [] -> (let '(s2, out') := after_packet3 t s1 in Go3 s2 g1 (o ++ out')) = Go3 s' g' out -> zero3 out = []).
  { intros s1 g1 o OK1 Z. assert (ZO : zero3 o = []) by (destruct Z; auto using zero3_wire). destruct (after_packet3 t s1) as (s2, k) eqn:A. apply pendings3_zero in A; [|exact OK1].
    intros E. injection E as _ _ <-. now rewrite zero3_app, ZO, A. }
  destruct (_ <? len); [discriminate|]. destruct x as [w|p|p|p|p|p fs|p fs| | |].
  - destruct (handle_publish3 hash w s g) as [((s1, g1), o1)| |] eqn:P; [|discriminate..]. apply publish3_out in P. destruct P as (P1 & P2). intros H. right. revert H. apply AFT; auto. now rewrite P1.
  - intros H. right. revert H. apply AFT; auto. exact (ack_ok3 AckPuback t p _ OK).
  - unfold handle_pubrec3. pose proof (ack_ok3 AckPubrec t p _ OK) as K. cbn [ack_queue] in K. destruct (out3_on_queue _ _). intros H. right. revert H. apply AFT; auto.
  - destruct (handle_pubrel3 p s) as [(s1, k1)|] eqn:P; [|discriminate]. unfold handle_pubrel3 in P. destruct (aget p (z_qos2 s)); [|discriminate]. injection P as <- <-. intros H. right. revert H. apply AFT; auto.
  - intros H. right. revert H. apply AFT; auto. exact (ack_ok3 AckPubcomp t p _ OK).
  - intros _. left. do 2 eexists. reflexivity.
  - unfold handle_unsubscribe3. destruct (unsubscribe_all3 fs s g) as [(s1, g1)|] eqn:P; [|discriminate]. apply unsubscribe_all3_out in P. intros H. right. revert H. apply AFT; auto. now rewrite P.
  - intros H. right. revert H. apply AFT; auto.
  - intros H. right. revert H. apply AFT; auto.
  - discriminate.
Qed.

Definition occasion5 (e : sev5) : Prop := (exists t m, e = VMsg t m) \/ exists t len x g, e = VPkt t len x g /\ by_subscribe5 x.
Definition occasion3 (e : sev3) : Prop := (exists t m, e = UMsg t m) \/ exists t len x g, e = UPkt t len x g /\ by_subscribe3 x.
Lemma step_zero5 hash cfg s e s' out : ok5 (s_out s) -> sstep5 hash cfg s e s' out ->
  zero5 out = [] \/ (exists t m w, e = VMsg t m /\ zero5 out = [w] /\ shown5 m w) \/ exists t len x g, e = VPkt t len x g /\ by_subscribe5 x.
Proof.
  intros OK S. destruct S as [pick s now len x g s' g' out D WF W E|s now m s' r E|s b n|s now s' out E|s now m s' r E|s reason s' k E|s conn last w|s t0 now uuid p data s' k E]; try (now left).
  - apply packet_zero in E; auto. destruct E as [E|E]; [right; right; eauto 6|now left].
  - apply normal_zero in E. destruct r as [[q [k|]]|]; try (now left). destruct E as (w & -> & Q & H). right. left. exists now, m, w. split; [reflexivity|]. split; [cbn; now rewrite Q|exact H].
  - left. eapply pendings_zero; eauto.
  - left. injection E as _ <-. reflexivity.
Qed.
Lemma step_zero3 hash cfg s e s' out : ok3 (z_out s) -> sstep3 hash cfg s e s' out ->
  zero3 out = [] \/ (exists t m w, e = UMsg t m /\ zero3 out = [w] /\ shown3 m w) \/ exists t len x g, e = UPkt t len x g /\ by_subscribe3 x.
Proof.
  intros OK S. destruct S as [s now len x g s' g' out D WF W E|s now len x g s' g' D WF W E|s now m s' r E|s b n|s now s' out E|s now m s' r E|s conn last w|s now s0 s' present code H E]; try (now left).
  - apply packet3_zero in E; auto. destruct E as [E|E]; [right; right; eauto 6|now left].
  - apply normal3_zero in E. destruct r as [[q [k|]]|]; try (now left). destruct E as (w & -> & Q & H). right. left. exists now, m, w. split; [reflexivity|]. split; [cbn; now rewrite Q|exact H].
  - left. eapply pendings3_zero; eauto.
Qed.

Lemma zeros5_snoc x : forall l b, zeros5 b (l ++ [x]) = zeros5 b l ++ map (fun w => (w, from5 (b ++ l) (fst x))) (zero5 (snd x)).
Proof. induction l as [|y l IH]; intros b; cbn; [rewrite !app_nil_r; reflexivity|]. rewrite IH, <- !app_assoc. reflexivity. Qed.
Lemma zeros3_snoc x : forall l b, zeros3 b (l ++ [x]) = zeros3 b l ++ map (fun w => (w, from3 (b ++ l) (fst x))) (zero3 (snd x)).
Proof. induction l as [|y l IH]; intros b; cbn; [rewrite !app_nil_r; reflexivity|]. rewrite IH, <- !app_assoc. reflexivity. Qed.

(** What holds of the labelled packets [z] of a session that has heard [hs]. *)
Definition told {W} (shown : nmsg -> W -> Prop) (hs : list nmsg) (z : list (W * option nat)) : Prop :=
  Forall (fun x => forall n, snd x = Some n -> exists y, nth_error hs n = Some y /\ shown y (fst x)) z /\
  StronglySorted lt (numbers z) /\ Forall (fun n => (n < List.length hs)%nat) (numbers z).
Lemma sorted_snoc l n : StronglySorted lt l -> Forall (fun i => (i < n)%nat) l -> StronglySorted lt (l ++ [n]).
Proof.
  induction 1 as [|a l S IH F]; cbn; intros H; [repeat constructor|]. inversion H; subst. constructor; [now apply IH|]. apply Forall_app. split; auto.
Qed.
Lemma told_more {W} (shown : nmsg -> W -> Prop) hs hs' z : told shown hs z -> told shown (hs ++ hs') z.
Proof.
  intros (A & B & C). split; [|split; [exact B|]].
  - eapply Forall_impl; [|exact A]. intros x H n N. destruct (H n N) as (y & Y & S). exists y. split; auto. rewrite nth_error_app1; auto. apply nth_error_Some. congruence.
  - eapply Forall_impl; [|exact C]. intros n H. cbn beta in *. rewrite app_length. lia.
Qed.
Lemma told_none {W} (shown : nmsg -> W -> Prop) hs z ws : told shown hs z -> told shown hs (z ++ map (fun w => (w, None)) ws).
Proof.
  assert (X : numbers (z ++ map (fun w => (w, None)) ws) = numbers z).
  { unfold numbers. rewrite flat_map_app. rewrite <- (app_nil_r (flat_map _ z)) at 2. f_equal. induction ws; auto. }
  intros (A & B & C). split; [|rewrite X; auto]. apply Forall_app. split; auto. apply Forall_forall. intros x I n N. apply in_map_iff in I. destruct I as (w & <- & _). discriminate N.
Qed.
Lemma told_next {W} (shown : nmsg -> W -> Prop) hs z w m : told shown hs z -> shown m w -> told shown (hs ++ [m]) (z ++ [(w, Some (List.length hs))]).
Proof.
  intros T S. pose proof (told_more _ _ [m] _ T) as (A & _ & C). destruct T as (_ & B & C0). unfold told, numbers. rewrite flat_map_app. cbn [flat_map snd app]. split; [|split].
  - apply Forall_app. split; auto. constructor; [|constructor]. intros n N. injection N as <-. exists m. split; auto. rewrite nth_error_app2, PeanoNat.Nat.sub_diag; auto.
  - now apply sorted_snoc.
  - apply Forall_app. split; auto. constructor; [|constructor]. rewrite app_length. cbn. lia.
Qed.

Lemma run_zero5 hash cfg s l : srun5 hash cfg s l -> Forall clocked5 l -> told shown5 (heard5 l) (zeros5 [] l) /\ forall e out, In (e, out) l -> zero5 out <> [] -> occasion5 e.
Proof.
  induction 1 as [s H|s l e s' out H IH S]; intros C; [split; [repeat constructor|intros e out []]|].
  apply Forall_app in C. destruct C as (C & _). destruct (IH C) as (T & O).
  destruct (run_linked _ _ _ _ H C) as (rm & amax & ops & log & F & RN & _). pose proof (run5_wrun _ _ _ _ _ _ _ F RN) as WR.
  pose proof (proj1 (a_ord _ _ _ _ _ _ _ (wrun_all _ _ _ _ _ _ _ _ _ _ WR))) as OK. apply step_zero5 in S; [|exact OK].
  rewrite zeros5_snoc. cbn [fst snd app]. unfold heard5 in *. rewrite flat_map_app. split.
  - destruct S as [Z|[(t & m & w & -> & Z & W)|(t & len & x & g & -> & B)]].
    + rewrite Z, app_nil_r. now apply told_more.
    + rewrite Z. cbn [flat_map fst from5 map app]. now apply told_next.
    + cbn [flat_map fst from5 map app]. rewrite app_nil_r. now apply told_none.
  - intros e0 out0 I N. apply in_app_iff in I. destruct I as [I|[I|[]]]; [eauto|]. injection I as -> ->.
    destruct S as [Z|[(t & m & w & -> & _)|X]]; [contradiction|left; eauto|right; exact X].
Qed.
Lemma run_zero3 hash cfg s l : srun3 hash cfg s l -> Forall clocked3 l -> told shown3 (heard3 l) (zeros3 [] l) /\ forall e out, In (e, out) l -> zero3 out <> [] -> occasion3 e.
Proof.
  induction 1 as [s H|s l e s' out H IH S]; intros C; [split; [repeat constructor|intros e out []]|].
  apply Forall_app in C. destruct C as (C & _). destruct (IH C) as (T & O).
  destruct (run_linked3 _ _ _ _ H C) as (ops & log & F & RN & _). pose proof (run3_wrun _ _ _ _ _ _ F RN) as WR.
  pose proof (proj1 (a_ord _ _ _ _ _ _ _ (wrun_all _ _ _ _ _ _ _ _ _ _ WR))) as OK. apply step_zero3 in S; [|exact OK].
  rewrite zeros3_snoc. cbn [fst snd app]. unfold heard3 in *. rewrite flat_map_app. split.
  - destruct S as [Z|[(t & m & w & -> & Z & W)|(t & len & x & g & -> & B)]].
    + rewrite Z, app_nil_r. now apply told_more.
    + rewrite Z. cbn [flat_map fst from3 map app]. now apply told_next.
    + cbn [flat_map fst from3 map app]. rewrite app_nil_r. now apply told_none.
  - intros e0 out0 I N. apply in_app_iff in I. destruct I as [I|[I|[]]]; [eauto|]. injection I as -> ->.
    destruct S as [Z|[(t & m & w & -> & _)|X]]; [contradiction|left; eauto|right; exact X].
Qed.

Section Broker.
  Variables (hash5 : wpub5 -> N) (hash3 : wpub3 -> N) (pick : draw -> broker -> string -> string -> N).
  Variables (c : config) (h : list past) (b : broker) (k : N).
  Hypotheses (R : brun hash5 hash3 pick c h b) (P : forall p, In p h -> proper p) (T : forall p, In p h -> after_1970 p).
  Lemma zero_order5 s : sess_at b k = Some (A5 s) -> exists l, LifeSpec.life5 k h l /\
    (forall w n, In (w, Some n) (zeros5 [] l) -> published5 (s_id s) h w n) /\ StronglySorted lt (numbers (zeros5 [] l)) /\
    (forall e out, In (e, out) l -> zero5 out <> [] -> (exists t m, e = VMsg t m) \/ exists t len x g, e = VPkt t len x g /\ by_subscribe5 x).
  Proof.
    intros A. destruct (arrived5 hash5 hash3 pick c h b k s R P A) as (l & L & S & HP). assert (C : Forall clocked5 l) by (eapply life5_clocked; eauto).
    destruct (run_zero5 _ _ _ _ S C) as ((X & Y & _) & O). exists l. split; [exact L|]. split; [|split; [exact Y|exact O]].
    intros w n I. destruct (proj1 (Forall_forall _ _) X _ I n eq_refl) as (y & Ny & Sh). destruct (nth_passed _ _ _ _ _ _ HP Ny) as (j & from & J). exists j, from, y. split; [exact J|exact Sh].
  Qed.
  Lemma zero_order3 s : sess_at b k = Some (A3 s) -> exists l, LifeSpec.life3 k h l /\
    (forall w n, In (w, Some n) (zeros3 [] l) -> published3 (z_id s) h w n) /\ StronglySorted lt (numbers (zeros3 [] l)) /\
    (forall e out, In (e, out) l -> zero3 out <> [] -> (exists t m, e = UMsg t m) \/ exists t len x g, e = UPkt t len x g /\ by_subscribe3 x).
  Proof.
    intros A. destruct (arrived3 hash5 hash3 pick c h b k s R P A) as (l & L & S & HP). assert (C : Forall clocked3 l) by (eapply life3_clocked; eauto).
    destruct (run_zero3 _ _ _ _ S C) as ((X & Y & _) & O). exists l. split; [exact L|]. split; [|split; [exact Y|exact O]].
    intros w n I. destruct (proj1 (Forall_forall _ _) X _ I n eq_refl) as (y & Ny & Sh). destruct (nth_passed _ _ _ _ _ _ HP Ny) as (j & from & J). exists j, from, y. split; [exact J|exact Sh].
  Qed.
End Broker.
