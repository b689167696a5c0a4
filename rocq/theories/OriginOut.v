(** Lemmas for C68: what one session writes. *)
From Coq Require Import List Bool String NArith Lia.
From Verif Require Import Base BaseLemmas TopicModel TopicSpec TopicProofs MsgModel PendingModel PendingProofs AliasModel AliasSpec AliasProofs OutModel OutSpec OutFacts
  RouteModel RouteSpec RouteInv RetainModel RetainSpec RetainProofs GlobModel Sess5Model Sess3Model InSpec DelivSpec DelivProofs OfferProofs OriginRoute OriginSpec OriginSess.
Import ListNotations.
Local Open Scope N_scope.
Local Open Scope list_scope.

Lemma qmin_l a b : qos_num (qos_min a b) <= qos_num a.
Proof. destruct a, b; vm_compute; discriminate. Qed.
Lemma learn_fold amax a b kn : fold_left (learn amax) (a ++ b) kn = fold_left (learn amax) b (fold_left (learn amax) a kn).
Proof. apply fold_left_app. Qed.

Lemma alias_expiry amax topic props al al' topic' props' : apply_alias amax topic props al = (al', topic', props') -> pp_expiry props' = pp_expiry props.
Proof.
  unfold apply_alias. destruct (0 <? amax); [|intros [= _ _ <-]; reflexivity].
  destruct (AliasModel.get_or_assign_alias _ _ _) as (al2 & (a & n)). destruct (0 <? a); intros [= _ _ <-]; reflexivity.
Qed.
Lemma within_refl v : within v v.
Proof. destruct v; cbn; [lia|exact Logic.I]. Qed.
Lemma within_less v x : within (match v with Some v => Some (v - x) | None => None end) v.
Proof. destruct v; cbn; [lia|exact Logic.I]. Qed.

Section Client.
  Variable O : string -> string -> string * option N -> qos -> Prop.
  Variable cap : N.
  (** The filters the client subscribed to. *)
  Variable A : string -> Prop.
  Notation rc_ok := (rc_ok O). Notation nm_ok := (nm_ok O cap). Notation bcast_ok := (bcast_ok O cap). Notation glob_ok := (glob_ok O cap).

  Definition D (t pl : string) (o : string * option N) (q : qos) : Prop :=
    (exists q0, O t pl o q0 /\ qos_num q <= qos_num q0) /\ qos_num q <= cap /\ exists f, A f /\ selects f t.
  Definition entry5 (s : pstatus pub5) : Prop :=
    match s with
    | PNew _ _ _ x _ => D (p5_topic x) (p5_payload x) (kept (p5_props x)) (p5_qos x) /\ p5_topic x <> EmptyString /\ pp_alias (p5_props x) = None
    | _ => True
    end.
  Definition entry3 (s : pstatus pub3) : Prop :=
    match s with PNew _ _ _ x _ => exists o, D (p3_topic x) (p3_payload x) o (p3_qos x) | _ => True end.

  Definition fine1 (amax : N) (kn : list (N * string)) (x : pkt5) : Prop :=
    match x with
    | KPub w => exists t v, fst (client_read amax kn w) = Some t /\ D t (w5_payload w) (pp_other (w5_props w), v) (qp_qos (w5_qp w)) /\ within (pp_expiry (w5_props w)) v
    | _ => True
    end.
  Fixpoint fine5 (amax : N) (kn : list (N * string)) (l : list pkt5) : Prop :=
    match l with [] => True | x :: r => fine1 amax kn x /\ fine5 amax (learn amax kn x) r end.
  Lemma fine_app amax a b : forall kn, fine5 amax kn (a ++ b) <-> fine5 amax kn a /\ fine5 amax (fold_left (learn amax) a kn) b.
  Proof. induction a as [|x a IH]; intros kn; cbn [app fine5 fold_left]; [tauto|]. rewrite IH. tauto. Qed.

  Definition out_ok (o : out5) (kn : list (N * string)) : Prop := Forall entry5 (pq (o5_q o)) /\ client_ok (o5_amax o) kn (o5_al o).
  Definition otr (o : out5) (out : list pkt5) (o' : out5) : Prop :=
    forall kn, out_ok o kn -> o5_amax o' = o5_amax o /\ fine5 (o5_amax o) kn out /\ out_ok o' (fold_left (learn (o5_amax o)) out kn).

  Lemma otr_refl o : otr o [] o.
  Proof. intros kn H. split; [reflexivity|]. split; [exact Logic.I|exact H]. Qed.
  Lemma otr_trans o1 l1 o2 l2 o3 : otr o1 l1 o2 -> otr o2 l2 o3 -> otr o1 (l1 ++ l2) o3.
  Proof.
    intros H1 H2 kn K. destruct (H1 kn K) as (A1 & A2 & A3). destruct (H2 _ A3) as (B1 & B2 & B3). rewrite A1 in *.
    split; [exact B1|]. rewrite fine_app, learn_fold. auto.
  Qed.
  Definition no_pub (x : pkt5) : Prop := match x with KPub _ => False | _ => True end.
  Lemma otr_other o l : Forall no_pub l -> otr o l o.
  Proof.
    intros F kn K. split; [reflexivity|].
    assert (X : fine5 (o5_amax o) kn l /\ fold_left (learn (o5_amax o)) l kn = kn).
    { clear K. induction F as [|x l N F IH]; [split; [exact Logic.I|reflexivity]|]. cbn [fine5 fold_left].
      replace (learn (o5_amax o) kn x) with kn by (destruct x; [destruct N|..]; reflexivity).
      destruct IH as (I1 & I2). split; [split; [|exact I1]|exact I2]. destruct x; [destruct N|..]; exact Logic.I. }
    destruct X as (X1 & X2). rewrite X2. auto.
  Qed.
  Lemma otr_queue f o : (forall q, Forall entry5 (pq q) -> Forall entry5 (pq (fst (f q)))) -> otr o [] (fst (out5_on_queue f o)).
  Proof.
    intros H kn (E & C). unfold out5_on_queue. specialize (H _ E). destruct (f (o5_q o)) as [q b]. cbn. split; [reflexivity|]. split; [exact Logic.I|]. split; [exact H|exact C].
  Qed.
  Lemma e5D : entry5 PDone. Proof. exact Logic.I. Qed.
  Lemma e5R t p : entry5 (PRec t p). Proof. exact Logic.I. Qed.
  Lemma e5N a l l' p x d d' : entry5 (PNew a l p x d) -> entry5 (PNew a l' p x d'). Proof. intros H; exact H. Qed.
  Lemma e3D : entry3 PDone. Proof. exact Logic.I. Qed.
  Lemma e3R t p : entry3 (PRec t p). Proof. exact Logic.I. Qed.
  Lemma e3N a l l' p x d d' : entry3 (PNew a l p x d) -> entry3 (PNew a l' p x d'). Proof. intros H; exact H. Qed.

  Lemma otr_push now x o : D (p5_topic x) (p5_payload x) (kept (p5_props x)) (p5_qos x) -> p5_topic x <> EmptyString -> pp_alias (p5_props x) = None ->
    otr o [] (fst (out5_push now x o)).
  Proof.
    intros X1 X2 X3 kn (E & C). unfold out5_push. pose proof (all_push entry5 now (o5_next o) x (o5_q o) E (conj X1 (conj X2 X3))) as H.
    destruct (push_back now _ x _) as [q b]. cbn in *. split; [reflexivity|]. split; [exact Logic.I|]. split; [exact H|exact C].
  Qed.
  Lemma otr_zero t retain pl props o o' w : D t pl (kept props) L0 -> t <> EmptyString -> pp_alias props = None ->
    out5_qos0 t retain pl props o = (o', w) -> otr o [KPub w] o'.
  Proof.
    intros X1 X2 X3 E kn (F & C). unfold out5_qos0 in E. destruct (apply_alias _ _ _ _) as [[al t'] props'] eqn:AP. injection E as <- <-.
    destruct (apply_alias_read _ _ _ _ _ _ _ kn false Q0 retain pl C X2 X3 AP) as (P1 & P2 & kn' & R & C').
    cbn [o5_amax fold_left learn fine5 fine1]. rewrite R. cbn [fst snd]. split; [reflexivity|]. split; [|split; [exact F|exact C']].
    split; [|exact Logic.I]. exists t, (pp_expiry props). cbn [w5_payload w5_props w5_qp qp_qos]. rewrite P2, (alias_expiry _ _ _ _ _ _ _ AP). split; [reflexivity|]. split; [exact X1|apply within_refl].
  Qed.

  Lemma body_otr now amax s al s' al' o e : entry5 s -> pendings_body5 now amax s al = (s', al', o, e) ->
    entry5 s' /\ forall kn, client_ok amax kn al -> fine5 amax kn (map of_sent5 o) /\ client_ok amax (fold_left (learn amax) (map of_sent5 o) kn) al'.
  Proof.
    intros E. destruct s as [added last p x dup|last p|]; cbn [pendings_body5].
    - destruct E as (X1 & X2 & X3). destruct (match pp_expiry (p5_props x) with Some v => _ | None => false end).
      { intros [= <- <- <- <-]. split; [repeat split; auto; apply X1|]. intros kn K. cbn. auto. }
      set (props := set_expiry _ (p5_props x)). assert (PA : pp_alias props = None) by exact X3.
      destruct dup.
      + intros [= <- <- <- <-]. split; [exact (conj X1 (conj X2 X3))|]. intros kn K. cbn [map of_sent5 fine5 fine1 fold_left learn].
        unfold client_read. cbn [w5_props w5_topic]. rewrite PA. destruct (String.eqb_spec (p5_topic x) ""); [contradiction|]. cbn [fst snd].
        split; [split; [|exact Logic.I]|exact K]. exists (p5_topic x), (pp_expiry (p5_props x)). split; [reflexivity|]. cbn [w5_payload w5_props w5_qp]. rewrite qp_make_qos. split; [exact X1|apply within_less].
      + destruct (apply_alias amax (p5_topic x) props al) as [[al2 topic2] props2] eqn:AP. intros [= <- <- <- <-].
        split; [exact (conj X1 (conj X2 X3))|]. intros kn K.
        destruct (apply_alias_read _ _ _ _ _ _ _ kn false (qp_make (p5_qos x) p) (p5_retain x) (p5_payload x) K X2 PA AP) as (P1 & P2 & kn' & R & C').
        cbn [map of_sent5 fine5 fine1 fold_left learn]. rewrite R. cbn [fst snd]. split; [split; [|exact Logic.I]|exact C'].
        exists (p5_topic x), (pp_expiry (p5_props x)). split; [reflexivity|]. cbn [w5_payload w5_props w5_qp]. rewrite qp_make_qos, P2, (alias_expiry _ _ _ _ _ _ _ AP). split; [exact X1|apply within_less].
    - intros [= <- <- <- <-]. split; [exact Logic.I|]. intros kn K. cbn. auto.
    - intros [= <- <- <- <-]. split; [exact Logic.I|]. intros kn K. cbn. auto.
  Qed.
  Lemma pass_otr now amax timeout : forall n l al l' al' o e, Forall entry5 l -> pass (pendings_body5 now amax) now timeout n l al = (l', al', o, e) ->
    Forall entry5 l' /\ forall kn, client_ok amax kn al -> fine5 amax kn (map of_sent5 o) /\ client_ok amax (fold_left (learn amax) (map of_sent5 o) kn) al'.
  Proof.
    induction n as [|n IH]; intros l al l' al' o e HG.
    { destruct l; intros [= <- <- <- <-]; (split; [exact HG|]; intros kn K; cbn; auto). }
    destruct l as [|s r]; cbn [pass].
    { intros [= <- <- <- <-]; (split; [exact HG|]; intros kn K; cbn; auto). }
    inversion HG; subst. destruct (due now timeout s).
    - destruct (pendings_body5 now amax s al) as [[[s1 al1] o1] e1] eqn:Eb.
      destruct (pass _ now timeout n r al1) as [[[r2 al2] o2] e2] eqn:Ep. intros [= <- <- <- <-].
      destruct (body_otr _ _ _ _ _ _ _ _ H1 Eb) as (G1 & B1). destruct (IH _ _ _ _ _ _ H2 Ep) as (G2 & B2).
      split; [now constructor|]. intros kn K. destruct (B1 kn K) as (F1 & C1). destruct (B2 _ C1) as (F2 & C2).
      rewrite map_app, fine_app, learn_fold. auto.
    - destruct (pass _ now timeout n r al) as [[[r2 al2] o2] e2] eqn:Ep. intros [= <- <- <- <-].
      destruct (IH _ _ _ _ _ _ H2 Ep) as (G2 & H). split; [now constructor|exact H].
  Qed.
  Lemma otr_pendings now o : otr o (map of_sent5 (snd (handle_pendings5 now o))) (fst (handle_pendings5 now o)).
  Proof.
    intros kn (E & C). unfold handle_pendings5. rewrite (pend_loop_pass _ now (pq_timeout (clean_complete (o5_q o))) _ _ eq_refl).
    destruct (pass _ now _ _ _ (o5_al o)) as [[[l' al'] outs] exps] eqn:Ep. cbn [fst snd o5_amax].
    destruct (pass_otr _ _ _ _ _ _ _ _ _ _ (all_drop entry5 _ E) Ep) as (G & B). destruct (B kn C) as (F & C').
    split; [reflexivity|]. split; [exact F|]. split; [|exact C']. cbn [o5_q].
    assert (K : Forall entry5 (pq (fold_left (fun q p => fst (pend_complete p L1 q)) exps (pq_set (clean_complete (o5_q o)) l'))))
      by (apply (all_completes entry5 e5D); exact G).
    destruct (is_nil exps); [exact K|]. cbn. now apply all_drop.
  Qed.

  (** ** On the session *)
  Definition subs_ok (s : sess5) : Prop := forall f, In f (keys (s_subs s)) -> A f.
  (** The session after a step that sends [out] and leaves its queue for others alone. *)
  Record step5ok (s : sess5) (out : list pkt5) (s' : sess5) : Prop := {
    k_out : otr (s_out s) out (s_out s');
    k_subs : subs_ok s -> subs_ok s';
    k_bcast : bcast_ok (s_bcast s) -> bcast_ok (s_bcast s');
    k_alias : is_disconnected5 s' = false -> s_alias s' = s_alias s /\ is_disconnected5 s = false
  }.
  Lemma k_refl s out : Forall no_pub out -> step5ok s out s.
  Proof. intros F. constructor; auto. now apply otr_other. Qed.
  Lemma k_with_out s out o : otr (s_out s) out o -> step5ok s out (with_out o s).
  Proof. intros H. constructor; auto. Qed.
  Lemma k_trans s1 l1 s2 l2 s3 : step5ok s1 l1 s2 -> step5ok s2 l2 s3 -> step5ok s1 (l1 ++ l2) s3.
  Proof.
    intros [A1 A2 A3 A4] [B1 B2 B3 B4]. constructor; auto; [eapply otr_trans; eauto|].
    intros X. destruct (B4 X) as (Y1 & Y2). destruct (A4 Y2). split; congruence.
  Qed.
  Lemma k_refuse code reason s s' k : error_disconnect code reason s = (s', k) -> step5ok s [k] s' /\ is_disconnected5 s' = true.
  Proof.
    intros E. injection E as <- <-. split.
    - constructor; auto; [apply otr_other; repeat constructor|]. unfold is_disconnected5. cbn. rewrite orb_true_r. discriminate.
    - unfold is_disconnected5. cbn. now rewrite orb_true_r.
  Qed.
  Lemma k_pendings now s : step5ok s (snd (pendings5 now s)) (fst (pendings5 now s)).
  Proof.
    unfold pendings5. pose proof (otr_pendings now (s_out s)) as H. destruct (handle_pendings5 now (s_out s)) as [o l]. cbn. now apply k_with_out.
  Qed.

  (** [m] may be delivered. *)
  Definition rp_ok (m : recvpub) : Prop :=
    O (rp_topic m) (rp_payload m) (pr_other (rp_props m)) (rp_qos m) /\ no_alias (rp_props m) /\ rp_topic m <> EmptyString /\ qos_num (rp_sqos m) <= cap.
  Lemma recv_ok now m s s' r f : rp_ok m -> A f -> selects f (rp_topic m) -> recv_publish5 now m s = (s', r) ->
    step5ok s (match r with Some (_, Some k) => [k] | _ => [] end) s' /\ s_subs s' = s_subs s.
  Proof.
    intros (R1 & R2 & R3 & R4) HA HS E. unfold recv_publish5 in E. cbv zeta in E.
    set (props0 := match rp_props m with Some p => p | None => pprops_default end) in E.
    assert (P1 : kept props0 = pr_other (rp_props m)) by (subst props0; destruct (rp_props m); reflexivity).
    assert (P2 : pp_alias props0 = None) by (subst props0; destruct (rp_props m); [exact R2|reflexivity]).
    assert (DD : forall q, q = qos_min (rp_qos m) (rp_sqos m) -> D (rp_topic m) (rp_payload m) (pr_other (rp_props m)) q).
    { intros q ->. split; [exists (rp_qos m); split; [exact R1|apply qmin_l]|]. split; [|eauto]. pose proof (min_le (rp_qos m) (rp_sqos m)). lia. }
    destruct (match rp_ids m with Lookup f => _ | Precomputed l => _ end) as [l|]; [|injection E as <- <-; split; [apply k_refl; constructor|reflexivity]].
    destruct (qos_eqb (qos_min (rp_qos m) (rp_sqos m)) L0) eqn:Q0; cbn [negb] in E.
    - destruct (negb (s_cdisc s) && negb (s_sdisc s)); [|injection E as <- <-; split; [apply k_refl; constructor|reflexivity]].
      destruct (_ <? _); [injection E as <- <-; split; [apply k_refl; constructor|reflexivity]|].
      destruct (out5_qos0 _ _ _ _ _) as [o w] eqn:Z. injection E as <- <-. split; [|reflexivity]. apply k_with_out. refine (otr_zero _ _ _ _ _ _ _ _ R3 _ Z); [|exact P2].
      change (kept (set_subids l props0)) with (kept props0). rewrite P1. apply DD. destruct (qos_min _ _); auto; discriminate Q0.
    - destruct (_ <? _); [injection E as <- <-; split; [apply k_refl; constructor|reflexivity]|].
      destruct (out5_push _ _ _) as [o b] eqn:Z. injection E as <- <-. split; [|reflexivity]. apply k_with_out. replace o with (fst (o, b)) by reflexivity. rewrite <- Z. apply otr_push; cbn; auto.
      change (kept (set_subids l props0)) with (kept props0). rewrite P1. now apply DD.
  Qed.

  Lemma filters_has subs : forall fs has rap ids, fst (fst (fold_left (fun acc f =>
      let '(has, rap, ids) := acc in
      match aget f subs with
      | None => acc
      | Some sub =>
          let rap' := rap || so_rap (sd_opts sub) in
          match sd_id sub with
          | Some i => (true, rap', if existsb (N.eqb i) ids then ids else (ids ++ [i])%list)
          | None => (true, rap', ids)
          end
      end) fs (has, rap, ids))) = true -> has = true \/ exists f d, In f fs /\ aget f subs = Some d.
  Proof.
    induction fs as [|f fs IH]; intros has rap ids; cbn [fold_left]; [auto|]. destruct (aget f subs) as [d|] eqn:G.
    - intros _. right. exists f, d. split; [left; reflexivity|exact G].
    - intros H. destruct (IH _ _ _ H) as [X|(f' & d & X & Y)]; [auto|]. right. exists f', d. split; [right; exact X|exact Y].
  Qed.
  Lemma info_has subs fs : fst (fst (filters_info subs fs)) = true -> exists f d, In f fs /\ aget f subs = Some d.
  Proof. intros H. destruct (filters_has subs fs false false [] H) as [X|X]; [discriminate|exact X]. Qed.
  Lemma normal_ok now c m s s' r : nm_ok m -> subs_ok s -> handle_normal5 now c m s = (s', r) ->
    step5ok s (match r with Some (_, Some k) => [k] | _ => [] end) s'.
  Proof.
    intros M S E. unfold handle_normal5 in E. destruct m as [m|m]; cbn [OriginSess.nm_ok] in M.
    - destruct M as (M1 & M2 & M3 & M4). destruct (aget (n3_filter m) (s_subs s)) as [d|] eqn:G.
      + eapply recv_ok; [..|exact E]; cbn; auto; [split; [exact M1|split; [exact Logic.I|split; [exact M2|exact M3]]]|apply S; apply in_keys_aget; eauto|exact M4].
      + injection E as <- <-. apply k_refl. constructor.
    - destruct M as (M1 & M2 & M3 & M4 & M5). destruct (filters_info _ _) as [[has rap] ids] eqn:F. destruct has; [|injection E as <- <-; apply k_refl; constructor].
      pose proof (info_has (s_subs s) (n5_filters m)) as H. rewrite F in H. destruct (H eq_refl) as (f & d & X & Y).
      rewrite Forall_forall in M5. eapply (recv_ok _ _ _ _ _ f); [..|exact E]; cbn; auto; [split; [exact M1|split; [exact M2|split; [exact M3|exact M4]]]|apply S; apply in_keys_aget; eauto].
  Qed.
End Client.
