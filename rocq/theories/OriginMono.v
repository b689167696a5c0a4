(** Lemmas for C68: what was published and subscribed stays so; one step seen by one session. *)
From Coq Require Import List Bool String NArith Lia.
From Verif Require Import Base BaseLemmas TopicModel TopicSpec TopicProofs MsgModel PendingModel PendingProofs AliasModel AliasSpec AliasProofs OutModel OutSpec OutFacts
  RouteModel RouteSpec RouteInv RetainModel RetainSpec RetainProofs GlobModel Sess5Model Sess3Model ConnModel InSpec DelivSpec DelivProofs OfferProofs RegModel BrokerModel BrokerSpec LifeSpec BrokerInv
  OriginRoute OriginSpec OriginSess OriginOut OriginPkt OriginPkt3.
Import ListNotations.
Local Open Scope N_scope.
Local Open Scope list_scope.

Section Mono.
  Variables (O O' : string -> string -> string * option N -> qos -> Prop) (cap : N) (A A' : string -> Prop).
  Hypothesis HO : forall t p o q, O t p o q -> O' t p o q.
  Hypothesis HA : forall f, A f -> A' f.

  Lemma rc_mono x : rc_ok O x -> rc_ok O' x.
  Proof. intros (H1 & H2). split; auto. Qed.
  Lemma nm_mono m : nm_ok O cap m -> nm_ok O' cap m.
  Proof. destruct m; intros (H1 & H2); split; auto. Qed.
  Lemma bcast_mono b : bcast_ok O cap b -> bcast_ok O' cap b.
  Proof. intros H d m I. apply nm_mono. eapply H; eauto. Qed.
  Lemma glob_mono g : glob_ok O cap g -> glob_ok O' cap g.
  Proof. intros (ops & hr & H1 & H2 & H3 & H4). exists ops, hr. split; auto. split; auto. split; auto. intros x X. apply rc_mono. auto. Qed.
  Lemma D_mono t p o q : D O cap A t p o q -> D O' cap A' t p o q.
  Proof. intros ((q0 & H1 & H2) & H3 & f & H4 & H5). split; [exists q0; auto|]. split; auto. exists f. auto. Qed.
  Lemma entry5_mono s : entry5 O cap A s -> entry5 O' cap A' s.
  Proof. destruct s; cbn; auto. intros (H & H2). split; auto. apply D_mono; auto. Qed.
  Lemma entry3_mono s : entry3 O cap A s -> entry3 O' cap A' s.
  Proof. destruct s; cbn; auto. intros (o & H). exists o. apply D_mono; auto. Qed.
  Lemma out_mono o kn : out_ok O cap A o kn -> out_ok O' cap A' o kn.
  Proof. intros (H1 & H2). split; auto. eapply Forall_impl; [|exact H1]. apply entry5_mono. Qed.
  Lemma fine3_mono x : fine3 O cap A x -> fine3 O' cap A' x.
  Proof. destruct x; cbn; auto. intros (o & H). exists o. apply D_mono; auto. Qed.
  Lemma subs_mono s : subs_ok A s -> subs_ok A' s.
  Proof. intros H f I. auto. Qed.
  Lemma subs3_mono s : subs_ok3 A s -> subs_ok3 A' s.
  Proof. intros H f I. auto. Qed.
End Mono.

(** A history that grew. *)
Definition Oh (c : config) (h : list past) : string -> string -> string * option N -> qos -> Prop := fun t p o q => origin c h (Msg t p (fst o) (snd o) q).
Definition Ah (i : string) (h : list past) : string -> Prop := fun f => subscribed i f h.

Lemma origin_cons c x h m : origin c h m -> origin c (x :: h) m.
Proof.
  intros H. destruct H as [h1 p h0 k len w t E W L T R S D|p k len w I W L T S D|k w I1 I2|k w I1 I2].
  - eapply (by_publish5 c (x :: h) (x :: h1) p h0); eauto. now rewrite E.
  - eapply by_publish3; eauto. now right.
  - eapply by_will5; unfold asked_will, wills_in in *; cbn [flat_map]; apply in_or_app; right; eauto.
  - eapply by_will3; unfold asked_will, wills_in in *; cbn [flat_map]; apply in_or_app; right; eauto.
Qed.
Lemma subscribed_cons i f x h : subscribed i f h -> subscribed i f (x :: h).
Proof. intros (p & k & a & I & H). exists p, k, a. split; [now right|auto]. Qed.
Lemma Oh_cons c x h t p o q : Oh c h t p o q -> Oh c (x :: h) t p o q.
Proof. apply origin_cons. Qed.
Lemma Ah_cons i x h f : Ah i h f -> Ah i (x :: h) f.
Proof. apply subscribed_cons. Qed.
Lemma limit_cons k x h amax : alias_limit k h amax -> alias_limit k (x :: h) amax.
Proof. intros (q & t0 & u & pc & d & (M1 & M2) & E). exists q, t0, u, pc, d. split; [split; [now right|auto]|auto]. Qed.

(** The session of a connection whose client has the identifier in it. *)
Definition sess_fine (c : config) (h : list past) (a : sess) : Prop :=
  match a with
  | A5 s => (exists kn, out_ok (Oh c h) (cf_max_qos c) (Ah (s_ident s) h) (s_out s) kn) /\ subs_ok (Ah (s_ident s) h) s /\ bcast_ok (Oh c h) (cf_max_qos c) (s_bcast s)
  | A3 s => Forall (entry3 (Oh c h) (cf_max_qos c) (Ah (z_ident s) h)) (pq (o3_q (z_out s))) /\ subs_ok3 (Ah (z_ident s) h) s /\ bcast_ok (Oh c h) (cf_max_qos c) (z_bcast s)
  end.
(** Before the connection's end the client's knowledge of aliases is what it was told. *)
Definition live (c : config) (h : list past) (k : N) (a : sess) : Prop :=
  match a with
  | A5 s => alias_limit k h (o5_amax (s_out s)) /\ out_ok (Oh c h) (cf_max_qos c) (Ah (s_ident s) h) (s_out s) (learned (o5_amax (s_out s)) k h) /\
            (is_disconnected5 s = false -> s_alias s = bound_in (cf_alias_max c) k h)
  | A3 _ => True
  end.
(** What is written to the connection at the step after [h]; [h'] includes the step. *)
Definition said (c : config) (h h' : list past) (k : N) (a : sess) (out : list bout) : Prop :=
  match a with
  | A5 s => fine5 (Oh c h') (cf_max_qos c) (Ah (s_ident s) h') (o5_amax (s_out s)) (learned (o5_amax (s_out s)) k h) (pkts5 k out)
  | A3 s => Forall (fine3 (Oh c h') (cf_max_qos c) (Ah (z_ident s) h')) (pkts3 k out)
  end.
Definition chans_fine (c : config) (h : list past) (b : broker) : Prop :=
  forall d ch x, aget d (b_chans b) = Some ch -> In x (ch_norm ch) -> nm_ok (Oh c h) (cf_max_qos c) (snd x).
Definition base (c : config) (h : list past) (b : broker) : Prop :=
  glob_ok (Oh c h) (cf_max_qos c) (glob_of b) /\ chans_fine c h b /\ (forall k a, sess_at b k = Some a -> sess_fine c h a).
Definition silent (k : N) (h : list past) : Prop := (forall amax, learned amax k h = []) /\ (forall amax, bound_in amax k h = []).

Lemma sess_cons c x h a : sess_fine c h a -> sess_fine c (x :: h) a.
Proof.
  pose proof (Oh_cons c x h) as HO. destruct a as [s|s]; cbn.
  all: intros (H1 & H2 & H3); split; [|split].
  - destruct H1 as (kn & H1). exists kn. eapply out_mono; [exact HO|intros f; apply Ah_cons|exact H1].
  - intros f I. apply Ah_cons. auto.
  - eapply bcast_mono; eauto.
  - eapply Forall_impl; [|exact H1]. intros y. apply entry3_mono; auto. intros f. apply Ah_cons.
  - intros f I. apply Ah_cons. auto.
  - eapply bcast_mono; eauto.
Qed.
Lemma chans_cons c x h b : chans_fine c h b -> chans_fine c (x :: h) b.
Proof. intros H d ch y A I. eapply nm_mono; [apply Oh_cons|]. eapply H; eauto. Qed.
Lemma base_cons c x h b : base c h b -> base c (x :: h) b.
Proof.
  intros (H1 & H2 & H3). split; [eapply glob_mono; [apply Oh_cons|auto]|]. split; [apply chans_cons; auto|].
  intros k a S. apply sess_cons. eauto.
Qed.

(** The client's aliases name valid topics. *)
Lemma bound_valid amax k h : (forall p, In p h -> proper p) -> forall a t, aget a (bound_in amax k h) = Some t -> valid_topic_name t /\ t <> EmptyString.
Proof.
  induction h as [|p h IH]; intros P a t; [discriminate|]. cbn [bound_in].
  assert (IH' : forall a t, aget a (bound_in amax k h) = Some t -> valid_topic_name t /\ t <> EmptyString) by (apply IH; intros; apply P; now right).
  pose proof (P p (or_introl eq_refl)) as PP. unfold proper in PP. destruct (w_e p) as [| | | | | |j len x|j len x| | | | | | | | |]; try apply IH'. destruct x as [w| | | | | | | | |]; try apply IH'.
  destruct (j =? k); [|apply IH']. unfold client_read. destruct (pp_alias (w5_props w)) as [b|]; [|apply IH']. destruct (_ || _); [apply IH'|].
  destruct (String.eqb_spec (w5_topic w) ""); [apply IH'|]. cbn [snd]. rewrite aget_N. destruct (a =? b); [|apply IH']. intros X. injection X as <-.
  split; [|auto]. apply PP.
Qed.
