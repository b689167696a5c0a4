(** Proofs for C64. *)
From Coq Require Import List Bool String NArith Lia.
From Verif Require Import Base BaseLemmas TopicModel TopicSpec MsgModel RouteModel RouteSpec RouteInv RetainModel
  PendingModel AliasModel OutModel OutSpec GlobModel Sess5Model Sess3Model ConnModel DelivSpec
  DelivFacts InSpec InProofs InFacts RecvSpec RecvProofs SubFacts DelivLast GroupSpec.
Import ListNotations.
Local Open Scope N_scope.

Lemma nodup_map_inj {A B} (f : A -> B) l x y : NoDup (map f l) -> In x l -> In y l -> f x = f y -> x = y.
Proof.
  induction l as [|a l IH]; cbn; intros ND X Y E; [destruct X|]. inversion ND as [|? ? N ND']; subst.
  destruct X as [->|X], Y as [->|Y]; auto; exfalso; apply N; [rewrite E|rewrite <- E]; now apply in_map.
Qed.

Lemma offers_unique h T inner g sh sh' : valid_topic_name T -> offers_group (rt_run h) T inner g sh -> offers_group (rt_run h) T inner g sh' -> sh = sh'.
Proof.
  intros V (ct & I & F & G) (ct' & I' & F' & G'). destruct (route_plain_lemma h T V) as (_ & ND & _).
  assert (ct = ct') by (eapply (nodup_map_inj c_filter); eauto; congruence). subst ct'.
  pose proof (group_nodup _ _ _ I) as N. assert (E : (g, sh) = (g, sh')) by (eapply (nodup_map_inj fst); eauto). congruence.
Qed.
Lemma pick_unique pick h T f c c' q q' : valid_topic_name T -> shared_pick pick (rt_run h) T c f q -> shared_pick pick (rt_run h) T c' f q' -> c = c'.
Proof.
  intros V (g & inner & sh & E & O & P) (g' & inner' & sh' & E' & O' & P').
  pose proof (offered_name _ _ _ _ _ V O) as N. pose proof (offered_name _ _ _ _ _ V O') as N'. rewrite <- E in N. rewrite <- E', N in N'. injection N' as <- <-.
  rewrite (offers_unique _ _ _ _ _ _ V O O') in P. congruence.
Qed.

Section V5.
  Variable hash : wpub5 -> N.
  Variable pick : string -> string -> N.
  Variable cfg : config.

  Lemma got_pick h l w s s' g out f c : published5 hash pick cfg h l w s s' g out -> ~ plain f -> got (s_bcast s) (s_bcast s') f c ->
    exists T q, topic_for (cf_alias_max cfg) l w = Some T /\ valid_topic_name T /\ shared_pick pick (rt_run h) T c f q.
  Proof.
    intros HP NP (xs & y & HH & HY & HF).
    destruct (published_cases hash pick cfg h l w s s' g out c xs HP HH) as [->|(T & n & fs & sq & HT & EL & -> & ND & HI & A1 & A2 & VT & HS)]; [destruct HY|].
    destruct HY as [<-|[]]. cbn in HF. apply HI in HF. destruct HF as (q & [((P & _) & _)|P]); [contradiction|]. eauto 6.
  Qed.
  Lemma group_one h l w s s' g out f c c' : published5 hash pick cfg h l w s s' g out -> ~ plain f ->
    got (s_bcast s) (s_bcast s') f c -> got (s_bcast s) (s_bcast s') f c' -> c = c'.
  Proof.
    intros HP NP A B. destruct (got_pick _ _ _ _ _ _ _ _ _ HP NP A) as (T & q & HT & V & P). destruct (got_pick _ _ _ _ _ _ _ _ _ HP NP B) as (T' & q' & HT' & _ & P').
    rewrite HT in HT'. injection HT' as <-. eapply pick_unique; eauto.
  Qed.
  Lemma group_member h l w s s' g out f c : published5 hash pick cfg h l w s s' g out -> ~ plain f -> got (s_bcast s) (s_bcast s') f c -> member h f c.
  Proof.
    intros HP NP A. destruct (got_pick _ _ _ _ _ _ _ _ _ HP NP A) as (T & q & HT & V & (gr & inner & sh & -> & O & P)).
    destruct (shared_pick_lemma h T inner gr sh (pick gr inner) V O) as (_ & _ & _ & c0 & q0 & q1 & E & _ & C). rewrite P in E. injection E as <- <-. now exists q1.
  Qed.
  Lemma published_valid h l w s s' g out T : published5 hash pick cfg h l w s s' g out -> is_disconnected5 s' = false ->
    topic_for (cf_alias_max cfg) l w = Some T -> valid_topic_name T.
  Proof.
    intros (now & len & g' & HR & Hd & Hin & E) D HT.
    destruct (incoming_result hash pick cfg s l now len w g h HR Hd Hin) as (s1 & g1 & o1 & E1 & PR & _ & TO & _).
    rewrite E in E1. injection E1 as <- <- <-. rewrite <- TO in HT. destruct Hin as (_ & _ & GC & _).
    assert (AC : (exists T, acceptable w s g T) -> valid_topic_name T).
    { intros (T' & _ & _ & HT' & (V & _) & _). rewrite GC, HT in HT'. injection HT' as <-. exact V. }
    destruct PR as [code _ (_ & SD & _) _|T' p hh A _ _ _ _ R _ _|T' p A _ _ _ _ R _ _|T' n A EL _ _ _ _ _ _ _]; [|apply AC; eauto..].
    unfold is_disconnected5 in D. rewrite SD, orb_true_r in D. discriminate.
  Qed.

  Lemma group_exactly h l w s s' g out T gr inner : published5 hash pick cfg h l w s s' g out -> is_disconnected5 s' = false ->
    (forall p, w5_qp w = Q2 p -> opener l p = None /\ w5_dup w = false) ->
    topic_for (cf_alias_max cfg) l w = Some T -> shared_info (share_filter gr inner) = Some (gr, inner) -> topic_matches inner T -> ~ last_member_leaves h ->
    (exists c, member h (share_filter gr inner) c) -> (forall c, member h (share_filter gr inner) c -> reachable g (s_bcast s) c) ->
    exists c y, member h (share_filter gr inner) c /\ handed (s_bcast s) (s_bcast s') c [y] /\ In (share_filter gr inner) (nm_filters y) /\
      nm_topic y = T /\ nm_payload y = w5_payload w.
  Proof.
    intros HP HD HQ HT SI TM LM (c0 & q0 & C0) RE. pose proof (published_valid _ _ _ _ _ _ _ _ HP HD HT) as V.
    destruct (proj2 (shared_exact_lemma h T gr inner c0 q0 LM V SI TM) C0) as (sh & O & _).
    destruct (shared_pick_lemma h T inner gr sh (pick gr inner) V O) as (_ & _ & _ & c & q & q1 & E & _ & C).
    assert (TH : through pick h s T c (share_filter gr inner) q) by (right; exists gr, inner, sh; auto).
    assert (M : member h (share_filter gr inner) c) by (now exists q1).
    destruct (c22_one hash pick cfg h l w s s' g out T c _ q HP HD HQ HT TH (RE c M)) as (y & H & T1 & P1 & _ & F). exists c, y. auto.
  Qed.
End V5.
