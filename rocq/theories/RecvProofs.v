(** Receiving a message, SUBSCRIBE and UNSUBSCRIBE: the facts behind C20 - C25,
    C46, C49, C50. *)
From Coq Require Import List Bool String Ascii NArith Lia.
From Verif Require Import Base BaseLemmas TopicModel TopicSpec MsgModel RouteModel RouteSpec RouteInv RetainModel RetainSpec
  RetainProofs PendingModel AliasModel OutModel OutSpec GlobModel Sess5Model Sess3Model ConnModel DelivSpec DelivProofs DelivFacts InSpec
  InProofs InRun InRun3 InFacts RecvSpec.
Import ListNotations.
Local Open Scope N_scope.

(** ** recv_publish *)

Definition rp_sublist (m : recvpub) (s : sess5) : option (list N) :=
  match rp_ids m with
  | Precomputed l => Some l
  | Lookup f => match aget f (s_subs s) with Some sub => Some (opt_list (sd_id sub)) | None => None end
  end.
Definition rp_size (m : recvpub) : N :=
  if negb (qos_eqb (rp_qos m) L0) && qos_eqb (qos_min (rp_qos m) (rp_sqos m)) L0 then rp_len m - 2 else rp_len m.

Lemma recv5_spec now m s :
  exists s' res, recv_publish5 now m s = (s', res) /\
  ((s' = s /\ res = None /\
    (rp_sublist m s = None \/ s_maxpkt s < rp_size m \/
     (qos_min (rp_qos m) (rp_sqos m) = L0 /\ ~ up5 s))) \/
   (exists ids k, rp_sublist m s = Some ids /\ rp_size m <= s_maxpkt s /\
      (qos_min (rp_qos m) (rp_sqos m) = L0 -> up5 s) /\
      res = Some (qos_min (rp_qos m) (rp_sqos m), k) /\
      takes5 now (Pub5 (rp_topic m) (qos_min (rp_qos m) (rp_sqos m)) (rp_retain m) (rp_payload m)
                    (set_subids ids (match rp_props m with Some p => p | None => pprops_default end)))
        (s_out s) (s_out s') k /\
      s' = with_out (s_out s') s)).
Proof.
  unfold recv_publish5. fold (rp_sublist m s). destruct (rp_sublist m s) as [ids|] eqn:I.
  2:{ do 2 eexists. split; [reflexivity|]. left. auto. }
  unfold rp_size, up5, takes5. destruct (qos_min (rp_qos m) (rp_sqos m)) eqn:Q;
    change (qos_eqb L0 L0) with true; change (qos_eqb L1 L0) with false; change (qos_eqb L2 L0) with false;
    cbn [negb andb p5_qos].
  - destruct (s_cdisc s) eqn:D1; cbn [negb andb].
    { do 2 eexists. split; [reflexivity|]. left. split; auto. split; auto. right. right. split; auto. intros (X & _). congruence. }
    destruct (s_sdisc s) eqn:D2; cbn [negb andb].
    { do 2 eexists. split; [reflexivity|]. left. split; auto. split; auto. right. right. split; auto. intros (_ & X). congruence. }
    replace (if qos_eqb (rp_qos m) L0 then rp_len m else rp_len m - 2)
      with (if negb (qos_eqb (rp_qos m) L0) && true then rp_len m - 2 else rp_len m)
      by (destruct (qos_eqb (rp_qos m) L0); reflexivity).
    destruct (s_maxpkt s <? _) eqn:Z.
    { apply N.ltb_lt in Z. do 2 eexists. split; [reflexivity|]. left. auto. }
    apply N.ltb_ge in Z. destruct (out5_qos0 _ _ _ _ _) as (o, w) eqn:O.
    do 2 eexists. split; [reflexivity|]. right. exists ids. eexists.
    refine (conj eq_refl (conj Z (conj _ (conj eq_refl (conj _ eq_refl))))); [auto|].
    exists w. split; [|reflexivity]. cbn [p5_topic p5_retain p5_payload p5_props s_out with_out]. unfold step5. now rewrite O.
  - destruct (s_maxpkt s <? rp_len m) eqn:Z.
    { apply N.ltb_lt in Z. do 2 eexists. split; [reflexivity|]. left. split; auto. split; auto. right. left.
      now rewrite andb_false_r. }
    apply N.ltb_ge in Z. destruct (out5_push _ _ _) as (o, b) eqn:O.
    do 2 eexists. split; [reflexivity|]. right. exists ids. eexists. rewrite andb_false_r.
    refine (conj eq_refl (conj Z (conj _ (conj eq_refl (conj _ eq_refl))))); [discriminate|].
    cbn [s_out with_out]. split; [|reflexivity]. unfold step5. now rewrite O.
  - destruct (s_maxpkt s <? rp_len m) eqn:Z.
    { apply N.ltb_lt in Z. do 2 eexists. split; [reflexivity|]. left. split; auto. split; auto. right. left.
      now rewrite andb_false_r. }
    apply N.ltb_ge in Z. destruct (out5_push _ _ _) as (o, b) eqn:O.
    do 2 eexists. split; [reflexivity|]. right. exists ids. eexists. rewrite andb_false_r.
    refine (conj eq_refl (conj Z (conj _ (conj eq_refl (conj _ eq_refl))))); [discriminate|].
    cbn [s_out with_out]. split; [|reflexivity]. unfold step5. now rewrite O.
Qed.

Lemma recv3_spec now m s :
  exists s' res, recv_publish3 now m s = (s', res) /\
  ((s' = s /\ res = None /\
    (aget (rp3_filter m) (z_subs s) = None \/ (qos_min (rp3_qos m) (rp3_sqos m) = L0 /\ z_disc s = true))) \/
   (exists k, aget (rp3_filter m) (z_subs s) <> None /\
      (qos_min (rp3_qos m) (rp3_sqos m) = L0 -> z_disc s = false) /\
      res = Some (qos_min (rp3_qos m) (rp3_sqos m), k) /\
      takes3 now (Pub3 (rp3_topic m) (qos_min (rp3_qos m) (rp3_sqos m)) (rp3_retain m) (rp3_payload m))
        (z_out s) (z_out s') k /\
      s' = zwith_out (z_out s') s)).
Proof.
  unfold recv_publish3. destruct (aget _ _) as [q0|] eqn:I.
  2:{ do 2 eexists. split; [reflexivity|]. left. auto. }
  unfold takes3. destruct (qos_min (rp3_qos m) (rp3_sqos m)) eqn:Q;
    change (qos_eqb L0 L0) with true; change (qos_eqb L1 L0) with false; change (qos_eqb L2 L0) with false;
    cbn [negb p3_qos].
  - destruct (z_disc s) eqn:D; cbn [negb].
    { do 2 eexists. split; [reflexivity|]. left. auto. }
    do 2 eexists. split; [reflexivity|]. right. eexists.
    refine (conj _ (conj _ (conj eq_refl (conj (conj eq_refl eq_refl) _)))); try congruence. now destruct s.
  - destruct (out3_push _ _ _) as (o, b) eqn:O. do 2 eexists. split; [reflexivity|]. right. eexists.
    refine (conj _ (conj _ (conj eq_refl (conj (conj _ eq_refl) eq_refl)))); try congruence. cbn. now rewrite O.
  - destruct (out3_push _ _ _) as (o, b) eqn:O. do 2 eexists. split; [reflexivity|]. right. eexists.
    refine (conj _ (conj _ (conj eq_refl (conj (conj _ eq_refl) eq_refl)))); try congruence. cbn. now rewrite O.
Qed.

(** ** handle_normal *)

Lemma filters_info_spec subs fs : forall has rap ids,
  NoDup ids ->
  exists has' rap' ids',
    fold_left (fun acc f =>
      let '(has, rap, ids) := acc in
      match aget f subs with
      | None => acc
      | Some sub =>
          let rap' := rap || so_rap (sd_opts sub) in
          match sd_id sub with
          | Some i => (true, rap', if existsb (N.eqb i) ids then ids else (ids ++ [i])%list)
          | None => (true, rap', ids)
          end
      end) fs (has, rap, ids) = (has', rap', ids') /\
    (has' = true <-> has = true \/ exists f sub, In f fs /\ aget f subs = Some sub) /\
    (rap' = true <-> rap = true \/ exists f sub, In f fs /\ aget f subs = Some sub /\ so_rap (sd_opts sub) = true) /\
    NoDup ids' /\
    (forall i, In i ids' <-> In i ids \/ exists f sub, In f fs /\ aget f subs = Some sub /\ sd_id sub = Some i).
Proof.
  induction fs as [|f fs IH]; intros has rap ids Hn; cbn [fold_left].
  - do 3 eexists. refine (conj eq_refl (conj _ (conj _ (conj Hn _)))).
    + split; [auto|]. intros [H|(f & sub & [] & _)]. exact H.
    + split; [auto|]. intros [H|(f & sub & [] & _)]. exact H.
    + intros i. split; [auto|]. intros [H|(f & sub & [] & _)]. exact H.
  - destruct (aget f subs) as [sub|] eqn:A.
    2:{ destruct (IH has rap ids Hn) as (h' & r' & i' & E & H1 & H2 & H3 & H4).
        exists h', r', i'. refine (conj E (conj _ (conj _ (conj H3 _)))).
        - rewrite H1. split; (intros [H|(f0 & s0 & H & R)]; [auto|]); right; exists f0, s0; split; auto; [now right|].
          destruct H as [->|H]; [congruence|exact H].
        - rewrite H2. split; (intros [H|(f0 & s0 & H & R)]; [auto|]); right; exists f0, s0; split; auto; [now right|].
          destruct H as [->|H]; [destruct R; congruence|exact H].
        - intros i. rewrite H4. split; (intros [H|(f0 & s0 & H & R)]; [auto|]); right; exists f0, s0; split; auto; [now right|].
          destruct H as [->|H]; [destruct R; congruence|exact H]. }
    set (ids1 := match sd_id sub with Some i => if existsb (N.eqb i) ids then ids else (ids ++ [i])%list | None => ids end).
    assert (E1 : match sd_id sub with
                 | Some i => (true, rap || so_rap (sd_opts sub), if existsb (N.eqb i) ids then ids else (ids ++ [i])%list)
                 | None => (true, rap || so_rap (sd_opts sub), ids)
                 end = (true, rap || so_rap (sd_opts sub), ids1)) by (unfold ids1; destruct (sd_id sub); reflexivity).
    cbn zeta. rewrite E1.
    assert (N1 : NoDup ids1).
    { unfold ids1. destruct (sd_id sub) as [i|]; auto. destruct (existsb (N.eqb i) ids) eqn:X; auto.
      apply RetainProofs.NoDup_app; auto.
      - constructor; [intros []|constructor].
      - intros x H [<-|[]]. assert (existsb (N.eqb i) ids = true) by (apply existsb_exists; exists i; split; auto; apply N.eqb_refl).
        congruence. }
    assert (M1 : forall i, In i ids1 <-> In i ids \/ sd_id sub = Some i).
    { intros i. unfold ids1. destruct (sd_id sub) as [j|].
      - destruct (existsb (N.eqb j) ids) eqn:X.
        + apply existsb_exists in X. destruct X as (y & Hy & Ey). apply N.eqb_eq in Ey. subst y.
          split; [auto|]. intros [H|H]; [exact H|]. injection H as <-. exact Hy.
        + rewrite in_app_iff. cbn [In]. split; intros [H|H]; auto.
          * destruct H as [->|[]]. auto.
          * injection H as <-. auto.
      - split; [auto|]. intros [H|H]; [exact H|discriminate]. }
    destruct (IH true (rap || so_rap (sd_opts sub)) ids1 N1) as (h' & r' & i' & E & H1 & H2 & H3 & H4).
    exists h', r', i'. refine (conj E (conj _ (conj _ (conj H3 _)))).
    + rewrite H1. split; auto. intros _. right. exists f, sub. split; auto. now left.
    + rewrite H2, orb_true_iff. split.
      * intros [[H|H]|(f0 & s0 & H & R)]; auto.
        -- right. exists f, sub. split; auto. now left.
        -- right. exists f0, s0. split; auto. now right.
      * intros [H|(f0 & s0 & [->|H] & R1 & R2)]; auto.
        -- left. right. congruence.
        -- right. exists f0, s0. auto.
    + intros i. rewrite H4, M1. split.
      * intros [[H|H]|(f0 & s0 & H & R)]; auto.
        -- right. exists f, sub. split; auto. now left.
        -- right. exists f0, s0. split; auto. now right.
      * intros [H|(f0 & s0 & [->|H] & R1 & R2)]; auto.
        -- left. right. congruence.
        -- right. exists f0, s0. auto.
Qed.

(** The size that is compared with the client's Maximum Packet Size. *)
Definition checked_size (q fq : qos) (len : N) : N :=
  if negb (qos_eqb q L0) && qos_eqb fq L0 then len - 2 else len.

Lemma normal5_spec now cfg m r :
  exists r' o, passes5 now cfg (NM5 m) r r' o /\
   (o = None <-> (forall f, In f (n5_filters m) -> aget f (s_subs r) = None) \/
                 s_maxpkt r < checked_size (n5_qos m) (qos_min (n5_qos m) (n5_sqos m)) (n5_len m) \/
                 (qos_min (n5_qos m) (n5_sqos m) = L0 /\ ~ up5 r)) /\
   (forall p, o = Some p ->
      p5_topic p = n5_topic m /\ p5_payload p = n5_payload m /\ p5_qos p = qos_min (n5_qos m) (n5_sqos m) /\
      (p5_retain p = true <-> n5_retain m = true /\ cf_retain cfg = true /\
         exists f sub, In f (n5_filters m) /\ aget f (s_subs r) = Some sub /\ so_rap (sd_opts sub) = true) /\
      (exists ids, p5_props p = set_subids ids (n5_props m) /\ NoDup ids /\
         forall i, In i ids <-> exists f sub, In f (n5_filters m) /\ aget f (s_subs r) = Some sub /\ sd_id sub = Some i)).
Proof.
  destruct (filters_info_spec (s_subs r) (n5_filters m) false false [] (NoDup_nil _))
    as (has & rap & ids & E & H1 & H2 & H3 & H4).
  assert (HN : handle_normal5 now cfg (NM5 m) r =
     if has then recv_publish5 now (RecvPub (n5_topic m) (n5_qos m) (n5_retain m && (cf_retain cfg && rap))
                   (n5_payload m) (Some (n5_props m)) (Precomputed ids) (n5_sqos m) (n5_len m)) r
     else (r, None)).
  { assert (E' : filters_info (s_subs r) (n5_filters m) = (has, rap, ids)) by exact E.
    cbn [handle_normal5]. now rewrite E'. }
  destruct has.
  2:{ exists r, None. split; [now constructor|]. split; [|discriminate]. split; auto. intros _. left.
      intros f Hf. destruct (aget f (s_subs r)) eqn:A; [|reflexivity]. exfalso.
      assert (X : false = true) by (apply H1; right; eauto). discriminate. }
  assert (Hin : ~ (forall f, In f (n5_filters m) -> aget f (s_subs r) = None)).
  { intros X. destruct (proj1 H1 eq_refl) as [Y|(f & sub & Hf & Ha)]; [discriminate|]. rewrite X in Ha by auto. discriminate. }
  destruct (recv5_spec now (RecvPub (n5_topic m) (n5_qos m) (n5_retain m && (cf_retain cfg && rap))
                   (n5_payload m) (Some (n5_props m)) (Precomputed ids) (n5_sqos m) (n5_len m)) r)
    as (r' & res & R & [(-> & -> & W)|(ids' & k & S1 & S2 & S3 & -> & S4 & S5)]).
  - exists r, None. split; [constructor; [now rewrite HN|reflexivity]|]. split; [|discriminate].
    split; auto. intros _. destruct W as [W|[W|W]]; [discriminate W|auto|auto].
  - cbn [rp_sublist rp_ids] in S1. injection S1 as <-. cbn [rp_qos rp_sqos rp_topic rp_retain rp_payload rp_props] in *.
    exists r'. eexists. split; [eapply pa5_pass; [|exact S4|exact S5]; rewrite HN, R; reflexivity|].
    split.
    + split; [discriminate|]. intros [X|[X|(X & Y)]]; [contradiction| |now destruct (Y (S3 X))].
      unfold rp_size in S2. cbn [rp_qos rp_sqos rp_len] in S2. unfold checked_size in X. lia.
    + intros p X. injection X as <-. cbn [p5_topic p5_payload p5_qos p5_retain p5_props].
      refine (conj eq_refl (conj eq_refl (conj eq_refl (conj _ _)))).
      * rewrite !andb_true_iff, H2. split.
        -- intros (A & B & [C|C]); [discriminate|auto].
        -- intros (A & B & C). auto.
      * exists ids. refine (conj eq_refl (conj H3 _)). intros i. rewrite H4. split; [intros [[]|H]; exact H|auto].
Qed.

Lemma normal5_spec3 now cfg m r :
  exists r' o, passes5 now cfg (NM3 m) r r' o /\
   (o = None <-> aget (n3_filter m) (s_subs r) = None \/
                 s_maxpkt r < checked_size (n3_qos m) (qos_min (n3_qos m) (n3_sqos m)) (n3_len m + 1) \/
                 (qos_min (n3_qos m) (n3_sqos m) = L0 /\ ~ up5 r)) /\
   (forall p, o = Some p ->
      p5_topic p = n3_topic m /\ p5_payload p = n3_payload m /\ p5_qos p = qos_min (n3_qos m) (n3_sqos m) /\
      exists sub, aget (n3_filter m) (s_subs r) = Some sub /\
        (p5_retain p = true <-> n3_retain m = true /\ cf_retain cfg = true /\ so_rap (sd_opts sub) = true) /\
        p5_props p = set_subids (opt_list (sd_id sub)) pprops_default).
Proof.
  destruct (aget (n3_filter m) (s_subs r)) as [sub|] eqn:A.
  2:{ exists r, None. split; [constructor; [cbn [handle_normal5]; now rewrite A|reflexivity]|].
      split; [split; auto|discriminate]. }
  destruct (recv5_spec now (RecvPub (n3_topic m) (n3_qos m) (n3_retain m && (cf_retain cfg && so_rap (sd_opts sub)))
                   (n3_payload m) None (Lookup (n3_filter m)) (n3_sqos m) (n3_len m + 1)) r)
    as (r' & res & R & [(-> & -> & W)|(ids' & k & S1 & S2 & S3 & -> & S4 & S5)]).
  - exists r, None. split; [constructor; [cbn [handle_normal5]; now rewrite A|reflexivity]|]. split; [|discriminate].
    split; auto. intros _. unfold rp_sublist in W. cbn [rp_ids] in W. rewrite A in W.
    destruct W as [W|[W|W]]; [discriminate W|auto|auto].
  - unfold rp_sublist in S1. cbn [rp_ids] in S1. rewrite A in S1. injection S1 as <-.
    cbn [rp_qos rp_sqos rp_topic rp_retain rp_payload rp_props] in *.
    exists r'. eexists. split; [eapply pa5_pass; [|exact S4|exact S5]; cbn [handle_normal5]; rewrite A, R; reflexivity|].
    split.
    + split; [discriminate|]. intros [X|[X|(X & Y)]]; [discriminate| |now destruct (Y (S3 X))].
      unfold rp_size in S2. cbn [rp_qos rp_sqos rp_len] in S2. unfold checked_size in X. lia.
    + intros p X. injection X as <-. cbn [p5_topic p5_payload p5_qos p5_retain p5_props].
      refine (conj eq_refl (conj eq_refl (conj eq_refl _))). exists sub. split; [reflexivity|]. split; [|reflexivity].
      now rewrite !andb_true_iff.
Qed.

(** The one filter a v3 session looks at. *)
Definition first_filter (x : nmsg) : option string :=
  match x with NM3 m => Some (n3_filter m) | NM5 m => hd_error (n5_filters m) end.

Lemma normal3_spec now x r :
  exists r' o, passes3 now x r r' o /\
   (o = None <-> (forall f, first_filter x = Some f -> aget f (z_subs r) = None) \/
                 (qos_min (nm_qos x) (nm_sqos x) = L0 /\ z_disc r = true)) /\
   (forall p, o = Some p ->
      p3_topic p = nm_topic x /\ p3_payload p = nm_payload x /\ p3_qos p = qos_min (nm_qos x) (nm_sqos x) /\
      p3_retain p = nm_retain x).
Proof.
  assert (HN : handle_normal3 now x r =
    match first_filter x with
    | None => (r, None)
    | Some f => recv_publish3 now (RecvPub3 (nm_topic x) (nm_qos x) (nm_retain x) (nm_payload x) f (nm_sqos x)) r
    end).
  { destruct x as [m|m]; [reflexivity|]. cbn. destruct (n5_filters m); reflexivity. }
  destruct (first_filter x) as [f|] eqn:F.
  2:{ exists r, None. split; [constructor; [now rewrite HN|reflexivity]|]. split; [|discriminate]. split; auto.
      intros _. left. discriminate. }
  destruct (recv3_spec now (RecvPub3 (nm_topic x) (nm_qos x) (nm_retain x) (nm_payload x) f (nm_sqos x)) r)
    as (r' & res & R & [(-> & -> & W)|(k & S1 & S2 & -> & S4 & S5)]); cbn [rp3_filter rp3_qos rp3_sqos rp3_topic rp3_retain rp3_payload] in *.
  - exists r, None. split; [constructor; [now rewrite HN|reflexivity]|]. split; [|discriminate]. split; auto.
    intros _. destruct W as [W|W]; auto. left. intros f' X. injection X as <-. exact W.
  - exists r'. eexists. split; [eapply pa3_pass; [|exact S4|exact S5]; rewrite HN, R; reflexivity|]. split.
    + split; [discriminate|]. intros [X|(X & Y)]; [now rewrite X in S1|]. rewrite S2 in Y by auto. discriminate.
    + intros p X. injection X as <-. auto.
Qed.
