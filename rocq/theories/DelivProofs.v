(** Lemmas about [send_publish]: who is sent what. *)
From Coq Require Import List Bool String NArith Lia.
From Verif Require Import Base BaseLemmas TopicModel TopicSpec MsgModel RouteModel RouteSpec RouteInv
  GlobModel Sess5Model Sess3Model DelivSpec.
Import ListNotations.
Local Open Scope N_scope.

(** ** Queueing *)

Definition reach_b (g : glob) (b : bcast) (c : client_id) : bool :=
  has_sender g c || match aget c b with Some _ => true | None => false end.

Lemma reach_b_iff g b c : reach_b g b c = true <-> reachable g b c.
Proof.
  unfold reach_b, reachable, has_sender. rewrite orb_true_iff, existsb_exists, in_keys_aget. split.
  - intros [(x & Hx & E)|E].
    + apply N.eqb_eq in E. subst. auto.
    + right. destruct (aget c b); eauto. discriminate.
  - intros [H|(v & ->)]; auto. left. exists c. split; auto. apply N.eqb_refl.
Qed.

Definition entries {E} (c : client_id) (l : list (client_id * E)) : list E :=
  map snd (filter (fun e => N.eqb c (fst e)) l).

Fixpoint drops {E} (g : glob) (b : bcast) (l : list (client_id * E)) : N :=
  match l with
  | [] => 0
  | e :: r => (if reach_b g b (fst e) then 0 else 1) + drops g b r
  end.

Definition total (b : bcast) : N := fold_right (fun e n => N.of_nat (List.length (snd e)) + n) 0 b.

Lemma total_aset c l b :
  total (aset c l b) + N.of_nat (List.length (queue_of b c)) = total b + N.of_nat (List.length l).
Proof.
  unfold queue_of. induction b as [|(k, v) b IH]; cbn [aset aget total fold_right snd].
  - cbn. lia.
  - destruct (eqb_spec c k) as [->|Hne]; cbn [total fold_right snd].
    + fold (total b). lia.
    + fold (total b). fold (total (aset c l b)). lia.
Qed.

Lemma queue_msg_spec g c m b cnt b' cnt' : queue_msg g c m (b, cnt) = (b', cnt') ->
  (forall d, queue_of b' d = (queue_of b d ++ if N.eqb d c && reach_b g b c then [m] else [])%list) /\
  (forall d, reach_b g b' d = reach_b g b d) /\
  cnt' = cnt - (if reach_b g b c then 0 else 1) /\
  (NoDup (keys b) -> NoDup (keys b')) /\
  total b' = total b + (if reach_b g b c then 1 else 0).
Proof.
  unfold queue_msg, reach_b, queue_of. intros E.
  destruct (aget c b) as [ms|] eqn:A.
  - rewrite A in E. injection E as <- <-. rewrite orb_true_r. refine (conj _ (conj _ (conj _ (conj _ _)))).
    + intros d. rewrite aget_aset, andb_true_r. change (@eqb client_id _ d c) with (N.eqb d c).
      destruct (N.eqb_spec d c) as [->|]; [now rewrite A|]. now rewrite app_nil_r.
    + intros d. rewrite aget_aset. change (@eqb client_id _ d c) with (N.eqb d c).
      destruct (N.eqb_spec d c) as [->|]; [now rewrite A|]. reflexivity.
    + lia.
    + apply NoDup_aset.
    + pose proof (total_aset c (ms ++ [m])%list b) as T. unfold queue_of in T. rewrite A, app_length in T.
      cbn [List.length] in T. lia.
  - destruct (has_sender g c) eqn:Hs.
    + rewrite aget_aset_eq in E. injection E as <- <-. rewrite orb_true_l. refine (conj _ (conj _ (conj _ (conj _ _)))).
      * intros d. rewrite !aget_aset, andb_true_r. change (@eqb client_id _ d c) with (N.eqb d c).
        destruct (N.eqb_spec d c) as [->|]; [now rewrite A|]. now rewrite app_nil_r.
      * intros d. rewrite !aget_aset. change (@eqb client_id _ d c) with (N.eqb d c).
        destruct (N.eqb_spec d c) as [->|]; [|reflexivity]. now rewrite A, Hs.
      * lia.
      * intros H. now apply NoDup_aset, NoDup_aset.
      * pose proof (total_aset c ([] ++ [m])%list (aset c [] b)) as T1. pose proof (total_aset c [] b) as T2.
        unfold queue_of in *. rewrite aget_aset_eq in T1. rewrite A in T2. cbn [List.length app] in *. lia.
    + rewrite A in E. injection E as <- <-. rewrite orb_false_l. refine (conj _ (conj _ (conj _ (conj _ _)))); auto.
      * intros d. now rewrite andb_false_r, app_nil_r.
      * lia.
Qed.

Lemma queue_fold {E} g (mk : E -> nmsg) (l : list (client_id * E)) : forall b cnt b' cnt',
  fold_left (fun bc e => queue_msg g (fst e) (mk (snd e)) bc) l (b, cnt) = (b', cnt') ->
  (forall d, queue_of b' d = (queue_of b d ++ if reach_b g b d then map mk (entries d l) else [])%list) /\
  (forall d, reach_b g b' d = reach_b g b d) /\
  cnt' = cnt - drops g b l /\
  (NoDup (keys b) -> NoDup (keys b')) /\
  total b' + drops g b l = total b + N.of_nat (List.length l).
Proof.
  induction l as [|(c, e) l IH]; intros b cnt b' cnt' H; cbn [fold_left] in H.
  - injection H as <- <-. refine (conj _ (conj _ (conj _ (conj _ _)))); auto.
    + intros d. cbn. destruct (reach_b g b d); now rewrite app_nil_r.
    + cbn. lia.
  - destruct (queue_msg g (fst (c, e)) (mk (snd (c, e))) (b, cnt)) as (b1, cnt1) eqn:Q.
    apply queue_msg_spec in Q. destruct Q as (Q1 & Q2 & Q3 & Q4 & Q5). cbn [fst snd] in *.
    apply IH in H. destruct H as (H1 & H2 & H3 & H4 & H5).
    assert (D : drops g b1 l = drops g b l).
    { clear - Q2. induction l as [|x l IHl]; [reflexivity|]. cbn. now rewrite Q2, IHl. }
    refine (conj _ (conj _ (conj _ (conj _ _)))).
    + intros d. rewrite H1, Q1, Q2, <- app_assoc. f_equal. unfold entries. cbn [filter fst].
      destruct (N.eqb_spec d c) as [->|]; cbn.
      * destruct (reach_b g b c); reflexivity.
      * reflexivity.
    + intros d. now rewrite H2, Q2.
    + rewrite H3, Q3, D. cbn. lia.
    + auto.
    + rewrite D in H5. cbn [drops fst List.length]. destruct (reach_b g b c); lia.
Qed.

Lemma drops_le {E} g b (l : list (client_id * E)) : drops g b l <= N.of_nat (List.length l).
Proof. induction l as [|x l IH]; cbn [drops List.length]; [lia|]. destruct (reach_b g b (fst x)); lia. Qed.

Lemma entries_in {E} c (l : list (client_id * E)) e : In e (entries c l) <-> In (c, e) l.
Proof.
  unfold entries. rewrite in_map_iff. split.
  - intros ((k, x) & <- & Hin). apply filter_In in Hin. destruct Hin as (Hin & Hk). cbn in Hk.
    apply N.eqb_eq in Hk. now subst.
  - intros H. exists (c, e). split; auto. apply filter_In. split; auto. apply N.eqb_refl.
Qed.

Lemma entries_nodup {E} c (l : list (client_id * E)) : NoDup (keys l) ->
  entries c l = match aget c l with Some e => [e] | None => [] end.
Proof.
  unfold entries. induction l as [|(k, e) l IH]; intros H; cbn [filter fst aget]; [reflexivity|].
  inversion H as [|? ? Hn Hd]; subst. change (@eqb client_id _ c k) with (N.eqb c k).
  destruct (N.eqb_spec c k) as [->|].
  - cbn. rewrite IH by auto. cbn [snd fst] in *. destruct (aget k l) eqn:A; auto. exfalso. apply Hn.
    apply in_keys_aget. eauto.
  - auto.
Qed.

(** ** Grouping by receiver *)

Definition contribs := list (client_id * (string * qos)).
Definition addc (l : senders) (e : client_id * (string * qos)) : senders :=
  add_sender (fst e) (fst (snd e)) (snd (snd e)) l.

Definition merge (o : option (list string * qos)) (e : string * qos) : option (list string * qos) :=
  match o with
  | Some (fs, mq) => Some ((fs ++ [fst e])%list, qos_max mq (snd e))
  | None => Some ([fst e], snd e)
  end.

Lemma add_sender_aget c f q l d :
  aget d (add_sender c f q l) = if N.eqb d c then merge (aget c l) (f, q) else aget d l.
Proof.
  unfold add_sender. destruct (aget c l) as [(fs, mq)|] eqn:A.
  - rewrite aget_aset. reflexivity.
  - rewrite <- aset_notin by (now apply aget_None_notin). rewrite aget_aset. reflexivity.
Qed.

Lemma add_sender_nodup c f q l : NoDup (keys l) -> NoDup (keys (add_sender c f q l)).
Proof.
  intros H. unfold add_sender. destruct (aget c l) as [(fs, mq)|] eqn:A.
  - now apply NoDup_aset.
  - rewrite <- aset_notin by (now apply aget_None_notin). now apply NoDup_aset.
Qed.

Lemma grp_aget k : forall l d,
  aget d (fold_left addc k l) = fold_left merge (entries d k) (aget d l).
Proof.
  induction k as [|(c, (f, q)) k IH]; intros l d; cbn [fold_left]; [reflexivity|].
  rewrite IH. unfold addc at 1. cbn [fst snd]. rewrite add_sender_aget. unfold entries. cbn [filter fst].
  destruct (N.eqb_spec d c) as [->|]; reflexivity.
Qed.

Lemma grp_nodup k : forall l, NoDup (keys l) -> NoDup (keys (fold_left addc k l)).
Proof.
  induction k as [|e k IH]; intros l H; cbn [fold_left]; [exact H|]. apply IH. apply add_sender_nodup, H.
Qed.

Definition fmax (q0 : qos) (es : list (string * qos)) : qos := fold_left (fun a e => qos_max a (snd e)) es q0.

Lemma merge_fold es : forall fs q,
  fold_left merge es (Some (fs, q)) = Some ((fs ++ map fst es)%list, fmax q es).
Proof.
  induction es as [|e es IH]; intros fs q; cbn [fold_left merge map fmax].
  - now rewrite app_nil_r.
  - rewrite IH. now rewrite <- app_assoc.
Qed.

Lemma merge_fold0 es : fold_left merge es None =
  match es with [] => None | e :: r => Some (map fst es, fmax (snd e) r) end.
Proof. destruct es as [|e r]; [reflexivity|]. cbn [fold_left merge]. now rewrite merge_fold. Qed.

Lemma qos_max_ge a b : qos_leb a (qos_max a b) = true /\ qos_leb b (qos_max a b) = true.
Proof. destruct a, b; split; reflexivity. Qed.
Lemma qos_leb_trans a b c : qos_leb a b = true -> qos_leb b c = true -> qos_leb a c = true.
Proof. destruct a, b, c; cbn; congruence. Qed.

Lemma fmax_spec es : forall q,
  (fmax q es = q \/ exists f, In (f, fmax q es) es) /\
  qos_leb q (fmax q es) = true /\ (forall e, In e es -> qos_leb (snd e) (fmax q es) = true).
Proof.
  induction es as [|(f, q') es IH]; intros q; cbn [fmax fold_left snd].
  - refine (conj _ (conj _ _)); [auto|destruct q; reflexivity|intros ? []].
  - fold (fmax (qos_max q q') es). destruct (IH (qos_max q q')) as (A & B & C).
    pose proof (qos_max_ge q q') as (M1 & M2). refine (conj _ (conj _ _)).
    + destruct A as [A|(f' & A)].
      * rewrite A. unfold qos_max. destruct (qos_leb q q'); auto. right. exists f. now left.
      * right. exists f'. now right.
    + eapply qos_leb_trans; eauto.
    + intros e [<-|H]; [eapply qos_leb_trans; eauto|auto].
Qed.

(** ** The contributions of a lookup result *)

Section Contribs.
  Variable pick : string -> string -> N.

  Definition ctr_plain (s : sess5) (f : string) (cl : list (client_id * qos)) : contribs :=
    map (fun cq => (fst cq, (f, snd cq))) (filter (fun cq => negb (own_skip s f (fst cq))) cl).

  Fixpoint ctr_groups (f : string) (gs : list (string * shared)) : option contribs :=
    match gs with
    | [] => Some []
    | (name, sh) :: r =>
        match sh_get_by_number sh (pick name f), ctr_groups f r with
        | Some (c, q), Some k => Some ((c, (("$share/" ++ name ++ "/" ++ f)%string, q)) :: k)
        | _, _ => None
        end
    end.

  Fixpoint ctr (s : sess5) (cts : list content) : option contribs :=
    match cts with
    | [] => Some []
    | ct :: r =>
        match c_filter ct with
        | None => None
        | Some f =>
            match ctr_groups f (c_groups ct), ctr s r with
            | Some kg, Some k => Some (ctr_plain s f (c_clients ct) ++ kg ++ k)%list
            | _, _ => None
            end
        end
    end.

  Lemma add_clients_ctr s f cl : forall l,
    add_clients s f cl l = fold_left addc (ctr_plain s f cl) l.
  Proof.
    unfold add_clients, ctr_plain. induction cl as [|(c, q) cl IH]; intros l; cbn [fold_left filter fst]; auto.
    destruct (own_skip s f c); cbn [negb map fold_left]; apply IH.
  Qed.

  Lemma add_groups_ctr f gs : forall l,
    add_groups pick f gs l = option_map (fun k => fold_left addc k l) (ctr_groups f gs).
  Proof.
    induction gs as [|(name, sh) gs IH]; intros l; cbn [add_groups ctr_groups]; [reflexivity|].
    destruct (sh_get_by_number sh (pick name f)) as [(c, q)|]; [|reflexivity].
    rewrite IH. destruct (ctr_groups f gs); reflexivity.
  Qed.

  Lemma collect_ctr s cts : forall l,
    collect_senders pick s cts l = option_map (fun k => fold_left addc k l) (ctr s cts).
  Proof.
    induction cts as [|ct cts IH]; intros l; cbn [collect_senders ctr]; [reflexivity|].
    destruct (c_filter ct) as [f|]; [|reflexivity].
    rewrite add_groups_ctr, add_clients_ctr. destruct (ctr_groups f (c_groups ct)) as [kg|]; cbn [option_map].
    - rewrite IH. destruct (ctr s cts); cbn [option_map]; [|reflexivity]. now rewrite !fold_left_app.
    - destruct (ctr s cts); reflexivity.
  Qed.

  Lemma own_skip_false s f c : own_skip s f c = false <-> wanted s c f.
  Proof.
    unfold own_skip, wanted. destruct (N.eqb_spec c (s_id s)) as [->|Hne].
    - destruct (aget f (s_subs s)) as [sub|].
      + split; [intros H _; eauto | intros H; destruct (H eq_refl) as (x & E & Hx); congruence].
      + split; [discriminate|]. intros H. destruct (H eq_refl) as (x & E & Hx); congruence.
    - split; [contradiction|reflexivity].
  Qed.

  Lemma ctr_plain_in s f cl c f' q : In (c, (f', q)) (ctr_plain s f cl) <->
    f' = f /\ In (c, q) cl /\ wanted s c f.
  Proof.
    unfold ctr_plain. rewrite in_map_iff. split.
    - intros ((c0, q0) & E & H). cbn in E. injection E as -> <- ->. apply filter_In in H.
      destruct H as (H & Hs). cbn in Hs. rewrite negb_true_iff, own_skip_false in Hs. auto.
    - intros (-> & H & Hw). exists (c, q). split; auto. apply filter_In. split; auto.
      cbn. rewrite negb_true_iff. now apply own_skip_false.
  Qed.

  Lemma share_name name f : ("$share/" ++ name ++ "/" ++ f)%string = share_filter name f.
  Proof. reflexivity. Qed.

  Lemma ctr_groups_in f gs k c f' q : ctr_groups f gs = Some k ->
    (In (c, (f', q)) k <->
     exists name sh, In (name, sh) gs /\ sh_get_by_number sh (pick name f) = Some (c, q) /\
       f' = share_filter name f).
  Proof.
    revert k. induction gs as [|(name, sh) gs IH]; intros k E; cbn [ctr_groups] in E.
    - injection E as <-. cbn. split; [tauto|]. intros (n & sh & H & _). destruct H.
    - destruct (sh_get_by_number sh (pick name f)) as [(c0, q0)|] eqn:G; [|discriminate].
      destruct (ctr_groups f gs) as [k0|]; [|discriminate]. injection E as <-. specialize (IH k0 eq_refl).
      split.
      + intros [H|H].
        * injection H as <- <- <-. exists name, sh. split; [now left|]. split; [exact G|reflexivity].
        * apply IH in H. destruct H as (n & s0 & H & H'). exists n, s0. split; [now right|auto].
      + intros (n & s0 & [H|H] & G' & ->).
        * injection H as -> ->. rewrite G in G'. injection G' as -> ->. now left.
        * right. apply IH. exists n, s0. auto.
  Qed.

  Lemma ctr_in s cts k c f' q : ctr s cts = Some k ->
    (In (c, (f', q)) k <->
     exists ct f, In ct cts /\ c_filter ct = Some f /\
       ((f' = f /\ In (c, q) (c_clients ct) /\ wanted s c f) \/
        (exists name sh, In (name, sh) (c_groups ct) /\ sh_get_by_number sh (pick name f) = Some (c, q) /\
           f' = share_filter name f))).
  Proof.
    revert k. induction cts as [|ct cts IH]; intros k E; cbn [ctr] in E.
    - injection E as <-. cbn. split; [tauto|]. intros (ct & f & H & _). destruct H.
    - destruct (c_filter ct) as [f0|] eqn:F; [|discriminate].
      destruct (ctr_groups f0 (c_groups ct)) as [kg|] eqn:G; [|discriminate].
      destruct (ctr s cts) as [k0|]; [|discriminate]. injection E as <-. specialize (IH k0 eq_refl).
      rewrite !in_app_iff, ctr_plain_in, (ctr_groups_in _ _ _ _ _ _ G), IH. split.
      + intros [(-> & H & Hw)|[H|(ct' & f & H & H')]].
        * exists ct, f0. split; [now left|]. auto.
        * exists ct, f0. split; [now left|]. auto.
        * exists ct', f. split; [now right|auto].
      + intros (ct' & f & [<-|H] & F' & H').
        * rewrite F in F'. injection F' as <-. destruct H' as [(-> & ? & ?)|H']; auto.
        * right. right. exists ct', f. auto.
  Qed.

  (** A lookup on a reachable table never panics. *)
  Lemma ctr_groups_ok h topic ct f gs : valid_topic_name topic ->
    In ct (rt_get_matches (rt_run h) topic) -> c_filter ct = Some f ->
    (forall x, In x gs -> In x (c_groups ct)) -> exists k, ctr_groups f gs = Some k.
  Proof.
    intros Hv Hin Hf. induction gs as [|(name, sh) gs IH]; intros Hs; cbn [ctr_groups]; [eauto|].
    assert (O : offers_group (rt_run h) topic f name sh) by (exists ct; split; auto; split; auto; apply Hs; now left).
    destruct (shared_pick_lemma h topic f name sh (pick name f) Hv O) as (_ & _ & _ & c & q & q' & -> & _).
    destruct IH as (k & ->); [intros x Hx; apply Hs; now right|]. eauto.
  Qed.

  Lemma ctr_ok h s topic : valid_topic_name topic ->
    forall cts, (forall ct, In ct cts -> In ct (rt_get_matches (rt_run h) topic)) -> exists k, ctr s cts = Some k.
  Proof.
    intros Hv. induction cts as [|ct cts IH]; intros Hs; cbn [ctr]; [eauto|].
    destruct (lookup_has_filter h topic ct Hv (Hs ct (or_introl eq_refl))) as (fx & Fx & _). rewrite Fx.
    destruct (ctr_groups_ok h topic ct fx (c_groups ct) Hv (Hs ct (or_introl eq_refl)) Fx (fun x H => H)) as (kg & ->).
    destruct IH as (k & ->); [intros x Hx; apply Hs; now right|]. eauto.
  Qed.
End Contribs.
