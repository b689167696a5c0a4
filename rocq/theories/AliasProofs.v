(** Lemmas for C16. *)
From Coq Require Import List Bool String NArith Lia Permutation.
From Coq Require Import ZifyBool ZifyNat ZifyN.
From Verif Require Import Base BaseLemmas MsgModel PendingModel PendingProofs AliasModel OutModel OutSpec OutFacts AliasSpec.
Import ListNotations.
Local Open Scope N_scope.
Local Open Scope list_scope.

Definition ticks (s : aliases) : list N := map (fun x => snd (snd x)) (al_by_alias s).

(** The two tables are inverse to each other, ticks are distinct and past. *)
Record al_inv (amax : N) (s : aliases) : Prop := {
  ai_nda : NoDup (keys (al_by_alias s));
  ai_ndt : NoDup (keys (al_by_topic s));
  ai_bi : forall t a, aget t (al_by_topic s) = Some a <-> exists k, aget a (al_by_alias s) = Some (t, k);
  ai_rng : forall a, In a (keys (al_by_alias s)) -> 1 <= a <= amax;
  ai_tk : NoDup (ticks s);
  ai_past : forall k, In k (ticks s) -> k <= al_tick s
}.

Definition agrees (known : list (N * string)) (s : aliases) : Prop :=
  forall a, aget a known = option_map fst (aget a (al_by_alias s)).

Lemma al_inv_empty amax : al_inv amax aliases_empty.
Proof.
  constructor; cbn; try constructor; try tauto; try discriminate.
  intros [k H]. discriminate.
Qed.

Lemma first_free_range m n : forall a amax, 1 <= a -> N.of_nat n + a = amax + 1 -> 1 <= amax ->
  1 <= first_free n a m <= amax.
Proof.
  induction n as [|n IH]; intros a amax H1 H2 H3; cbn [first_free]; [lia|].
  destruct (aget a m); [|lia]. apply IH; lia.
Qed.
Lemma min_tick_in m a t : min_tick m = Some (a, t) -> exists s, In (a, (s, t)) m.
Proof.
  induction m as [|[a' [s t']] m IH]; cbn; [discriminate|].
  destruct (min_tick m) as [[a2 t2]|].
  - destruct (t' <=? t2); intros [= <- <-]; [exists s; now left|]. destruct IH as [s2 H]; [reflexivity|]. exists s2. now right.
  - intros [= <- <-]. exists s. now left.
Qed.

Lemma min_tick_none m : min_tick m = None -> m = [].
Proof. destruct m as [|[a [s t]] m]; cbn; [reflexivity|]. destruct (min_tick m) as [[? ?]|]; [destruct (t <=? n0)|]; discriminate. Qed.
Lemma min_tick_le m a t : min_tick m = Some (a, t) -> forall x, In x m -> t <= snd (snd x).
Proof.
  revert a t. induction m as [|[a' [s t']] m IH]; cbn; [discriminate|]. intros a t.
  destruct (min_tick m) as [[a2 t2]|] eqn:E.
  - specialize (IH _ _ eq_refl). destruct (N.leb_spec t' t2); intros [= <- <-] x [<-|Hx]; cbn; try lia; specialize (IH x Hx); lia.
  - apply min_tick_none in E. subst. intros [= <- <-] x [<-|[]]. cbn. lia.
Qed.

(** The order in which the alias map is iterated does not matter. *)
Lemma least_recent_order amax s m : al_inv amax s -> Permutation m (al_by_alias s) ->
  least_recent m = least_recent (al_by_alias s).
Proof.
  intros HI HP. unfold least_recent.
  destruct (min_tick m) as [[a t]|] eqn:E1; destruct (min_tick (al_by_alias s)) as [[a' t']|] eqn:E2; try reflexivity.
  - destruct (min_tick_in _ _ _ E1) as [x Hx], (min_tick_in _ _ _ E2) as [x' Hx'].
    pose proof (min_tick_le _ _ _ E1 _ (Permutation_in _ (Permutation_sym HP) Hx')) as L1. cbn in L1.
    pose proof (min_tick_le _ _ _ E2 _ (Permutation_in _ HP Hx)) as L2. cbn in L2.
    assert (t = t') by lia. subst t'. apply (Permutation_in _ HP) in Hx.
    pose proof (ai_tk _ _ HI) as ND. unfold ticks in ND. clear -Hx Hx' ND.
    induction (al_by_alias s) as [|y l IH]; [destruct Hx|]. cbn in ND. apply NoDup_cons_iff in ND. destruct ND as [N1 N2].
    destruct Hx as [->|Hx], Hx' as [E|Hx'].
    + congruence.
    + exfalso. apply N1. apply in_map_iff. now exists (a', (x', t)).
    + subst. exfalso. apply N1. apply in_map_iff. now exists (a, (x, t)).
    + auto.
  - apply min_tick_none in E2. rewrite E2 in HP. apply Permutation_sym, Permutation_nil in HP. subst. discriminate.
  - apply min_tick_none in E1. subst. apply Permutation_nil in HP. rewrite HP in E2. discriminate.
Qed.

Lemma ticks_aset a v m : forall k, In k (map (fun x : N * (string * N) => snd (snd x)) (aset a v m)) ->
  k = snd v \/ In k (map (fun x => snd (snd x)) m).
Proof.
  induction m as [|[a' v'] m IH]; cbn; intros k.
  - intros [<-|[]]. now left.
  - destruct (N.eqb_spec a a'); cbn.
    + intros [<-|H]; auto.
    + intros [<-|H]; auto. destruct (IH _ H); auto.
Qed.
Lemma ticks_aset_nd a v m : NoDup (map (fun x : N * (string * N) => snd (snd x)) m) ->
  ~ In (snd v) (map (fun x => snd (snd x)) m) -> NoDup (map (fun x => snd (snd x)) (aset a v m)).
Proof.
  induction m as [|[a' v'] m IH]; cbn; intros ND H; [repeat constructor; auto|].
  apply NoDup_cons_iff in ND. destruct ND as [N1 N2]. destruct (N.eqb_spec a a'); cbn; constructor; auto.
  intros K. apply ticks_aset in K. destruct K; [apply H; left; auto|contradiction].
Qed.
Lemma ticks_adel a m : incl (map (fun x : N * (string * N) => snd (snd x)) (adel a m)) (map (fun x => snd (snd x)) m).
Proof.
  induction m as [|[a' v'] m IH]; cbn; [apply incl_refl|]. destruct (N.eqb_spec a a'); [apply incl_tl, incl_refl|].
  cbn. apply incl_cons; [now left|apply incl_tl, IH].
Qed.
Lemma ticks_adel_nd a m : NoDup (map (fun x : N * (string * N) => snd (snd x)) m) ->
  NoDup (map (fun x => snd (snd x)) (adel a m)).
Proof.
  induction m as [|[a' v'] m IH]; cbn; intros ND; [constructor|].
  apply NoDup_cons_iff in ND. destruct ND as [N1 N2]. destruct (N.eqb_spec a a'); [exact N2|]. cbn. constructor; auto.
  intros K. apply ticks_adel in K. contradiction.
Qed.

Lemma assign_range amax s : al_inv amax s -> 0 < amax ->
  1 <= (if N.of_nat (List.length (al_by_alias s)) <? amax
        then first_free (N.to_nat amax) 1 (al_by_alias s) else least_recent (al_by_alias s)) <= amax.
Proof.
  intros HI Hm. destruct (N.of_nat (List.length (al_by_alias s)) <? amax).
  - apply first_free_range; lia.
  - unfold least_recent. destruct (min_tick (al_by_alias s)) as [[a t]|] eqn:E; [|lia].
    apply min_tick_in in E. destruct E as [x Hx]. apply (ai_rng _ _ HI). apply in_map_iff. now exists (a, (x, t)).
Qed.

Lemma assign_spec amax topic s s' a is_new known :
  al_inv amax s -> agrees known s -> 0 < amax ->
  get_or_assign_alias amax topic s = (s', (a, is_new)) ->
  al_inv amax s' /\ 1 <= a <= amax /\
  (is_new = false -> aget a known = Some topic /\ agrees known s') /\
  (is_new = true -> agrees (aset a topic known) s').
Proof.
  intros HI HA Hm. unfold get_or_assign_alias. destruct (N.eqb_spec amax 0) as [->|_]; [lia|].
  destruct (aget topic (al_by_topic s)) as [b|] eqn:Et.
  - intros E. injection E as E1 E2 E3. subst b is_new.
    destruct (proj1 (ai_bi _ _ HI topic a) Et) as [k Hk].
    rewrite Hk in E1.
    assert (Ha : 1 <= a <= amax) by (apply (ai_rng _ _ HI), in_keys_aget; eauto).
    split; [|split; [exact Ha|split; [|discriminate]]].
    + subst s'. constructor; cbn [al_by_topic al_by_alias al_tick].
      * apply NoDup_aset, (ai_nda _ _ HI).
      * apply (ai_ndt _ _ HI).
      * intros t b. rewrite (ai_bi _ _ HI). rewrite aget_aset. destruct (eqb_spec b a) as [->|]; [|reflexivity].
        split; intros [k' E]; [rewrite Hk in E|]; injection E as <- _; eexists; [reflexivity|exact Hk].
      * intros b. rewrite in_keys_aset. intros [->|H]; [exact Ha|now apply (ai_rng _ _ HI)].
      * apply ticks_aset_nd; [apply (ai_tk _ _ HI)|]. cbn. intros K. apply (ai_past _ _ HI) in K. lia.
      * intros k' K. apply ticks_aset in K. cbn in K. destruct K as [->|K]; [lia|]. apply (ai_past _ _ HI) in K. lia.
    + intros _. rewrite HA, Hk. split; [reflexivity|]. intros b. subst s'. cbn [al_by_alias]. rewrite aget_aset, HA.
      destruct (eqb_spec b a) as [->|]; [|reflexivity]. now rewrite Hk.
  - pose proof (assign_range amax s HI Hm) as Hr.
    set (b := if N.of_nat (List.length (al_by_alias s)) <? amax then _ else _) in *.
    assert (E : forall bt ba, (match aget b (al_by_alias s) with
       | Some (old, _) => (adel old (al_by_topic s), adel b (al_by_alias s))
       | None => (al_by_topic s, al_by_alias s) end) = (bt, ba) ->
       NoDup (keys ba) /\ NoDup (keys bt) /\ aget b ba = None /\ (forall c, c <> b -> aget c ba = aget c (al_by_alias s)) /\
       (forall t c, aget t bt = Some c <-> exists k, aget c ba = Some (t, k)) /\
       incl (keys ba) (keys (al_by_alias s)) /\ NoDup (map (fun x => snd (snd x)) ba) /\
       incl (map (fun x => snd (snd x)) ba) (ticks s)).
    { intros bt ba. destruct (aget b (al_by_alias s)) as [[old k]|] eqn:Eb; intros [= <- <-].
      - refine (conj _ (conj _ (conj _ (conj _ (conj _ (conj _ (conj _ _))))))).
        + apply NoDup_adel, (ai_nda _ _ HI).
        + apply NoDup_adel, (ai_ndt _ _ HI).
        + apply aget_adel_eq, (ai_nda _ _ HI).
        + intros c Hc. now apply aget_adel_ne.
        + intros t c. rewrite !aget_adel by (apply (ai_ndt _ _ HI) || apply (ai_nda _ _ HI)).
          pose proof (proj2 (ai_bi _ _ HI old b) (ex_intro _ _ Eb)) as Ho.
          destruct (eqb_spec t old) as [->|Ht], (eqb_spec c b) as [->|Hc].
          * split; [discriminate|intros [? ?]; discriminate].
          * split; [discriminate|]. intros K. apply (ai_bi _ _ HI) in K. congruence.
          * split; [|intros [? ?]; discriminate]. intros K. apply (ai_bi _ _ HI) in K. destruct K as [k' K]. congruence.
          * apply (ai_bi _ _ HI).
        + intros c. apply in_keys_adel_sub.
        + apply ticks_adel_nd, (ai_tk _ _ HI).
        + apply ticks_adel.
      - refine (conj (ai_nda _ _ HI) (conj (ai_ndt _ _ HI) (conj Eb (conj _ (conj (ai_bi _ _ HI) (conj (incl_refl _) (conj (ai_tk _ _ HI) (incl_refl _)))))))).
        reflexivity. }
    destruct (match aget b (al_by_alias s) with Some (old, _) => _ | None => _ end) as [bt ba] eqn:Eb.
    specialize (E bt ba eq_refl). destruct E as (E1 & E2 & E3 & E4 & E5 & E6 & E7 & E8).
    assert (Ht : aget topic bt = None).
    { destruct (aget topic bt) as [c|] eqn:K; [|reflexivity]. exfalso. apply E5 in K. destruct K as [k K].
      assert (c <> b) by congruence. rewrite E4 in K by assumption.
      pose proof (proj2 (ai_bi _ _ HI topic c) (ex_intro _ _ K)). congruence. }
    intros E. injection E as S1 S2 S3. subst a is_new s'.
    split; [|split; [exact Hr|split; [discriminate|]]].
    + constructor; cbn [al_by_topic al_by_alias al_tick].
      * now apply NoDup_aset.
      * now apply NoDup_aset.
      * intros t c. rewrite !aget_aset. destruct (eqb_spec t topic) as [->|Hn], (eqb_spec c b) as [->|Hc].
        -- split; [eexists; reflexivity|reflexivity].
        -- split; [intros K; congruence|]. intros K. apply E5 in K. congruence.
        -- split; [intros K; apply E5 in K; destruct K; congruence|intros [k K]; congruence].
        -- apply E5.
      * intros c. rewrite in_keys_aset. intros [->|H]; [exact Hr|]. apply (ai_rng _ _ HI), E6, H.
      * apply ticks_aset_nd; [exact E7|]. cbn. intros K. apply E8, (ai_past _ _ HI) in K. lia.
      * intros k' K. apply ticks_aset in K. cbn in K. destruct K as [->|K]; [lia|]. apply E8, (ai_past _ _ HI) in K. lia.
    + intros _ c. cbn [al_by_alias]. rewrite !aget_aset. destruct (eqb_spec c b) as [->|Hc]; [reflexivity|].
      now rewrite HA, E4.
Qed.

(** ** What the client reads *)
Definition client_ok (amax : N) (known : list (N * string)) (al : aliases) : Prop := al_inv amax al /\ agrees known al.

Lemma apply_alias_read amax topic props al al' topic' props' known dup qp ret pay :
  client_ok amax known al -> topic <> ""%string -> pp_alias props = None ->
  apply_alias amax topic props al = (al', topic', props') ->
  pp_subids props' = pp_subids props /\ pp_other props' = pp_other props /\
  exists known', client_read amax known (WPub5 dup qp ret topic' pay props') = (Some topic, known') /\
    client_ok amax known' al'.
Proof.
  intros [HI HA] Ht Hp. unfold apply_alias. destruct (N.ltb_spec 0 amax) as [Hm|Hm].
  - destruct (get_or_assign_alias amax topic al) as [al2 [a is_new]] eqn:E.
    destruct (assign_spec _ _ _ _ _ _ _ HI HA Hm E) as (I' & Hr & H1 & H2).
    destruct (N.ltb_spec 0 a); [|lia]. intros [= <- <- <-]. cbn [set_alias pp_subids pp_other].
    split; [reflexivity|]. split; [reflexivity|].
    unfold client_read. cbn [w5_props w5_topic set_alias pp_alias].
    destruct (N.eqb_spec a 0); [lia|]. destruct (N.ltb_spec amax a); [lia|]. cbn [orb].
    destruct is_new.
    + destruct (String.eqb_spec topic ""); [contradiction|]. eexists. split; [reflexivity|]. split; [exact I'|now apply H2].
    + cbn [String.eqb]. destruct H1 as [H1 H3]; [reflexivity|]. rewrite H1. eexists. split; [reflexivity|]. now split.
  - intros [= <- <- <-]. split; [reflexivity|]. split; [reflexivity|]. unfold client_read. cbn [w5_props w5_topic].
    rewrite Hp. destruct (String.eqb_spec topic ""); [contradiction|]. eexists. split; [reflexivity|]. now split.
Qed.

Section Run.
  Variable ops : list op5.
  Definition origin (topic : string) (w : wpub5) : Prop := Exists (copy_of topic w) ops.
  Definition good_read (x : wpub5 * option string) : Prop :=
    exists topic, snd x = Some topic /\ origin topic (fst x).
  Definition entry_good (s : pstatus pub5) : Prop :=
    match s with
    | PNew _ _ _ x _ => (exists now, In (O5Msg now x) ops) /\ p5_topic x <> ""%string /\ pp_alias (p5_props x) = None
    | _ => True
    end.

  Lemma qp_make_qos q p : qp_qos (qp_make q p) = q.
  Proof. destruct q; reflexivity. Qed.

  Lemma body_read now amax s al known s' al' o e maxima :
    client_ok amax known al -> entry_good s -> pendings_body5 now amax s al = (s', al', o, e) ->
    entry_good s' /\
    exists known', (forall rest, client_reads maxima amax known (map (ESent now) o ++ rest) =
        client_reads maxima amax known (map (ESent now) o) ++ client_reads maxima amax known' rest) /\
      Forall good_read (client_reads maxima amax known (map (ESent now) o)) /\ client_ok amax known' al'.
  Proof.
    intros HC HG. destruct s as [added last p x dup|last p|]; cbn [pendings_body5].
    - destruct HG as (Hin & Ht & Hp).
      destruct (match pp_expiry (p5_props x) with Some v => _ | None => false end).
      { intros [= <- <- <- <-]. split; [repeat split; auto|]. exists known. cbn. split; [reflexivity|]. split; [constructor|exact HC]. }
      set (props := set_expiry _ (p5_props x)).
      assert (Hp' : pp_alias props = None) by exact Hp.
      assert (Hc : forall w, w5_payload w = p5_payload x -> w5_retain w = p5_retain x -> w5_qp w = qp_make (p5_qos x) p ->
        pp_subids (w5_props w) = pp_subids props -> pp_other (w5_props w) = pp_other props -> origin (p5_topic x) w).
      { intros w A1 A2 A3 A4 A5. destruct Hin as [n Hin]. apply Exists_exists. exists (O5Msg n x). split; [exact Hin|].
        cbn. rewrite A3, qp_make_qos. repeat split; auto. }
      destruct dup.
      + intros [= <- <- <- <-]. split; [repeat split; auto|]. exists known. cbn [map app client_reads].
        unfold client_read. cbn [w5_props w5_topic]. rewrite Hp'. destruct (String.eqb_spec (p5_topic x) ""); [contradiction|].
        split; [reflexivity|]. split; [|exact HC]. repeat constructor. exists (p5_topic x). split; [reflexivity|]. apply Hc; reflexivity.
      + destruct (apply_alias amax (p5_topic x) props al) as [[al2 topic2] props2] eqn:E. intros [= <- <- <- <-].
        split; [repeat split; auto|].
        destruct (apply_alias_read _ _ _ _ _ _ _ known false (qp_make (p5_qos x) p) (p5_retain x) (p5_payload x) HC Ht Hp' E)
          as (P1 & P2 & known' & R & HC').
        exists known'. cbn [map app client_reads]. rewrite R. split; [reflexivity|]. split; [|exact HC'].
        repeat constructor. exists (p5_topic x). split; [reflexivity|]. apply Hc; cbn; auto.
    - intros [= <- <- <- <-]. split; [exact I|]. exists known. cbn. split; [reflexivity|]. split; [constructor|exact HC].
    - intros [= <- <- <- <-]. split; [exact I|]. exists known. cbn. split; [reflexivity|]. split; [constructor|exact HC].
  Qed.

  Lemma pass_read now amax timeout maxima : forall n l al known l' al' o e,
    client_ok amax known al -> Forall entry_good l ->
    pass (pendings_body5 now amax) now timeout n l al = (l', al', o, e) ->
    Forall entry_good l' /\
    exists known', (forall rest, client_reads maxima amax known (map (ESent now) o ++ rest) =
        client_reads maxima amax known (map (ESent now) o) ++ client_reads maxima amax known' rest) /\
      Forall good_read (client_reads maxima amax known (map (ESent now) o)) /\ client_ok amax known' al'.
  Proof.
    induction n as [|n IH]; intros l al known l' al' o e HC HG.
    { destruct l; intros [= <- <- <- <-]; (split; [exact HG|]; exists known; cbn; split; [reflexivity|]; split; [constructor|exact HC]). }
    destruct l as [|s r]; cbn [pass].
    { intros [= <- <- <- <-]; (split; [exact HG|]; exists known; cbn; split; [reflexivity|]; split; [constructor|exact HC]). }
    inversion HG; subst. destruct (due now timeout s).
    - destruct (pendings_body5 now amax s al) as [[[s1 al1] o1] e1] eqn:Eb.
      destruct (pass _ now timeout n r al1) as [[[r2 al2] o2] e2] eqn:Ep. intros [= <- <- <- <-].
      destruct (body_read _ _ _ _ _ _ _ _ _ maxima HC H1 Eb) as (G1 & k1 & A1 & F1 & C1).
      destruct (IH _ _ _ _ _ _ _ C1 H2 Ep) as (G2 & k2 & A2 & F2 & C2).
      split; [now constructor|]. exists k2. rewrite map_app. split; [|split; [|exact C2]].
      + intros rest. rewrite <- app_assoc, !A1, A2. now rewrite app_assoc.
      + rewrite A1. apply Forall_app. now split.
    - destruct (pass _ now timeout n r al) as [[[r2 al2] o2] e2] eqn:Ep. intros [= <- <- <- <-].
      destruct (IH _ _ _ _ _ _ _ HC H2 Ep) as (G2 & H). split; [now constructor|exact H].
  Qed.

  Lemma entry_drop l : Forall entry_good l -> Forall entry_good (drop_done l).
  Proof. induction 1 as [|s l H HF IH]; cbn; [constructor|]. destruct s; auto; now constructor. Qed.
  Lemma entry_update n f g l : Forall entry_good l -> (forall s, entry_good (g s)) ->
    Forall entry_good (fst (update_first n f g l)).
  Proof.
    revert l. induction n as [|n IH]; intros [|x l] HF Hg; cbn; auto. inversion HF; subst.
    destruct (f x); [now constructor|]. specialize (IH l H2 Hg). destruct (update_first n f g l). now constructor.
  Qed.
  Lemma entry_complete p qs q : Forall entry_good (pq q) -> Forall entry_good (pq (fst (pend_complete p qs q))).
  Proof.
    intros H. unfold pend_complete. pose proof (entry_update (current_inflight q)
      (fun s => match qs with L0 => false | L1 => is_new p s | L2 => is_rec p s end) (fun _ => PDone) (pq q) H (fun _ => I)) as K.
    destruct (update_first _ _ _ (pq q)). exact K.
  Qed.
  Lemma entry_ack k now p q : Forall entry_good (pq q) -> Forall entry_good (pq (fst (ack_queue k now p q))).
  Proof.
    intros H. destruct k; cbn [ack_queue]; try now apply entry_complete.
    unfold pend_pubrec. pose proof (entry_update (current_inflight q) (is_new p) (fun _ => PRec now p) (pq q) H (fun _ => I)) as K.
    destruct (update_first _ _ _ (pq q)). exact K.
  Qed.
  Lemma entry_completes e : forall q, Forall entry_good (pq q) ->
    Forall entry_good (pq (fold_left (fun q p => fst (pend_complete p L1 q)) e q)).
  Proof. induction e as [|p e IH]; intros q H; cbn [fold_left]; auto. apply IH, entry_complete, H. Qed.

  Lemma reads_expired maxima amax known now l : client_reads maxima amax known (map (EExpired now) l) = [].
  Proof. induction l; cbn; auto. Qed.

  (** One operation: the client reads what it adds to the log correctly. *)
  Lemma step_read o op o' evs known maxima :
    client_ok (o5_amax o) known (o5_al o) -> Forall entry_good (pq (o5_q o)) -> In op ops -> plain_topic op ->
    (match op with O5Resume _ a => exists ms, maxima = a :: ms | _ => True end) ->
    step5 o op = (o', evs) ->
    Forall entry_good (pq (o5_q o')) /\
    exists known', (forall rest, client_reads maxima (o5_amax o) known (evs ++ rest) =
        client_reads maxima (o5_amax o) known evs ++
        client_reads (match op with O5Resume _ _ => tl maxima | _ => maxima end) (o5_amax o') known' rest) /\
      Forall good_read (client_reads maxima (o5_amax o) known evs) /\ client_ok (o5_amax o') known' (o5_al o').
  Proof.
    intros HC HG Hin Hp Hm. destruct op as [now x|now topic retain payload props|now|k now p|rm amax]; cbn [step5].
    - destruct (out5_push now x o) as [o1 full] eqn:E. intros [= <- <-]. unfold out5_push, push_back in E.
      assert (Ha : o5_amax o1 = o5_amax o /\ o5_al o1 = o5_al o).
      { destruct (_ <=? _) in E; injection E as <- <-; cbn; auto. }
      destruct Ha as [-> ->]. split.
      + destruct (_ <=? _) in E; injection E as <- <-; cbn.
        * now apply entry_drop.
        * apply Forall_app. split; [now apply entry_drop|]. constructor; [|constructor]. split; [eauto|exact Hp].
      + exists known. destruct full; cbn; (split; [reflexivity|]; split; [constructor|exact HC]).
    - unfold out5_qos0. destruct (apply_alias (o5_amax o) topic props (o5_al o)) as [[al2 topic2] props2] eqn:E.
      intros [= <- <-]. cbn [o5_q o5_amax o5_al]. split; [exact HG|]. destruct Hp as [Ht Hp].
      destruct (apply_alias_read _ _ _ _ _ _ _ known false Q0 retain payload HC Ht Hp E) as (P1 & P2 & known' & R & HC').
      exists known'. cbn [app client_reads]. rewrite R. split; [reflexivity|]. split; [|exact HC'].
      repeat constructor. exists topic. split; [reflexivity|]. apply Exists_exists. eexists. split; [exact Hin|]. cbn. auto 10.
    - unfold handle_pendings5. rewrite (pend_loop_pass _ now (pq_timeout (clean_complete (o5_q o))) _ _ eq_refl).
      destruct (pass _ now _ _ _ (o5_al o)) as [[[l' al'] outs] exps] eqn:Ep. intros [= <- <-]. cbn [o5_q o5_amax o5_al].
      destruct (pass_read now (o5_amax o) _ maxima _ _ _ known _ _ _ _ HC (entry_drop _ HG) Ep) as (G & k & A & F & C).
      split.
      + assert (K : Forall entry_good (pq (fold_left (fun q p => fst (pend_complete p L1 q)) exps (pq_set (clean_complete (o5_q o)) l'))))
          by (apply entry_completes; exact G).
        destruct (is_nil exps); [exact K|]. cbn. now apply entry_drop.
      + exists k. set (gu := given_up _ _). clearbody gu. split; [|split; [|exact C]].
        * intros rest. rewrite <- app_assoc, !A.
          assert (B : forall ka, client_reads maxima (o5_amax o) ka (map (EExpired now) gu ++ rest) = client_reads maxima (o5_amax o) ka rest)
            by (intros ka; clear; induction gu; cbn; auto).
          now rewrite B, reads_expired, app_nil_r.
        * rewrite A, reads_expired, app_nil_r. exact F.
    - unfold out5_on_queue. pose proof (entry_ack k now p _ HG) as K. destruct (ack_queue k now p (o5_q o)) as [q b].
      intros [= <- <-]. split; [exact K|]. exists known. cbn. split; [reflexivity|]. split; [constructor|exact HC].
    - intros [= <- <-]. cbn [out5_resume o5_q o5_amax o5_al]. split.
      + cbn. clear -HG. induction HG as [|s l H HF IH]; cbn; constructor; auto. destruct s; exact H.
      + destruct Hm as [ms ->]. exists []. cbn [app client_reads tl]. split; [reflexivity|]. split; [constructor|].
        split; [apply al_inv_empty|]. intros a. reflexivity.
  Qed.

  Lemma evs_read : forall rest o known, incl rest ops -> Forall plain_topic rest ->
    client_ok (o5_amax o) known (o5_al o) -> Forall entry_good (pq (o5_q o)) ->
    Forall good_read (client_reads (tl (alias_maxima 0 rest)) (o5_amax o) known (evs5 o rest)).
  Proof.
    induction rest as [|op rest IH]; intros o known Hi Hp HC HG; cbn [evs5]; [constructor|].
    destruct (step5 o op) as [o' e] eqn:E. inversion Hp; subst.
    destruct (step_read o op o' e known (tl (alias_maxima 0 (op :: rest))) HC HG) as (G & k & A & F & C); auto.
    { apply Hi. now left. }
    { destruct op; auto. cbn. eauto. }
    rewrite A. apply Forall_app. split; [exact F|].
    replace (match op with O5Resume _ _ => _ | _ => _ end) with (tl (alias_maxima 0 rest)) by (destruct op; reflexivity).
    apply IH; auto. intros x Hx. apply Hi. now right.
  Qed.
End Run.

Lemma c16 rm max timeout amax ops : Forall plain_topic ops ->
  forall w r, In (w, r) (client_reads (alias_maxima amax ops) 0 [] (snd (run5 rm max timeout amax ops))) ->
  exists topic, r = Some topic /\ Exists (copy_of topic w) ops.
Proof.
  intros Hp w r. rewrite run5_snd. unfold alias_maxima at 1. cbn [client_reads].
  pose proof (evs_read ops ops (out5_new rm max timeout amax) [] (incl_refl _) Hp) as H. cbn [out5_new o5_amax o5_al o5_q pq] in H.
  specialize (H (conj (al_inv_empty _) (fun a => eq_refl)) (Forall_nil _)). rewrite Forall_forall in H.
  intros Hin. destruct (H (w, r) Hin) as (t & E & O).
  now exists t.
Qed.
