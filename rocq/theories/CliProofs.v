(** Proofs for CliProps. *)
From Coq Require Import List Bool Arith NArith Lia.
From Verif Require Import Base BaseLemmas MsgModel PendingModel OutModel OutSpec OutProofs OutInv OutLemmas OutFacts CliSpec.
Import ListNotations.
Local Open Scope N_scope.
Local Open Scope list_scope.

Section Client.
  Context {M W : Type}.
  Variable wqp : W -> qospid.
  Variable wdup : W -> bool.
  Variable carries : N -> N -> M -> W -> Prop.
  Variable lifetime : M -> option N.
  Variable mqos : M -> qos.
  Hypothesis carries_qos : forall t0 t m w, carries t0 t m w -> qp_qos (wqp w) = mqos m.
  Variable timeout : N.
  Variable p : pid.
  Let wpid (w : W) := qp_pid (wqp w).
  Local Notation lstep := (lstep wpid wdup carries lifetime timeout p).
  Local Notation life := (life wpid wdup carries lifetime timeout p).
  Local Notation heard := (@heard M W wqp).
  Local Notation met := (@met M W wqp).
  Local Notation got := (got wqp p).
  Local Notation names := (names wqp p).
  Local Notation receive := (receive wqp).

  Lemma met_app c a b c2 : met c (a ++ b) c2 -> exists c1, met c a c1 /\ met c1 b c2.
  Proof.
    intros H. remember (a ++ b) as l eqn:E. revert a b E.
    induction H as [c|c log c1 e c2 H IH Hd|c log c1 s rest H IH Hd]; intros a b E.
    - symmetry in E. apply app_eq_nil in E as (-> & ->). exists c. split; constructor.
    - destruct b as [|x b] using rev_ind.
      + rewrite app_nil_r in E. subst a. exists c2. split; [econstructor; eauto|constructor].
      + clear IHb. rewrite app_assoc in E. apply app_inj_tail in E as (-> & ->).
        destruct (IH a b eq_refl) as (c3 & H1 & H2). exists c3. split; [exact H1|econstructor; eauto].
    - destruct (IH a b E) as (c3 & H1 & H2). exists c3. split; [exact H1|econstructor; eauto].
  Qed.

  Definition is_pub (s : sent W) : Prop := match s with SPub w => wpid w = Some p | _ => False end.
  Definition is_rel (s : sent W) : Prop := s = SRel p.
  Definition pubs_first (l : list (sent W)) : Prop := forall a b, l = a ++ SRel p :: b -> forall s, In s b -> ~ is_pub s.
  Definition stored (c : client W) : Prop := In p (c_stored c).
  Definition still (c : client W) : Prop := (forall s, In s (c_down c) -> ~ names s) /\ (forall a, In a (c_up c) -> snd a <> p).

  Lemma quiet_still c : quiet wqp p c <-> still c.
  Proof. unfold quiet, still. rewrite !Forall_forall. reflexivity. Qed.

  (** What holds between the server's state of identifier [p], the client, and what the application
      got ([d]) of the message last queued under [p] (its transmissions satisfy [X]; [two]: QoS 2). *)
  Definition Now (clean : Prop) (X : W -> Prop) (two : bool) (st : lstate M) (c : client W) (d : list W) (og : list pid) : Prop :=
    match st with
    | Idle => (two = true -> forall s, In s (c_down c) -> ~ is_pub s) /\ (clean -> ~ stored c)
    | Waiting t0 m => still c /\ d = [] /\ (clean -> ~ stored c) /\
        (forall w t, wpid w = Some p -> carries t0 t m w -> X w)
    | InFlight t0 m l =>
        (forall s, In s (c_down c) -> ~ is_rel s) /\
        (forall w t, wpid w = Some p -> carries t0 t m w -> X w) /\
        match l with None => still c | Some _ => In p og end /\
        if two then
          (forall k, In (k, p) (c_up c) -> k = AckPubrec /\ stored c) /\
          (d <> [] -> stored c) /\ (clean -> stored c -> d <> [])
        else
          (forall k, In (k, p) (c_up c) -> k = AckPuback /\ d <> []) /\ (clean -> ~ stored c)
    | Released l => two = true /\ (clean -> d <> []) /\ pubs_first (c_down c) /\
        (~ stored c -> forall s, In s (c_down c) -> ~ is_pub s) /\
        (forall k, In (k, p) (c_up c) -> k = AckPubrec \/ k = AckPubcomp /\ ~ stored c)
    end.
  Definition Inv (clean : Prop) (X : W -> Prop) (two : bool) st c d og : Prop :=
    (forall w, X w -> wqp w = if two then Q2 p else Q1 p) /\
    (forall w, In (SPub w) (c_down c) -> wpid w = Some p -> X w) /\ Forall X d /\
    (two = true -> (List.length d <= 1)%nat) /\ Now clean X two st c d og.

  Lemma existsb_stored (c : client W) q : existsb (N.eqb q) (c_stored c) = true <-> In q (c_stored c).
  Proof. rewrite existsb_exists. split; [intros (x & H & E); apply N.eqb_eq in E; now subst|intros H; exists q; split; [exact H|apply N.eqb_refl]]. Qed.
  Lemma filter_other (q : pid) l : In q (filter (fun x => negb (x =? p)) l) <-> In q l /\ q <> p.
  Proof. rewrite filter_In, negb_true_iff, N.eqb_neq. reflexivity. Qed.
  Lemma filter_other' (q r : pid) l : In q (filter (fun x => negb (x =? r)) l) <-> In q l /\ q <> r.
  Proof. rewrite filter_In, negb_true_iff, N.eqb_neq. reflexivity. Qed.
  Lemma got_app c w dn up stn : got (Client dn up stn (c_app c ++ [w])) =
    got c ++ (match wpid w with Some q => if q =? p then [w] else [] | None => [] end).
  Proof. unfold got, CliSpec.got. cbn [c_app]. rewrite filter_app. cbn. unfold wpid. destruct (qp_pid (wqp w)) as [q|]; [destruct (q =? p)|]; reflexivity. Qed.
  Lemma pubs_first_tl s l : pubs_first (s :: l) -> pubs_first l.
  Proof. intros H a b E. apply (H (s :: a) b). now rewrite E. Qed.

  (** A packet about something else. *)
  Lemma receive_other s c rest : c_down c = s :: rest -> ~ names s ->
    let c' := receive c s rest in
    got c' = got c /\ (stored c' <-> stored c) /\ (forall k, In (k, p) (c_up c') <-> In (k, p) (c_up c)) /\ c_down c' = rest.
  Proof.
    intros E Hn. destruct s as [w|q]; cbn [CliSpec.names] in Hn; cbn [CliSpec.receive].
    - destruct (wqp w) as [|q|q] eqn:Q; cbn [qp_pid] in Hn.
      + cbn zeta. rewrite got_app. unfold wpid. rewrite Q. cbn. rewrite app_nil_r. repeat split; auto.
      + cbn zeta. rewrite got_app. unfold wpid. rewrite Q. cbn [qp_pid]. destruct (N.eqb_spec q p) as [->|N]; [contradiction Hn; reflexivity|].
        rewrite app_nil_r. cbn [c_down c_up c_stored]. repeat split; auto; intros H; rewrite ?in_app_iff in *.
        * destruct H as [H|[H|[]]]; [exact H|]. congruence.
        * now left.
      + cbn zeta. assert (N : q <> p) by (intros ->; contradiction Hn; reflexivity).
        destruct (existsb _ _).
        * repeat split; auto; cbn [c_down c_up c_stored]; intros H; rewrite ?in_app_iff in *; [destruct H as [H|[H|[]]]; [exact H|congruence]|now left].
        * rewrite got_app. unfold wpid. rewrite Q. cbn [qp_pid]. destruct (N.eqb_spec q p) as [|_]; [contradiction|]. rewrite app_nil_r.
          unfold stored. cbn [c_down c_up c_stored]. repeat split; auto; intros H; rewrite ?in_app_iff in *.
          -- destruct H as [H|H]; [contradiction|exact H].
          -- now right.
          -- destruct H as [H|[H|[]]]; [exact H|congruence].
          -- now left.
    - cbn zeta. unfold stored, got, CliSpec.got. cbn [c_down c_up c_stored c_app]. split; [reflexivity|]. split; [|split; [|reflexivity]].
      + rewrite filter_other'. split; [tauto|]. intros H. split; [exact H|]. intros ->. now apply Hn.
      + intros k. rewrite in_app_iff. split; [|auto]. intros [H|[H|[]]]; [exact H|]. injection H as _ ->. now contradiction Hn.
  Qed.

  Lemma is_names s : is_pub s -> names s.
  Proof. destruct s; cbn; [auto|tauto]. Qed.
  Lemma rel_names s : is_rel s -> names s.
  Proof. intros ->. reflexivity. Qed.
  Lemma names_cases s : names s -> is_pub s \/ is_rel s.
  Proof. destruct s as [w|q]; cbn; [auto|]. intros ->. now right. Qed.
  Lemma names_dec s : names s \/ ~ names s.
  Proof.
    destruct s as [w|q]; cbn.
    - destruct (qp_pid (wqp w)) as [q|]; [|right; discriminate]. destruct (N.eq_dec q p) as [->|N]; [now left|right; congruence].
    - destruct (N.eq_dec q p); auto.
  Qed.

  Lemma inv_receive clean X two st c d og s rest : Inv clean X two st c d og -> c_down c = s :: rest ->
    exists e, got (receive c s rest) = got c ++ e /\ Inv clean X two st (receive c s rest) (d ++ e) og.
  Proof.
    intros (HX & HD & Hd & H2 & HN) E. destruct (names_dec s) as [Hs|Hs].
    2:{ destruct (receive_other s c rest E Hs) as (G & S & U & D). cbn zeta in *. exists []. rewrite !app_nil_r. split; [exact G|].
        split; [exact HX|]. rewrite D. split; [intros w I; apply HD; rewrite E; now right|]. split; [exact Hd|]. split; [exact H2|].
        assert (I : forall x, In x rest -> In x (c_down c)) by (intros x; rewrite E; now right).
        unfold Now in *. destruct st as [|t0 m|t0 m l|l].
        - destruct HN as (A & B). rewrite D, S. auto.
        - destruct HN as ((A1 & A2) & B & C & F). split.
          + split; rewrite ?D; [auto|]. intros (k & q) J. cbn. intros ->. apply U in J. exact (A2 _ J eq_refl).
          + rewrite S. auto.
        - destruct HN as (A & B & C & F). rewrite D. split; [auto|]. split; [exact B|]. split.
          + destruct l; [exact C|]. destruct C as (C1 & C2). split; rewrite ?D; [auto|].
            intros (k & q) J. cbn. intros ->. apply U in J. exact (C2 _ J eq_refl).
          + destruct two.
            * destruct F as (F1 & F2 & F3). split; [intros k J; apply U in J; rewrite S; auto|]. rewrite !S. auto.
            * destruct F as (F1 & F2). rewrite S. split; [|auto]. intros k J. apply U in J. auto.
        - destruct HN as (A & B & C & F & K). rewrite D, !S. split; [exact A|]. split; [exact B|].
          split; [apply pubs_first_tl with (s := s); now rewrite <- E|]. split; [auto|]. intros k J. rewrite S. apply U in J. auto. }
    assert (I : forall x, In x rest -> In x (c_down c)) by (intros x; rewrite E; now right).
    assert (Is : In s (c_down c)) by (rewrite E; now left).
    apply names_cases in Hs as [Hs|Hs].
    - destruct s as [w|]; [|destruct Hs]. cbn in Hs. assert (Xw := HD w Is Hs). assert (Qw := HX w Xw).
      cbn [CliSpec.receive]. rewrite Qw. destruct two.
      + (* QoS 2 *)
        destruct (existsb (N.eqb p) (c_stored c)) eqn:ES.
        * apply existsb_stored in ES. exists []. rewrite !app_nil_r. split; [reflexivity|].
          split; [exact HX|]. split; [cbn [c_down]; auto|]. split; [exact Hd|]. split; [exact H2|].
          unfold Now in *. destruct st as [|t0 m|t0 m l|l]; unfold stored in *; cbn [c_down c_up c_stored].
          -- destruct HN as (A & B). destruct (A eq_refl _ Is Hs).
          -- destruct HN as ((A & _) & _). destruct (A _ Is Hs).
          -- destruct HN as (A & B & C & F1 & F2 & F3). split; [auto|]. split; [exact B|]. split.
             { destruct l; [exact C|]. destruct C as (C1 & _). destruct (C1 _ Is Hs). }
             split; [|auto]. intros k J. apply in_app_iff in J as [J|[J|[]]]; [auto|]. injection J as <-. auto.
          -- destruct HN as (A & B & C & F & K). split; [exact A|]. split; [exact B|]. split; [apply pubs_first_tl with (s := SPub w); now rewrite <- E|].
             split; [auto|]. intros k J. apply in_app_iff in J as [J|[J|[]]]; [auto|]. injection J as <-. auto.
        * assert (NS : ~ stored c) by (unfold stored; intros H; apply existsb_stored in H; congruence).
          exists [w]. rewrite got_app. unfold wpid in Hs |- *. rewrite Hs, N.eqb_refl. split; [reflexivity|].
          unfold Now in HN. destruct st as [|t0 m|t0 m l|l].
          -- destruct HN as (A & B). destruct (A eq_refl _ Is Hs).
          -- destruct HN as ((A & _) & _). destruct (A _ Is Hs).
          -- destruct HN as (A & B & C & F1 & F2 & F3).
             assert (d = []) as -> by (destruct d; [reflexivity|]; contradiction NS; apply F2; discriminate).
             cbn [app]. split; [exact HX|]. split; [cbn [c_down]; auto|]. split; [constructor; [exact Xw|constructor]|]. split; [cbn; lia|].
             unfold Now. split; [cbn [c_down]; auto|]. split; [exact B|]. split.
             { destruct l; [exact C|]. destruct C as (C1 & _). destruct (C1 _ Is Hs). }
             unfold stored. cbn [c_down c_up c_stored]. split; [|split; [intros _; now left|intros _ _; discriminate]].
             intros k J. apply in_app_iff in J as [J|[J|[]]]; [split; [now apply F1|now left]|]. injection J as <-. split; [reflexivity|now left].
          -- destruct HN as (A & B & C & F & K). destruct (F NS _ Is Hs).
      + (* QoS 1 *)
        exists [w]. rewrite got_app. unfold wpid in Hs |- *. rewrite Hs, N.eqb_refl. split; [reflexivity|].
        split; [exact HX|]. split; [cbn [c_down]; auto|]. split; [apply Forall_app; split; [exact Hd|constructor; [exact Xw|constructor]]|]. split; [discriminate|].
        assert (ND : d ++ [w] <> []) by (destruct d; discriminate).
        unfold Now in *. destruct st as [|t0 m|t0 m l|l]; unfold stored in *; cbn [c_down c_up c_stored].
        * destruct HN as (A & B). split; [discriminate|exact B].
        * destruct HN as ((A & _) & _). destruct (A _ Is Hs).
        * destruct HN as (A & B & C & F1 & F2). split; [auto|]. split; [exact B|]. split.
          { destruct l; [exact C|]. destruct C as (C1 & _). destruct (C1 _ Is Hs). }
          split; [|exact F2]. intros k J. apply in_app_iff in J as [J|[J|[]]]; [split; [now apply F1|exact ND]|]. injection J as <-. auto.
        * destruct HN as (A & _). discriminate.
    - cbn in Hs. unfold is_rel in Hs. subst s. cbn [CliSpec.receive]. exists []. rewrite !app_nil_r. split; [reflexivity|].
      split; [exact HX|]. split; [cbn [c_down]; auto|]. split; [exact Hd|]. split; [exact H2|].
      assert (NS : forall dn up ap, ~ stored (Client dn up (filter (fun q => negb (q =? p)) (c_stored c)) ap : client W))
        by (intros dn up ap H; unfold stored in H; cbn in H; apply filter_other in H; tauto).
      unfold Now in *. destruct st as [|t0 m|t0 m l|l].
      + destruct HN as (A & B). split; [intros T x J; exact (A T x (I x J))|]. intros _. apply NS.
      + destruct HN as ((A & _) & _). contradiction (A _ Is). reflexivity.
      + destruct HN as (A & _). contradiction (A _ Is). reflexivity.
      + destruct HN as (A & B & C & F & K). split; [exact A|]. split; [exact B|]. cbn [c_down].
        split; [apply pubs_first_tl with (s := SRel p); now rewrite <- E|].
        split; [intros _ x J; exact (C [] rest E x J)|].
        intros k J. cbn [c_up] in J. apply in_app_iff in J as [J|[J|[]]].
        * destruct (K k J) as [->|(-> & _)]; [now left|]. right. split; [reflexivity|apply NS].
        * injection J as <-. right. split; [reflexivity|apply NS].
  Qed.

  Lemma pubs_first_rel l : pubs_first l -> pubs_first (l ++ [SRel p]).
  Proof.
    intros H a b E s Hs. destruct b as [|y b] using rev_ind; [destruct Hs|]. clear IHb.
    rewrite app_comm_cons, app_assoc in E. apply app_inj_tail in E as (E & <-).
    apply in_app_iff in Hs as [Hs|[<-|[]]]; [exact (H a b E s Hs)|]. intros [].
  Qed.
  Lemma no_rel_first l : (forall s, In s l -> ~ is_rel s) -> pubs_first l.
  Proof. intros H a b E. exfalso. apply (H (SRel p)); [rewrite E; apply in_elt|reflexivity]. Qed.
  Lemma pubs_first_other l x : pubs_first l -> (forall s, In s x -> ~ names s) -> pubs_first (l ++ x).
  Proof.
    revert l. induction x as [|y x IH]; intros l H Hx; [now rewrite app_nil_r|].
    change (y :: x) with ([y] ++ x). rewrite app_assoc. apply IH; [|intros s Hs; apply Hx; now right].
    intros a b E s Hs. destruct b as [|z b] using rev_ind; [destruct Hs|]. clear IHb.
    rewrite app_comm_cons, app_assoc in E. apply app_inj_tail in E as (E & <-).
    apply in_app_iff in Hs as [Hs|[<-|[]]]; [exact (H a b E s Hs)|]. intros J. apply is_names in J. exact (Hx y (or_introl eq_refl) J).
  Qed.

  (** Whatever is about another identifier changes nothing. *)
  Lemma inv_frame clean X two st c c' d og og' x : Inv clean X two st c d og -> c_stored c' = c_stored c ->
    c_down c' = c_down c ++ x -> (forall s, In s x -> ~ names s) -> (forall k, In (k, p) (c_up c') -> In (k, p) (c_up c)) ->
    (In p og -> In p og') -> Inv clean X two st c' d og'.
  Proof.
    intros (HX & HD & Hd & H2 & HN) ES ED Hx HU HO. split; [exact HX|]. split.
    { intros w J Hw. rewrite ED in J. apply in_app_iff in J as [J|J]; [auto|]. contradiction (Hx _ J). }
    split; [exact Hd|]. split; [exact H2|].
    assert (P : (forall s, In s (c_down c) -> ~ is_pub s) -> forall s, In s (c_down c') -> ~ is_pub s).
    { intros H s J. rewrite ED in J. apply in_app_iff in J as [J|J]; [auto|]. intros K. apply is_names in K. exact (Hx _ J K). }
    assert (R : (forall s, In s (c_down c) -> ~ is_rel s) -> forall s, In s (c_down c') -> ~ is_rel s).
    { intros H s J. rewrite ED in J. apply in_app_iff in J as [J|J]; [auto|]. intros K. apply rel_names in K. exact (Hx _ J K). }
    assert (Q : still c -> still c').
    { intros (A & B). split.
      - intros s J. rewrite ED in J. apply in_app_iff in J as [J|J]; auto.
      - intros (k & q) J. cbn. intros ->. exact (B _ (HU k J) eq_refl). }
    assert (S : stored c' <-> stored c) by (unfold stored; now rewrite ES).
    unfold Now in *. destruct st as [|t0 m|t0 m l|l].
    - destruct HN as (A & B). split; [auto|]. rewrite S. exact B.
    - destruct HN as (A & B & C & F). rewrite S. auto.
    - destruct HN as (A & B & C & F). split; [auto|]. split; [exact B|]. split; [destruct l; auto|].
      destruct two.
      + destruct F as (F1 & F2 & F3). rewrite !S. split; [intros k J; rewrite S; auto|auto].
      + destruct F as (F1 & F2). rewrite S. split; [intros k J; auto|auto].
    - destruct HN as (A & B & C & F & K). rewrite !S. split; [exact A|]. split; [exact B|].
      split; [rewrite ED; now apply pubs_first_other|]. split; [auto|]. intros k J. rewrite S. auto.
  Qed.

  Lemma add_pid_in q l : In q (add_pid q l).
  Proof. unfold add_pid. destruct (existsb (N.eqb q) l) eqn:E; [|now left]. apply existsb_exists in E as (x & H & E). apply N.eqb_eq in E. now subst. Qed.
  Lemma add_pid_incl q r l : In r l -> In r (add_pid q l).
  Proof. unfold add_pid. destruct (existsb (N.eqb q) l); [auto|now right]. Qed.

  Definition taken_here (st : lstate M) (og : list pid) (e : oev M W) : Prop :=
    forall k t ok, e = EAcked k t p ok -> In p og ->
      match k with AckPuback | AckPubrec => exists t0 m l, st = InFlight t0 m l | AckPubcomp => exists l, st = Released l end -> ok = true.
  Definition clean_here (clean : Prop) (st : lstate M) (e : oev M W) : Prop :=
    forall t, e = EExpired t p -> clean -> exists t0 m, st = Waiting t0 m.

  Lemma inv_sent X two clean c d og t0 m l t w :
    Inv clean X two (InFlight t0 m l) c d og \/ Inv clean X two (Waiting t0 m) c d og ->
    wpid w = Some p -> carries t0 t m w ->
    Inv clean X two (InFlight t0 m (Some t)) (Client (c_down c ++ [SPub w]) (c_up c) (c_stored c) (c_app c)) d (add_pid p og).
  Proof.
    intros H Hw HC.
    assert (G : (forall w, X w -> wqp w = if two then Q2 p else Q1 p) /\ (forall w, In (SPub w) (c_down c) -> wpid w = Some p -> X w) /\ Forall X d /\
       (two = true -> (List.length d <= 1)%nat) /\ (forall s, In s (c_down c) -> ~ is_rel s) /\ (forall w t, wpid w = Some p -> carries t0 t m w -> X w) /\
       if two then (forall k, In (k, p) (c_up c) -> k = AckPubrec /\ stored c) /\ (d <> [] -> stored c) /\ (clean -> stored c -> d <> [])
       else (forall k, In (k, p) (c_up c) -> k = AckPuback /\ d <> []) /\ (clean -> ~ stored c)).
    { destruct H as [(HX & HD & Hd & H2 & A & B & _ & F)|(HX & HD & Hd & H2 & (A1 & A2) & B & C & F)].
      - auto 10.
      - split; [exact HX|]. split; [exact HD|]. split; [exact Hd|]. split; [exact H2|].
        split; [intros s J K; apply rel_names in K; exact (A1 s J K)|]. split; [exact F|]. subst d. destruct two.
        + split; [intros k J; contradiction (A2 _ J eq_refl)|]. split; [intros K; contradiction|]. intros K1 K2. contradiction (C K1).
        + split; [intros k J; contradiction (A2 _ J eq_refl)|]. exact C. }
    destruct G as (HX & HD & Hd & H2 & A & B & F). split; [exact HX|]. cbn [c_down]. split.
    { intros w' J Hw'. apply in_app_iff in J as [J|[J|[]]]; [auto|]. injection J as <-. exact (B w t Hw HC). }
    split; [exact Hd|]. split; [exact H2|]. unfold Now. cbn [c_down c_up]. unfold stored in *. cbn [c_stored].
    split. { intros s J. apply in_app_iff in J as [J|[<-|[]]]; [auto|]. unfold is_rel. discriminate. }
    split; [exact B|]. split; [apply add_pid_in|exact F].
  Qed.

  Lemma inv_event clean X two st c d og e c' st' : Inv clean X two st c d og -> heard c e c' -> lstep st e st' ->
    (forall t m, e <> EQueued t p m) -> taken_here st og e -> clean_here clean st e ->
    Inv clean X two st' c' d (outstanding_step wpid og e).
  Proof.
    intros HI HH HL HQ HT HC. destruct HL as [st e Ha Hc|rm|rm t0 m|rm t0 m l|rm l|t m|t0 t m w Hw Hd Hc He|t0 t m w Hw Hd Hc He|t0 t1 t m w Hw Hd Hc He|
      t|t1 t Ht|st k t|t0 m l t|t0 m t|t0 m l t|t0 m t|l t|t0 t m He|t0 t m He].
    - (* another identifier *)
      destruct HH as [c rm|c t q m Hq|c t q m|c t s|c k t q ok up Eu|c t q].
      + contradiction (Hc rm). reflexivity.
      + apply inv_frame with (c := c) (og := og) (x := []); auto; try (now rewrite app_nil_r).
      + apply inv_frame with (c := c) (og := og) (x := []); auto; try (now rewrite app_nil_r).
      + apply inv_frame with (c := c) (og := og) (x := [s]); auto.
        * intros s' [<-|[]] K. apply Ha. destruct s as [w|q]; cbn in *; [exact K|congruence].
        * destruct s as [w|q]; cbn; [|apply add_pid_incl]. destruct (wpid w); [apply add_pid_incl|auto].
      + assert (Nq : q <> p) by (intros ->; apply Ha; reflexivity).
        apply inv_frame with (c := c) (og := og) (x := match k with AckPubrec => [SRel q] | _ => [] end); auto.
        * destruct k; [intros s []| |intros s []]. intros s [<-|[]]. exact Nq.
        * intros k' J. cbn in J. rewrite Eu. now right.
        * cbn. destruct k; auto; intros J; apply filter_other'; auto.
      + apply inv_frame with (c := c) (og := og) (x := []); auto; try (now rewrite app_nil_r).
    - inversion HH; subst. destruct HI as (HX & HD & Hd & H2 & A & B). split; [exact HX|]. split; [intros w []|]. split; [exact Hd|]. split; [exact H2|]. split; [intros _ s []|exact B].
    - inversion HH; subst. destruct HI as (HX & HD & Hd & H2 & A & B & C & F). split; [exact HX|]. split; [intros w []|]. split; [exact Hd|]. split; [exact H2|].
      split; [split; intros ? []|auto].
    - inversion HH; subst. destruct HI as (HX & HD & Hd & H2 & A & B & C & F). split; [exact HX|]. split; [intros w []|]. split; [exact Hd|]. split; [exact H2|].
      split; [intros ? []|]. split; [exact B|]. split; [split; intros ? []|]. destruct two.
      + destruct F as (F1 & F2 & F3). split; [intros ? []|auto].
      + destruct F as (F1 & F2). split; [intros ? []|auto].
    - inversion HH; subst. destruct HI as (HX & HD & Hd & H2 & A & B & C & F & K). split; [exact HX|]. split; [intros w []|]. split; [exact Hd|]. split; [exact H2|].
      split; [exact A|]. split; [exact B|]. split; [intros a b E; destruct a; discriminate|]. split; [intros _ ? []|intros ? []].
    - contradiction (HQ t m). reflexivity.
    - inversion HH; subst. cbn [outstanding_step]. rewrite Hw. exact (inv_sent X two clean c d og t0 m None t w (or_intror HI) Hw Hc).
    - inversion HH; subst. cbn [outstanding_step]. rewrite Hw. exact (inv_sent X two clean c d og t0 m None t w (or_introl HI) Hw Hc).
    - inversion HH; subst. cbn [outstanding_step]. rewrite Hw. exact (inv_sent X two clean c d og t0 m (Some t1) t w (or_introl HI) Hw Hc).
    - inversion HH; subst. destruct HI as (HX & HD & Hd & H2 & A & B & C & F & K). split; [exact HX|]. cbn [c_down c_up].
      split; [intros w J; apply in_app_iff in J as [J|[J|[]]]; [auto|discriminate]|]. split; [exact Hd|]. split; [exact H2|].
      split; [exact A|]. split; [exact B|]. cbn [c_down c_up]. split; [now apply pubs_first_rel|]. split; [|exact K].
      intros NS s J. apply in_app_iff in J as [J|[<-|[]]]; [exact (F NS s J)|intros []].
    - inversion HH; subst. destruct HI as (HX & HD & Hd & H2 & A & B & C & F & K). split; [exact HX|]. cbn [c_down c_up].
      split; [intros w J; apply in_app_iff in J as [J|[J|[]]]; [auto|discriminate]|]. split; [exact Hd|]. split; [exact H2|].
      split; [exact A|]. split; [exact B|]. cbn [c_down c_up]. split; [now apply pubs_first_rel|]. split; [|exact K].
      intros NS s J. apply in_app_iff in J as [J|[<-|[]]]; [exact (F NS s J)|intros []].
    - (* refused *)
      inversion HH as [| | | |c0 k0 t0 q ok up Eu|]; subst. assert (I : In (k, p) (c_up c)) by (rewrite Eu; now left).
      assert (IU : forall k', In (k', p) up -> In (k', p) (c_up c)) by (intros k'; rewrite Eu; now right).
      destruct HI as (HX & HD & Hd & H2 & HN). split; [exact HX|]. cbn [c_down c_up].
      split. { intros w J. apply in_app_iff in J as [J|J]; [auto|]. destruct k; try contradiction J. destruct J as [J|[]]. discriminate. }
      split; [exact Hd|]. split; [exact H2|].
      assert (P : (forall s, In s (c_down c) -> ~ is_pub s) -> forall s, In s (c_down c ++ match k with AckPubrec => [SRel p] | _ => [] end) -> ~ is_pub s).
      { intros H s J. apply in_app_iff in J as [J|J]; [auto|]. destruct k; try contradiction J. destruct J as [<-|[]]. intros []. }
      unfold Now in *. unfold stored in *. cbn [c_down c_up c_stored]. destruct st as [|t0 m|t0 m l|l].
      + destruct HN as (A & B). auto.
      + destruct HN as ((_ & A) & _). contradiction (A _ I eq_refl).
      + destruct HN as (A & B & C & F). exfalso. destruct l as [l|]; [|destruct C as (_ & C); exact (C _ I eq_refl)].
        assert (false = true); [|discriminate]. apply (HT k t false eq_refl C). destruct two.
        * destruct F as (F & _). destruct (F k I) as (-> & _). eauto.
        * destruct F as (F & _). destruct (F k I) as (-> & _). eauto.
      + destruct HN as (A & B & C & F & K). split; [exact A|]. split; [exact B|]. split.
        * destruct k; rewrite ?app_nil_r; auto. now apply pubs_first_rel.
        * split; [auto|]. intros k' J. apply K. auto.
    - (* PUBACK *)
      inversion HH as [| | | |c0 k0 t1 q ok up Eu|]; subst. assert (I : In (AckPuback, p) (c_up c)) by (rewrite Eu; now left).
      destruct HI as (HX & HD & Hd & H2 & A & B & C & F). cbn [c_down]. split; [exact HX|]. cbn [c_down]. rewrite app_nil_r. split; [exact HD|]. split; [exact Hd|]. split; [exact H2|].
      destruct two.
      + destruct F as (F & _). destruct (F _ I) as (F' & _). discriminate.
      + destruct F as (_ & F). split; [discriminate|exact F].
    - inversion HH as [| | | |c0 k0 t1 q ok up Eu|]; subst. assert (I : In (AckPuback, p) (c_up c)) by (rewrite Eu; now left).
      destruct HI as (HX & HD & Hd & H2 & (_ & A) & _). contradiction (A _ I eq_refl).
    - (* PUBREC *)
      inversion HH as [| | | |c0 k0 t1 q ok up Eu|]; subst. assert (I : In (AckPubrec, p) (c_up c)) by (rewrite Eu; now left).
      destruct HI as (HX & HD & Hd & H2 & A & B & C & F). split; [exact HX|]. cbn [c_down c_up].
      split; [intros w J; apply in_app_iff in J as [J|[J|[]]]; [auto|discriminate]|]. split; [exact Hd|]. split; [exact H2|].
      destruct two.
      + destruct F as (F1 & F2 & F3). destruct (F1 _ I) as (_ & S). split; [reflexivity|]. split; [auto|]. cbn [c_down c_up].
        split; [apply pubs_first_rel; now apply no_rel_first|]. split; [intros NS; contradiction (NS S)|].
        intros k J. left. apply (F1 k). rewrite Eu. now right.
      + destruct F as (F & _). destruct (F _ I) as (F' & _). discriminate.
    - inversion HH as [| | | |c0 k0 t1 q ok up Eu|]; subst. assert (I : In (AckPubrec, p) (c_up c)) by (rewrite Eu; now left).
      destruct HI as (HX & HD & Hd & H2 & (_ & A) & _). contradiction (A _ I eq_refl).
    - (* PUBCOMP *)
      inversion HH as [| | | |c0 k0 t1 q ok up Eu|]; subst. assert (I : In (AckPubcomp, p) (c_up c)) by (rewrite Eu; now left).
      destruct HI as (HX & HD & Hd & H2 & A & B & C & F & K). split; [exact HX|]. cbn [c_down c_up]. rewrite app_nil_r. split; [exact HD|]. split; [exact Hd|]. split; [exact H2|].
      destruct (K _ I) as [K'|(_ & NS)]; [discriminate|]. split; [intros _; exact (F NS)|intros _; exact NS].
    - inversion HH; subst. destruct HI as (HX & HD & Hd & H2 & (A & A') & B & C & F). split; [exact HX|]. split; [exact HD|]. split; [exact Hd|]. split; [exact H2|].
      split; [|exact C]. intros _ s J K. apply is_names in K. exact (A s J K).
    - inversion HH; subst. destruct HI as (HX & HD & Hd & H2 & A & B & (C & C') & F). split; [exact HX|]. split; [exact HD|]. split; [exact Hd|]. split; [exact H2|].
      split; [intros _ s J K; apply is_names in K; exact (C s J K)|]. intros K. destruct (HC _ eq_refl K) as (t1 & m1 & E). discriminate.
  Qed.

  Lemma inv_queue clean X two c d og t m : Inv clean X two Idle c d og -> quiet wqp p c ->
    Inv clean (fun w => wpid w = Some p /\ exists t', carries t t' m w) (match mqos m with L2 => true | _ => false end) (Waiting t m) c [] og.
  Proof.
    intros (HX & HD & Hd & H2 & A & B) Q. apply quiet_still in Q. split.
    { intros w (Hw & t' & HC). apply carries_qos in HC. unfold wpid in Hw. destruct (wqp w) as [|q|q]; cbn in *; [discriminate| |]; injection Hw as ->; now rewrite <- HC. }
    split; [intros w J Hw; destruct Q as (Q & _); contradiction (Q _ J)|]. split; [constructor|]. split; [cbn; lia|].
    split; [exact Q|]. split; [reflexivity|]. split; [exact B|]. intros w t' Hw HC. split; [exact Hw|eauto].
  Qed.

  (** ** Along a log *)
  Lemma life_queued log t0 m : life log (Waiting t0 m) -> exists a b, log = a ++ EQueued t0 p m :: b /\ (forall t1 m1, ~ In (EQueued t1 p m1) b).
  Proof.
    intros H. remember (Waiting t0 m) as st eqn:E. induction H as [|log st e st' H IH S]; [discriminate|].
    assert (K : st = Waiting t0 m -> (forall t1 m1, e <> EQueued t1 p m1) -> exists a b, log ++ [e] = a ++ EQueued t0 p m :: b /\ (forall t1 m1, ~ In (EQueued t1 p m1) b)).
    { intros E' N. destruct (IH E') as (a & b & -> & Hb). exists a, (b ++ [e]). split; [now rewrite <- app_assoc|].
      intros t1 m1 J. apply in_app_iff in J as [J|[J|[]]]; [exact (Hb _ _ J)|exact (N _ _ J)]. }
    destruct S; try discriminate E.
    - subst st. apply K; [reflexivity|]. intros t1 m1 ->. now apply H0.
    - injection E as -> ->. apply K; [reflexivity|discriminate].
    - injection E as -> ->. exists log, []. split; [reflexivity|intros ? ? []].
    - subst st. apply K; [reflexivity|discriminate].
  Qed.
  Lemma life_sent log t0 m l : life log (InFlight t0 m l) -> exists a b, log = a ++ EQueued t0 p m :: b /\ (forall t1 m1, ~ In (EQueued t1 p m1) b) /\
    exists t w, wpid w = Some p /\ In (ESent t (SPub w)) b.
  Proof.
    intros H. remember (InFlight t0 m l) as st eqn:E. revert l E. induction H as [|log st e st' H IH S]; [discriminate|]. intros l E.
    assert (K : forall l', st = InFlight t0 m l' -> (forall t1 m1, e <> EQueued t1 p m1) -> exists a b, log ++ [e] = a ++ EQueued t0 p m :: b /\ (forall t1 m1, ~ In (EQueued t1 p m1) b) /\
       exists t w, wpid w = Some p /\ In (ESent t (SPub w)) b).
    { intros l' E' N. destruct (IH _ E') as (a & b & -> & Hb & t & w & Hw & J). exists a, (b ++ [e]). split; [now rewrite <- app_assoc|]. split.
      - intros t1 m1 J'. apply in_app_iff in J' as [J'|[J'|[]]]; [exact (Hb _ _ J')|exact (N _ _ J')].
      - exists t, w. split; [exact Hw|]. apply in_app_iff. now left. }
    destruct S; try discriminate E.
    - subst st. apply (K l); [reflexivity|]. intros t1 m1 ->. now apply H0.
    - injection E as -> -> <-. eapply K; [reflexivity|discriminate].
    - injection E as -> -> <-. destruct (life_queued _ _ _ H) as (a & b & -> & Hb). exists a, (b ++ [ESent t (SPub w)]). split; [now rewrite <- app_assoc|]. split.
      + intros t1 m1 J'. apply in_app_iff in J' as [J'|[J'|[]]]; [exact (Hb _ _ J')|discriminate].
      + exists t, w. split; [exact H0|]. apply in_app_iff. right. now left.
    - injection E as -> -> <-. eapply K; [reflexivity|discriminate].
    - injection E as -> -> <-. eapply K; [reflexivity|discriminate].
    - subst st. apply (K l); [reflexivity|discriminate].
  Qed.

  Definition taken (log : list (oev M W)) : Prop := forall l1 k t ok l2 st, log = l1 ++ EAcked k t p ok :: l2 -> In p (outstanding wpid l1) -> life l1 st ->
    match k with AckPuback | AckPubrec => exists t0 m l, st = InFlight t0 m l | AckPubcomp => exists l, st = Released l end -> ok = true.

  Section Run.
    Variable full : list (oev M W).
    Hypothesis full_taken : taken full.
    Let clean := expired_unsent full wpid.

    Lemma here log e rest st st' : full = log ++ e :: rest -> life log st -> lstep st e st' -> taken_here st (outstanding wpid log) e /\ clean_here clean st e.
    Proof.
      intros E HL HS. split.
      - intros k t ok -> Ho Hk. exact (full_taken log k t ok rest st E Ho HL Hk).
      - intros t -> HC. inversion HS; subst; try (cbn in *; congruence); [eauto|].
        exfalso. destruct (life_sent _ _ _ _ HL) as (a & b & Eb & Hb & t' & w & Hw & J).
        apply (HC a t p (b ++ EExpired t p :: rest) t' w b rest t0 m); [|reflexivity|exact Hb|exact Hw|exact J].
        rewrite Eb, <- app_assoc. reflexivity.
    Qed.
    Lemma outstanding_snoc log e : outstanding wpid (log ++ [e] : list (oev M W)) = outstanding_step wpid (outstanding wpid log) e.
    Proof. unfold outstanding. now rewrite fold_left_app. Qed.
    Lemma life_snoc_inv log e st : life (log ++ [e]) st -> exists st0, life log st0 /\ lstep st0 e st.
    Proof. apply OutLemmas.life_snoc_inv. Qed.
    Definition is_queued (e : oev M W) : Prop := exists t m, e = EQueued t p m.
    Lemma is_queued_dec e : is_queued e \/ forall t m, e <> EQueued t p m.
    Proof. destruct e as [rm|t q m|t q m|t s|k t q ok|t q]; try (right; discriminate). destruct (N.eq_dec q p) as [->|N]; [left; repeat eexists|right; congruence]. Qed.

    Lemma pre_inv c0 log c : met c0 log c -> c0 = client_new -> forall rest st, full = log ++ rest -> life log st ->
      exists X two d, Inv clean X two st c d (outstanding wpid log).
    Proof.
      induction 1 as [c|c log c1 e c2 H IH Hd|c log c1 s rest' H IH Hd]; intros E0 rest st E HL.
      - subst c. exists (fun _ => False), true, []. assert (st = Idle) as -> by (inversion HL; [reflexivity|]; match goal with X : _ ++ [_] = [] |- _ => destruct (app_cons_not_nil _ _ _ (eq_sym X)) end).
        split; [intros w []|]. split; [intros w []|]. split; [constructor|]. split; [cbn; lia|]. split; [intros _ s []|intros _ []].
      - rewrite <- app_assoc in E. apply life_snoc_inv in HL as (s0 & HL & HS). destruct (IH E0 _ _ E HL) as (X & two & d & HI).
        destruct (here _ _ _ _ _ E HL HS) as (K1 & K2). rewrite outstanding_snoc. destruct (is_queued_dec e) as [(t & m & ->)|NQ].
        + inversion HS; subst; [cbn in *; congruence|]. inversion Hd; subst. eexists _, _, []. cbn [outstanding_step]. eapply inv_queue; eauto.
        + exists X, two, d. eapply inv_event; eauto.
      - destruct (IH E0 _ _ E HL) as (X & two & d & HI). destruct (inv_receive _ _ _ _ _ _ _ _ _ HI Hd) as (e & _ & HI'). eauto.
    Qed.
    Lemma post_inv X two log1 st1 c1 d1 post c2 : Inv clean X two st1 c1 d1 (outstanding wpid log1) -> met c1 post c2 -> (forall t m, ~ In (EQueued t p m) post) ->
      forall rest st, full = log1 ++ post ++ rest -> life log1 st1 -> life (log1 ++ post) st ->
      exists d, got c2 = got c1 ++ d /\ Inv clean X two st c2 (d1 ++ d) (outstanding wpid (log1 ++ post)).
    Proof.
      intros HI HM. revert HI. induction HM as [c|c log c1 e c2 H IH Hd|c log c1 s rest' H IH Hd]; intros HI NQ rest st E HL1 HL.
      - exists []. rewrite !app_nil_r in *. split; [reflexivity|]. rewrite (OutLemmas.life_det wpid wdup carries lifetime timeout p _ _ _ HL HL1). exact HI.
      - rewrite app_assoc in HL. apply life_snoc_inv in HL as (s0 & HL & HS). rewrite <- app_assoc in E.
        destruct (IH HI) with (rest := [e] ++ rest) (st := s0) as (d & G & HI'); auto; [intros t m J; apply (NQ t m); apply in_app_iff; now left|].
        exists d. assert (got c2 = got c1) as -> by (destruct Hd; reflexivity). split; [exact G|].
        rewrite app_assoc, outstanding_snoc. rewrite app_assoc in E.
        destruct (here _ _ _ _ _ E HL HS) as (K1 & K2). eapply inv_event; eauto.
        intros t m ->. apply (NQ t m). apply in_app_iff. right. now left.
      - destruct (IH HI NQ rest st E HL1 HL) as (d & G & HI'). destruct (inv_receive _ _ _ _ _ _ _ _ _ HI' Hd) as (e & G' & HI'').
        exists (d ++ e). rewrite G', G, !app_assoc. auto.
    Qed.

    Lemma met_trans c a c1 b c2 : met c a c1 -> met c1 b c2 -> met c (a ++ b) c2.
    Proof.
      intros H1 H2. induction H2 as [c1|c1 log c3 e c2 H IH Hd|c1 log c3 s rest H IH Hd]; [now rewrite app_nil_r| |].
      - rewrite app_assoc. econstructor; eauto.
      - econstructor; eauto.
    Qed.
    Lemma met_at c a e b c2 : met c (a ++ e :: b) c2 -> exists c3 c4, met c a c3 /\ heard c3 e c4 /\ met c3 (e :: b) c2.
    Proof.
      intros H. change (e :: b) with ([e] ++ b) in H. rewrite app_assoc in H. apply met_app in H as (c1 & H1 & H2).
      cut (exists c3 c4, met c a c3 /\ heard c3 e c4 /\ met c3 ([] ++ [e]) c1).
      { intros (c3 & c4 & A & B & C). exists c3, c4. split; [exact A|]. split; [exact B|]. change (e :: b) with (([] ++ [e]) ++ b). eapply met_trans; eauto. }
      clear b c2 H2. remember (a ++ [e]) as l eqn:E. induction H1 as [c|c log c1 e' c2 H IH Hd|c log c1 s rest H IH Hd].
      - destruct a; discriminate.
      - apply app_inj_tail in E as (-> & ->). exists c1, c2. split; [exact H|]. split; [exact Hd|]. econstructor; [constructor|exact Hd].
      - destruct (IH E) as (c3 & c4 & A & B & C). exists c3, c4. split; [exact A|]. split; [exact B|]. eapply met_receive; eauto.
    Qed.

    Lemma once pre t m post rest c1 c2 st : full = pre ++ EQueued t p m :: post ++ rest -> life full st ->
      met client_new (pre ++ [EQueued t p m]) c1 -> met c1 post c2 -> (forall t' m', ~ In (EQueued t' p m') post) ->
      exists d, got c2 = got c1 ++ d /\ Forall (fun w => exists t', carries t t' m w) d /\
        (mqos m = L2 -> (List.length d <= 1)%nat) /\
        (mqos m = L2 -> clean -> (exists t', In (EAcked AckPubcomp t' p true) post) -> d <> []) /\
        (mqos m = L1 -> (exists t', In (EAcked AckPuback t' p true) post) -> d <> []) /\
        (forall k t', In (EAcked k t' p true) post -> k <> AckPubrec -> (mqos m = L2 -> k = AckPubcomp) /\ (mqos m = L1 -> k = AckPuback)).
    Proof.
      intros E HL H1 H2 NQ.
      assert (E1 : full = (pre ++ [EQueued t p m]) ++ post ++ rest) by (rewrite E, <- app_assoc; reflexivity).
      assert (LP : forall a b, full = a ++ b -> exists s, life a s).
      { intros a b Eb. rewrite Eb in HL. clear - HL. revert st HL. induction b as [|x b IH] using rev_ind; intros st HL; [rewrite app_nil_r in HL; eauto|].
        rewrite app_assoc in HL. apply life_snoc_inv in HL as (s0 & HL & _). eauto. }
      destruct (LP _ _ E1) as (s1 & HL1). assert (HL1' := HL1). apply life_snoc_inv in HL1' as (s0 & HL0 & HS).
      (* the message is queued, and the state of the client after that *)
      assert (HI : exists c, Inv clean (fun w => wpid w = Some p /\ exists t', carries t t' m w) (match mqos m with L2 => true | _ => false end) (Waiting t m) c [] (outstanding wpid (pre ++ [EQueued t p m]))
                    /\ got c1 = got c /\ s1 = Waiting t m /\ Inv clean (fun w => wpid w = Some p /\ exists t', carries t t' m w) (match mqos m with L2 => true | _ => false end) s1 c1 [] (outstanding wpid (pre ++ [EQueued t p m]))).
      { remember (pre ++ [EQueued t p m]) as l1 eqn:El. assert (N : @client_new W = client_new) by reflexivity. revert N H1. generalize (@client_new W) at 1 3. intros c0 N H1.
        clear c2 H2. induction H1 as [c|c log ca e cb H IH Hd|c log ca s rest' H IH Hd].
        - destruct pre; discriminate.
        - apply app_inj_tail in El as (-> & ->). clear IH. destruct (pre_inv _ _ _ H N _ _ E HL0) as (X & two & d & HI).
          inversion HS; subst; [cbn in *; congruence|]. inversion Hd; subst. exists cb. rewrite outstanding_snoc. cbn [outstanding_step].
          assert (K := inv_queue _ _ _ _ _ _ t m HI ltac:(assumption)). auto.
        - destruct (IH El E1 HL1 N) as (c' & I0 & G & Es & I1). exists c'. split; [exact I0|].
          destruct (inv_receive _ _ _ _ _ _ _ _ _ I1 Hd) as (e & Ge & I2).
          assert (e = []) as ->. { subst s1. destruct I2 as (_ & _ & _ & _ & _ & K & _). exact K. }
          rewrite app_nil_r in Ge. cbn in I2. rewrite Ge. auto. }
      destruct HI as (_ & _ & _ & -> & HI).
      assert (MONO : forall a e b, post = a ++ e :: b -> exists ca cb sa sb da d', heard ca e cb /\ lstep sa e sb /\
         Inv clean (fun w => wpid w = Some p /\ exists t', carries t t' m w) (match mqos m with L2 => true | _ => false end) sa ca da (outstanding wpid ((pre ++ [EQueued t p m]) ++ a)) /\
         got c2 = got c1 ++ da ++ d').
      { intros a e b Eb. rewrite Eb in H2. apply met_at in H2 as (ca & cb & Ha & He & Hb).
        assert (Ea : full = (pre ++ [EQueued t p m]) ++ a ++ ((e :: b) ++ rest)) by (rewrite E1, Eb, <- !app_assoc; reflexivity).
        destruct (LP (((pre ++ [EQueued t p m]) ++ a) ++ [e]) (b ++ rest)) as (sb & HLb); [now rewrite Ea, <- !app_assoc|].
        apply life_snoc_inv in HLb as (sa & HLa & HSa).
        destruct (post_inv _ _ _ _ _ _ _ _ HI Ha) with (rest := (e :: b) ++ rest) (st := sa) as (d & G & HIa); auto.
        { intros t' m' J. apply (NQ t' m'). rewrite Eb. apply in_app_iff. now left. }
        destruct (LP ((pre ++ [EQueued t p m]) ++ a ++ (e :: b)) rest) as (sc & HLc); [now rewrite E1, Eb, <- !app_assoc|].
        rewrite app_assoc in HLc.
        destruct (post_inv _ _ _ _ _ _ _ _ HIa Hb) with (rest := rest) (st := sc) as (d' & G' & _); auto.
        { intros t' m' J. apply (NQ t' m'). rewrite Eb. apply in_app_iff. now right. }
        { now rewrite Ea, <- !app_assoc. }
        exists ca, cb, sa, sb, d, d'. split; [exact He|]. split; [exact HSa|]. split; [exact HIa|]. now rewrite G', G, <- app_assoc. }
      destruct (LP ((pre ++ [EQueued t p m]) ++ post) rest) as (s2 & HL2); [now rewrite <- app_assoc|].
      destruct (post_inv _ _ _ _ _ _ _ _ HI H2 NQ rest s2 E1 HL1 HL2) as (d & G & HX & HD & Hd & Hl & HN). cbn [app] in *.
      exists d. split; [exact G|]. split; [eapply Forall_impl; [|exact Hd]; cbn; tauto|]. split; [intros Q; apply Hl; now rewrite Q|]. split.
      - intros Q HC (t' & J). apply in_split in J as (a & b & Eb). destruct (MONO _ _ _ Eb) as (ca & cb & sa & sb & da & d' & Hh & Hs & (_ & _ & _ & _ & HNa) & G').
        assert (d = da ++ d') as -> by (rewrite G in G'; now apply app_inv_head in G').
        assert (D : da <> []); [|destruct da; [contradiction|discriminate]].
        inversion Hs; subst; [cbn in *; congruence|]. destruct HNa as (_ & K & _). auto.
      - split.
        { intros Q (t' & J). apply in_split in J as (a & b & Eb). destruct (MONO _ _ _ Eb) as (ca & cb & sa & sb & da & d' & Hh & Hs & (_ & _ & _ & _ & HNa) & G').
        assert (d = da ++ d') as -> by (rewrite G in G'; now apply app_inv_head in G').
        assert (D : da <> []); [|destruct da; [contradiction|discriminate]].
        rewrite Q in HNa. inversion Hh as [| | | |c0 k0 t1 q ok up Eu|]; subst.
        assert (I : In (AckPuback, p) (c_up ca)) by (rewrite Eu; now left).
        inversion Hs; subst; [cbn in *; congruence| |].
        + destruct HNa as (_ & _ & _ & K & _). now apply (K AckPuback).
        + destruct HNa as ((_ & K) & _). contradiction (K _ I eq_refl). }
        intros k t' J NK. apply in_split in J as (a & b & Eb). destruct (MONO _ _ _ Eb) as (ca & cb & sa & sb & da & d' & Hh & Hs & (_ & _ & _ & _ & HNa) & _).
        inversion Hh as [| | | |c0 k0 t1 q ok up Eu|]; subst. assert (I : In (k, p) (c_up ca)) by (rewrite Eu; now left).
        inversion Hs; subst; try (cbn in *; congruence).
        + destruct HNa as (_ & _ & _ & K). destruct (mqos m); try (split; discriminate). { split; auto; discriminate. } destruct K as (K & _). destruct (K _ I). discriminate.
        + destruct HNa as ((_ & K) & _). contradiction (K _ I eq_refl).
        + destruct HNa as (K & _). destruct (mqos m); try discriminate K. split; auto; discriminate.
    Qed.
  End Run.
End Client.

(** ** An acknowledgement of what is in flight is taken *)
Section Taken.
  Context {M W : Type}.
  Variable wqp : W -> qospid.
  Variable wdup : W -> bool.
  Variable carries : N -> N -> M -> W -> Prop.
  Variable lifetime : M -> option N.
  Variable mok : M -> Prop.
  Let wpid (w : W) := qp_pid (wqp w).

  Lemma split_app {A} (a b l1 l2 : list A) (x : A) : a ++ b = l1 ++ x :: l2 ->
    (exists l, a = l1 ++ x :: l) \/ (exists l, b = l ++ x :: l2 /\ l1 = a ++ l).
  Proof.
    revert l1. induction a as [|y a IH]; intros l1 E; cbn in E; [right; exists l1; auto|].
    destruct l1 as [|z l1]; cbn in E.
    - injection E as -> E. left. exists a. reflexivity.
    - injection E as -> E. destruct (IH _ E) as [(l & ->)|(l & -> & ->)]; [left; exists l; reflexivity|right; exists l; auto].
  Qed.

  Lemma mrun_taken rm max timeout log n q p : mrun wpid wdup carries lifetime mok rm max timeout log n q -> no_reuse log ->
    taken wqp wdup carries lifetime timeout p log.
  Proof.
    induction 1 as [|log n q evs n' q' R IH S]; intros NR l1 k t ok l2 st E.
    - destruct l1 as [|x [|y l1]]; discriminate.
    - assert (NR' : no_reuse log).
      { intros a t0 p0 m0 b Eb. apply (NR a t0 p0 m0 (b ++ evs)). now rewrite Eb, <- app_assoc. }
      apply split_app in E as [(l & ->)|(l & -> & ->)]; [exact (IH NR' l1 k t ok l st eq_refl)|].
      assert (HI := mrun_inv _ _ _ _ _ _ _ _ _ _ _ R NR').
      inversion S as [n0 q0 t0 m H1 H2 H3 EQ|n0 q0 t0 m H1 EQ|n0 q0 t0 w H1 EQ|n0 q0 t0 l' o e H1 H2 H3 H4 EQ|n0 q0 k0 t0 p0 H1 EQ|n0 q0 rm0 EQ]; subst.
      1,2,3,6: destruct l as [|x [|y l]]; discriminate.
      + exfalso. assert (J : In (EAcked k t p ok) (flush_events t0 o (given_up q (pq_set q (drop_done l'))) : list (oev M W))).
        { match goal with X : flush_events _ _ _ = _ |- _ => rewrite X end. apply in_elt. }
        unfold flush_events in J. apply in_app_iff in J as [J|J]; apply in_map_iff in J as (x & J & _); discriminate.
      + destruct l as [|x [|y l]]; [|discriminate|discriminate]. match goal with X : [_] = [] ++ _ |- _ => injection X as -> -> -> E2 E3 end. subst.
        rewrite app_nil_r. intros Ho HL Hk. assert (HL' := i_life _ _ _ _ _ _ _ HI p).
        assert (ET : pq_timeout q = timeout) by apply (mrun_len _ _ _ _ _ _ _ _ _ _ _ R). rewrite ET in HL'.
        rewrite (OutLemmas.life_det _ _ _ _ _ _ _ _ _ HL HL') in Hk. eapply ack_accept; eauto.
  Qed.
End Taken.
