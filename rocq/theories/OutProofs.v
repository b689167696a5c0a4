(** Invariants of the outgoing queue, shared by v3 and v5. *)
From Coq Require Import List Bool Arith NArith Lia.
From Coq Require Import ZifyBool ZifyNat ZifyN.
From Verif Require Import Base BaseLemmas MsgModel PendingModel PendingProofs OutModel OutSpec.
Import ListNotations.
Local Open Scope N_scope.

Lemma NoDup_snoc {A} (l : list A) x : NoDup l -> ~ In x l -> NoDup (l ++ [x]).
Proof. intros H1 H2. apply (NoDup_Add (a := x) (l := l)); [|auto]. rewrite <- (app_nil_r l) at 1. apply Add_app. Qed.

Section Gen.
  Context {M W : Type}.
  Variable wpid : W -> option pid.
  Variable wdup : W -> bool.
  Variable carries : N -> N -> M -> W -> Prop.
  Variable lifetime : M -> option N.
  Variable mok : M -> Prop.

  Notation st := (pstatus M).
  Notation oev := (oev M W).
  Notation lstate := (lstate M).
  Notation lstep := (lstep wpid wdup carries lifetime).
  Notation life := (life wpid wdup carries lifetime).
  Notation elapsed := (elapsed lifetime).

  (** ** Views of the queue *)
  Definition status_pid (s : st) : option pid :=
    match s with PNew _ _ p _ _ => Some p | PRec _ p => Some p | PDone => None end.
  Definition last_of (s : st) : N := match s with PNew _ l _ _ _ => l | PRec l _ => l | PDone => 0 end.
  Definition heldl (l : list st) : list pid :=
    flat_map (fun s => match s with PNew _ _ p _ _ => [p] | PRec _ p => [p] | PDone => [] end) l.
  Definition waitl (l : list st) : list (N * pid * M) :=
    flat_map (fun s => match s with PNew t _ p x false => [(t, p, x)] | _ => [] end) l.

  Lemma held_heldl (q : pendq M) : held q = heldl (pq q).
  Proof. reflexivity. Qed.

  Definition opt (n : N) : option N := if n =? 0 then None else Some n.
  Definition abs1 (s : st) : lstate :=
    match s with
    | PNew ad l _ x d => if d then InFlight ad x (opt l) else Waiting ad x
    | PRec l _ => Released (opt l)
    | PDone => Idle
    end.
  Fixpoint abs (p : pid) (l : list st) : lstate :=
    match l with
    | [] => Idle
    | s :: r => match status_pid s with
                | Some q => if q =? p then abs1 s else abs p r
                | None => abs p r
                end
    end.

  Lemma heldl_app a b : heldl (a ++ b) = (heldl a ++ heldl b)%list.
  Proof. unfold heldl. now rewrite flat_map_app. Qed.
  Lemma waitl_app a b : waitl (a ++ b) = (waitl a ++ waitl b)%list.
  Proof. unfold waitl. now rewrite flat_map_app. Qed.

  Lemma heldl_cons s r : heldl (s :: r) = (match status_pid s with Some p => [p] | None => [] end ++ heldl r)%list.
  Proof. destruct s; reflexivity. Qed.

  Lemma in_heldl p l : In p (heldl l) <-> exists s, In s l /\ status_pid s = Some p.
  Proof.
    clear wpid wdup carries lifetime mok. unfold heldl. rewrite in_flat_map. split; intros (s & Hs & H); exists s; (split; [exact Hs|]);
      destruct s; cbn in *; try tauto; try (destruct H as [<-|[]]; reflexivity); try (injection H as <-; auto).
    discriminate.
  Qed.

  Lemma abs_notin p l : ~ In p (heldl l) -> abs p l = Idle.
  Proof.
    induction l as [|s r IH]; [reflexivity|]. rewrite heldl_cons. cbn. destruct (status_pid s) as [q|]; cbn.
    - intros H. destruct (N.eqb_spec q p); [subst; tauto|]. apply IH. tauto.
    - exact IH.
  Qed.

  Lemma abs_cons_other p s r : status_pid s <> Some p -> abs p (s :: r) = abs p r.
  Proof. cbn. destruct (status_pid s) as [q|]; [|reflexivity]. intros H. destruct (N.eqb_spec q p); congruence. Qed.
  Lemma abs_cons_same p s r : status_pid s = Some p -> abs p (s :: r) = abs1 s.
  Proof. cbn. intros ->. now rewrite N.eqb_refl. Qed.

  Lemma heldl_drop_done l : heldl (drop_done l) = heldl l.
  Proof. induction l as [|[] l IH]; cbn; auto. Qed.
  Lemma waitl_drop_done l : waitl (drop_done l) = waitl l.
  Proof. induction l as [|[] l IH]; cbn; auto. Qed.
  Lemma abs_drop_done p l : abs p (drop_done l) = abs p l.
  Proof. induction l as [|[] l IH]; cbn; auto. Qed.

  (** Well-formedness of entries. *)
  Definition entry_ok (s : st) : Prop :=
    match s with PNew _ l _ x d => mok x /\ (d = false -> l = 0) | _ => True end.

  (** Nothing outside the window has been transmitted on this connection. *)
  Definition window_ok (n : N) (l : list st) : Prop :=
    forall i s, nth_error l i = Some s -> n <= N.of_nat i -> last_of s = 0.

  Lemma window_ok_tail n s r : window_ok n (s :: r) -> window_ok n r.
  Proof. intros H i s' E L. apply (H (S i)); [exact E|lia]. Qed.

  Lemma window_ok_drop_done n l : window_ok n l -> window_ok n (drop_done l).
  Proof. induction l as [|[] l IH]; cbn; auto. intros H. apply IH. now apply window_ok_tail in H. Qed.

  Lemma Forall_drop_done (Q : st -> Prop) l : Forall Q l -> Forall Q (drop_done l).
  Proof. induction l as [|[] l IH]; cbn; auto. intros H. inversion H; auto. Qed.

  Lemma drop_done_length (l : list st) : (length (drop_done l) <= length l)%nat.
  Proof. induction l as [|[] l IH]; cbn; auto. Qed.

  (** ** Runs of the automaton *)
  Inductive lrun (timeout : N) (p : pid) : lstate -> list oev -> lstate -> Prop :=
  | lr_nil s : lrun timeout p s [] s
  | lr_cons s e s' l s'' : lstep timeout p s e s' -> lrun timeout p s' l s'' -> lrun timeout p s (e :: l) s''.

  Lemma life_app timeout p log s evs s' : life timeout p log s -> lrun timeout p s evs s' ->
    life timeout p (log ++ evs) s'.
  Proof.
    intros H0 R. revert log H0. induction R; intros log H0; [now rewrite app_nil_r|].
    replace (log ++ e :: l)%list with ((log ++ [e]) ++ l)%list by (rewrite <- app_assoc; reflexivity).
    apply IHR. econstructor; eauto.
  Qed.

  Lemma lrun_other timeout p s evs :
    (forall e, In e evs -> about wpid e <> Some p /\ forall rm, e <> EConn rm) -> lrun timeout p s evs s.
  Proof.
    induction evs as [|e evs IH]; intros H; [constructor|].
    apply lr_cons with s; [|apply IH; intros; apply H; now right].
    destruct (H e (or_introl eq_refl)). now constructor.
  Qed.

  (** ** The effect of handle_pendings *)
  (** What the loop body of a [handle_pendings] must do. *)
  Definition good_body {A} (now : N) (body : st -> A -> st * A * list (sent W) * list pid) : Prop :=
    (forall ad l p x d a, mok x ->
       (elapsed ad now x /\ l = 0 /\ body (PNew ad l p x d) a = (PNew ad l p x d, a, [], [p])) \/
       (~ (elapsed ad now x /\ l = 0) /\ exists a' w, body (PNew ad l p x d) a = (PNew ad now p x true, a', [SPub w], []) /\
          wpid w = Some p /\ wdup w = d /\ carries ad now x w)) /\
    (forall l p a, exists a', body (PRec l p) a = (PRec now p, a', [SRel p], [])).

  Inductive flushed (now timeout : N) : nat -> list st -> list st -> list (sent W) -> list pid -> Prop :=
  | fl_stop l : flushed now timeout 0 l l [] []
  | fl_nil n : flushed now timeout n [] [] [] []
  | fl_skip n s r r' o e : due now timeout s = false -> flushed now timeout n r r' o e ->
      flushed now timeout (S n) (s :: r) (s :: r') o e
  | fl_exp n ad p x d r r' o e : timeout <= now -> elapsed ad now x -> flushed now timeout n r r' o e ->
      flushed now timeout (S n) (PNew ad 0 p x d :: r) (PDone :: r') o (p :: e)
  | fl_send n ad l p x d w r r' o e : timeout + l <= now -> ~ (elapsed ad now x /\ l = 0) ->
      wpid w = Some p -> wdup w = d -> carries ad now x w -> flushed now timeout n r r' o e ->
      flushed now timeout (S n) (PNew ad l p x d :: r) (PNew ad now p x true :: r') (SPub w :: o) e
  | fl_rel n l p r r' o e : timeout + l <= now -> flushed now timeout n r r' o e ->
      flushed now timeout (S n) (PRec l p :: r) (PRec now p :: r') (SRel p :: o) e.

  Lemma pass_flushed {A} (body : st -> A -> _) now timeout : good_body now body ->
    forall n l a, Forall entry_ok l ->
    let '(l1, _, o, e) := pass body now timeout n l a in
    exists l', flushed now timeout n l l' o e /\ length l1 = length l /\
      (forall pre m, (length pre + n <= m)%nat -> NoDup (heldl (pre ++ l)) ->
         fold_left (fun q p => fst (update_first m (is_new p) (fun _ => PDone) q)) e (pre ++ l1)%list
         = (pre ++ l')%list).
  Proof.
    intros [Hn Hr]. induction n as [|n IH]; intros [|s r] a Hok.
    - cbn. exists []. split; [constructor|]. split; [reflexivity|]. reflexivity.
    - cbn. exists (s :: r). split; [constructor|]. split; [reflexivity|]. reflexivity.
    - cbn. exists []. split; [constructor|]. split; [reflexivity|]. reflexivity.
    - cbn [pass]. inversion Hok as [|? ? Hs Hok']; subst. destruct (due now timeout s) eqn:Ed.
      + destruct s as [ad l p x d|l p|]; [|destruct (Hr l p a) as [a' E]; rewrite E|discriminate].
        * cbn in Ed. destruct Hs as [Hm _]. destruct (Hn ad l p x d a Hm) as [(El & -> & E)|(Hne & a' & w & E & H1 & H2 & H3)]; rewrite E.
          -- specialize (IH r a Hok'). destruct (pass body now timeout n r a) as [[[r1 a2] o] e].
             destruct IH as (r' & F & L & C). exists (PDone :: r'). split; [|split].
             ++ cbn. apply fl_exp; [lia|exact El|exact F].
             ++ cbn. now rewrite L.
             ++ intros pre m Hm' Hnd. cbn [app fold_left].
                assert (Hp : ~ In p (heldl pre)).
                { rewrite heldl_app in Hnd. cbn in Hnd. apply NoDup_remove_2 in Hnd. rewrite in_app_iff in Hnd. tauto. }
                destruct (update_first_spec m (is_new p) (fun _ => PDone) (pre ++ PNew ad 0 p x d :: r1)%list)
                  as [(b & y & c & Eq & Hlb & Hb & Hy & Eu)|[Hnone _]].
                2:{ specialize (Hnone (length pre) (PNew ad 0 p x d)). rewrite nth_error_mid in Hnone.
                    specialize (Hnone ltac:(lia) eq_refl). cbn in Hnone. lia. }
                (* the first hit is the entry itself *)
                assert (b = pre /\ c = r1) as [-> ->].
                { assert (K : forall pre b, ~ In p (heldl pre) -> (forall z, In z b -> is_new p z = false) ->
                      (pre ++ PNew ad 0 p x d :: r1 = b ++ y :: c)%list -> b = pre /\ c = r1).
                  { clear - Hy. induction pre as [|z pre IHp]; intros b Hp Hb Eq; destruct b as [|z' b].
                    - cbn in Eq. injection Eq as <- <-. auto.
                    - cbn in Eq. injection Eq as <- _. specialize (Hb _ (or_introl eq_refl)). cbn in Hb. lia.
                    - cbn in Eq. injection Eq as -> _. exfalso. apply Hp. rewrite heldl_cons.
                      destruct y; cbn in Hy; try discriminate. cbn. left. lia.
                    - cbn in Eq. injection Eq as <- Eq. destruct (IHp b) as [-> ->]; auto.
                      + intros H. apply Hp. rewrite heldl_cons, in_app_iff. auto.
                      + intros w Hw. apply Hb. now right. }
                  apply (K pre b Hp Hb Eq). }
                apply app_inv_head in Eq. injection Eq as <-. rewrite Eu. cbn [fst].
                replace (pre ++ PDone :: r1)%list with ((pre ++ [PDone]) ++ r1)%list by (rewrite <- app_assoc; reflexivity).
                rewrite C.
                ** rewrite <- app_assoc. reflexivity.
                ** rewrite app_length. cbn. lia.
                ** rewrite <- app_assoc, heldl_app. cbn. rewrite heldl_app in Hnd. cbn in Hnd.
                   now apply NoDup_remove_1 in Hnd.
          -- specialize (IH r a' Hok'). destruct (pass body now timeout n r a') as [[[r1 a2] o] e].
             destruct IH as (r' & F & L & C). exists (PNew ad now p x true :: r'). split; [|split].
             ++ cbn. eapply fl_send; eauto. lia.
             ++ cbn. now rewrite L.
             ++ intros pre m Hm' Hnd. cbn [app].
                replace (pre ++ PNew ad now p x true :: r1)%list with ((pre ++ [PNew ad now p x true]) ++ r1)%list
                  by (rewrite <- app_assoc; reflexivity).
                rewrite C.
                ** rewrite <- app_assoc. reflexivity.
                ** rewrite app_length. cbn. lia.
                ** rewrite <- app_assoc, heldl_app in *. cbn in *. exact Hnd.
        * specialize (IH r a' Hok'). destruct (pass body now timeout n r a') as [[[r1 a2] o] e].
          destruct IH as (r' & F & L & C). exists (PRec now p :: r'). split; [|split].
          -- cbn in *. apply fl_rel; [lia|exact F].
          -- cbn. now rewrite L.
          -- intros pre m Hm' Hnd. cbn [app].
             replace (pre ++ PRec now p :: r1)%list with ((pre ++ [PRec now p]) ++ r1)%list
               by (rewrite <- app_assoc; reflexivity).
             rewrite C.
             ++ rewrite <- app_assoc. reflexivity.
             ++ rewrite app_length. cbn. lia.
             ++ rewrite <- app_assoc, heldl_app in *. cbn in *. exact Hnd.
      + specialize (IH r a Hok'). destruct (pass body now timeout n r a) as [[[r1 a2] o] e].
        destruct IH as (r' & F & L & C). exists (s :: r'). split; [|split].
        * now apply fl_skip.
        * cbn. now rewrite L.
        * intros pre m Hm' Hnd.
          replace (pre ++ s :: r1)%list with ((pre ++ [s]) ++ r1)%list by (rewrite <- app_assoc; reflexivity).
          rewrite C.
          -- rewrite <- app_assoc. reflexivity.
          -- rewrite app_length. cbn. lia.
          -- rewrite <- app_assoc. exact Hnd.
  Qed.

  Lemma flushed_length now timeout n l l' o e : flushed now timeout n l l' o e -> length l' = length l.
  Proof. clear mok. induction 1; cbn; auto. Qed.

  Notation sent_pid := (sent_pid wpid).

  Lemma flushed_pids now timeout n l l' o e : flushed now timeout n l l' o e ->
    (forall s, In s o -> exists p, sent_pid s = Some p /\ In p (heldl l)) /\
    (forall p, In p e -> In p (heldl l)) /\
    (forall p, In p (heldl l') -> In p (heldl l)).
  Proof. clear mok.
    induction 1 as [l|n|n s r r' o e Hd F (I1 & I2 & I3)|n ad p x d r r' o e Hd He F (I1 & I2 & I3)|
      n ad l p x d w r r' o e Hd He H1 H2 H3 F (I1 & I2 & I3)|n l p r r' o e Hd F (I1 & I2 & I3)].
    - split; [intros ? []|]. split; [intros ? []|]. auto.
    - split; [intros ? []|]. split; [intros ? []|]. auto.
    - rewrite !heldl_cons. split; [|split].
      + intros s' Hs. destruct (I1 s' Hs) as (p & Hp & Hi). exists p. rewrite in_app_iff. auto.
      + intros p Hp. rewrite in_app_iff. auto.
      + intros p. rewrite !in_app_iff. intros [|]; auto.
    - cbn. split; [|split].
      + intros s' Hs. destruct (I1 s' Hs) as (p' & Hp & Hi). exists p'. auto.
      + intros p' [<-|Hp]; auto.
      + intros p' Hp. right. auto.
    - cbn. split; [|split].
      + intros s' [<-|Hs]; [exists p; auto|]. destruct (I1 s' Hs) as (p' & Hp & Hi). exists p'. auto.
      + intros p' Hp. auto.
      + intros p' [<-|Hp]; auto.
    - cbn. split; [|split].
      + intros s' [<-|Hs]; [exists p; auto|]. destruct (I1 s' Hs) as (p' & Hp & Hi). exists p'. auto.
      + intros p' Hp. auto.
      + intros p' [<-|Hp]; auto.
  Qed.

  Definition flush_events (now : N) (o : list (sent W)) (e : list pid) : list oev :=
    (map (ESent now) o ++ map (EExpired now) e)%list.

  Lemma flush_events_other now o e p :
    (forall s, In s o -> sent_pid s <> Some p) -> ~ In p e ->
    forall ev, In ev (flush_events now o e) -> about wpid ev <> Some p /\ forall rm, ev <> EConn rm.
  Proof.
    intros Ho He ev. unfold flush_events. rewrite in_app_iff, !in_map_iff.
    intros [(s & <- & Hs)|(q & <- & Hq)]; (split; [|intros; discriminate]).
    - specialize (Ho s Hs). destruct s; exact Ho.
    - cbn. congruence.
  Qed.

  (** Every identifier moves along its automaton. *)
  Lemma flushed_life now timeout n l l' o e : 0 < now -> flushed now timeout n l l' o e ->
    Forall entry_ok l -> NoDup (heldl l) ->
    forall p, lrun timeout p (abs p l) (flush_events now o e) (abs p l').
  Proof.
    intros Hnow F. induction F as [l|n|n s r r' o e Hd F IH|n ad p x d r r' o e Hd He F IH|
      n ad l p x d w r r' o e Hd He H1 H2 H3 F IH|n l p r r' o e Hd F IH]; intros Hok Hnd p0.
    - apply lr_nil.
    - apply lr_nil.
    - inversion Hok as [|? ? Hs Hok']; subst. rewrite heldl_cons in Hnd.
      assert (Hnd' : NoDup (heldl r)) by (destruct (status_pid s); [now inversion Hnd|exact Hnd]).
      destruct (flushed_pids _ _ _ _ _ _ _ F) as (P1 & P2 & P3).
      destruct (status_pid s) as [q|] eqn:Eq.
      + destruct (N.eqb_spec q p0) as [->|Hq].
        * rewrite !(abs_cons_same p0 s) by exact Eq. apply lrun_other, flush_events_other.
          -- intros s' Hs' E. destruct (P1 s' Hs') as (p' & Ep & Hi). inversion Hnd; subst. rewrite E in Ep; injection Ep as <-; contradiction.
          -- intros Hi%P2. inversion Hnd; subst. contradiction.
        * rewrite !(abs_cons_other p0 s) by congruence. now apply IH.
      + rewrite !(abs_cons_other p0 s) by congruence. now apply IH.
    - inversion Hok as [|? ? Hs Hok']; subst. cbn in Hnd. inversion Hnd as [|? ? Hni Hnd']; subst.
      destruct (flushed_pids _ _ _ _ _ _ _ F) as (P1 & P2 & P3).
      destruct (N.eq_dec p p0) as [->|Hp].
      + rewrite (abs_cons_same p0) by reflexivity. rewrite (abs_cons_other p0 PDone) by discriminate.
        rewrite (abs_notin p0 r') by auto. unfold flush_events. cbn [map].
        assert (R : forall st0, lrun timeout p0 st0 (map (ESent now) o) st0).
        { intros. replace (map (ESent now) o) with (flush_events now o []) by (unfold flush_events; now rewrite app_nil_r).
          apply lrun_other, flush_events_other; [|intros []]. intros s' Hs' E. destruct (P1 s' Hs') as (p' & Ep & Hi). rewrite E in Ep; injection Ep as <-; contradiction. }
        assert (T : forall a b c s1 s2 s3, lrun timeout p0 s1 a s2 -> lrun timeout p0 s2 (b :: c) s3 ->
                    lrun timeout p0 s1 (a ++ b :: c) s3).
        { intros a b c s1 s2 s3 Ha. induction Ha; [auto|]. intros. cbn. econstructor; eauto. }
        eapply T; [apply R|]. apply lr_cons with Idle.
        * cbn. destruct d; [apply ls_expire_resumed|apply ls_expire_wait]; exact He.
        * apply lrun_other. intros ev Hev. apply in_map_iff in Hev as (q & <- & Hq). cbn.
          split; [|discriminate]. intros [= ->]. apply Hni. auto.
      + rewrite !(abs_cons_other p0) by (cbn; congruence).
        unfold flush_events. cbn [map].
        specialize (IH Hok' Hnd' p0). unfold flush_events in IH.
        assert (T : forall a c s1 s3 q, q <> p0 -> lrun timeout p0 s1 (a ++ c) s3 ->
                    lrun timeout p0 s1 (a ++ EExpired now q :: c) s3).
        { induction a as [|b a IHa]; intros c s1 s3 q Hq H.
          - cbn in *. apply lr_cons with s1; [|exact H]. apply ls_other; [cbn; congruence|discriminate].
          - cbn in *. inversion H; subst. econstructor; eauto. }
        now apply T.
    - inversion Hok as [|? ? Hs Hok']; subst. cbn in Hnd. inversion Hnd as [|? ? Hni Hnd']; subst.
      destruct (flushed_pids _ _ _ _ _ _ _ F) as (P1 & P2 & P3).
      unfold flush_events. cbn [map app]. destruct (N.eq_dec p p0) as [->|Hp].
      + rewrite !(abs_cons_same p0) by reflexivity. apply lr_cons with (InFlight ad x (Some now)).
        * cbn. destruct Hs as [_ Hs]. destruct (wdup w) eqn:Ew.
          -- unfold opt. destruct (N.eqb_spec l 0) as [->|Hl].
             ++ apply ls_resume; tauto.
             ++ now apply ls_again.
          -- rewrite Hs in * by reflexivity. apply ls_first; tauto.
        * replace (abs1 (PNew ad now p0 x true)) with (InFlight ad x (Some now) : lstate)
            by (cbn; unfold opt; destruct (N.eqb_spec now 0); [lia|reflexivity]).
          apply lrun_other, flush_events_other.
          -- intros s' Hs' E. destruct (P1 s' Hs') as (p' & Ep & Hi). rewrite E in Ep; injection Ep as <-; contradiction.
          -- intros Hi. apply Hni. auto.
      + rewrite !(abs_cons_other p0) by (cbn; congruence). apply lr_cons with (abs p0 r).
        * apply ls_other; [cbn; congruence|discriminate].
        * now apply IH.
    - inversion Hok as [|? ? Hs Hok']; subst. cbn in Hnd. inversion Hnd as [|? ? Hni Hnd']; subst.
      destruct (flushed_pids _ _ _ _ _ _ _ F) as (P1 & P2 & P3).
      unfold flush_events. cbn [map app]. destruct (N.eq_dec p p0) as [->|Hp].
      + rewrite !(abs_cons_same p0) by reflexivity. apply lr_cons with (Released (Some now)).
        * cbn. unfold opt. destruct (N.eqb_spec l 0) as [->|Hl]; [apply ls_rel_first|now apply ls_rel_again].
        * replace (abs1 (PRec now p0)) with (Released (Some now) : lstate)
            by (cbn; unfold opt; destruct (N.eqb_spec now 0); [lia|reflexivity]).
          apply lrun_other, flush_events_other.
          -- intros s' Hs' E. destruct (P1 s' Hs') as (p' & Ep & Hi). rewrite E in Ep; injection Ep as <-; contradiction.
          -- intros Hi. apply Hni. auto.
      + rewrite !(abs_cons_other p0) by (cbn; congruence). apply lr_cons with (abs p0 r).
        * apply ls_other; [cbn; congruence|discriminate].
        * now apply IH.
  Qed.

  Definition memb (p : pid) (l : list pid) : bool := existsb (N.eqb p) l.
  Lemma memb_spec p l : memb p l = true <-> In p l.
  Proof. clear wpid wdup carries lifetime mok.
    unfold memb. rewrite existsb_exists. split; [intros (x & H & E); apply N.eqb_eq in E; subst; exact H|].
    intros H. exists p. split; [exact H|apply N.eqb_refl].
  Qed.
  Lemma memb_false p l : memb p l = false <-> ~ In p l.
  Proof. clear wpid wdup carries lifetime mok. rewrite <- memb_spec. destruct (memb p l); intuition congruence. Qed.

  (** The identifiers given up are the expired ones. *)
  Lemma flushed_given_up now timeout n l l' o e : flushed now timeout n l l' o e -> NoDup (heldl l) ->
    filter (fun p => negb (memb p (heldl l'))) (heldl l) = e /\
    (forall p, In p (heldl l') <-> In p (heldl l) /\ ~ In p e).
  Proof. clear mok.
    assert (Skip : forall (p : pid) a b, ~ In p b ->
              filter (fun q => negb (memb q (p :: a))) b = filter (fun q => negb (memb q a)) b).
    { intros p a b Hp. apply filter_ext_in. intros q Hq. cbn. destruct (N.eqb_spec q p); [congruence|reflexivity]. }
    assert (Self : forall l, filter (fun q => negb (memb q l)) l = []).
    { intros l0. assert (K : forall b, (forall q, In q b -> In q l0) -> filter (fun q => negb (memb q l0)) b = []).
      { induction b as [|q b IHb]; intros Hb; [reflexivity|]. cbn.
        assert (memb q l0 = true) as -> by (apply memb_spec; apply Hb; now left). cbn. apply IHb. intros; apply Hb; now right. }
      apply K. auto. }
    intros F. induction F as [l|n|n s r r' o e Hd F IH|n ad p x d r r' o e Hd He F IH|
      n ad l p x d w r r' o e Hd He H1 H2 H3 F IH|n l p r r' o e Hd F IH]; intros Hnd.
    - split; [apply Self|]. cbn. tauto.
    - cbn. split; [reflexivity|]. tauto.
    - destruct (flushed_pids _ _ _ _ _ _ _ F) as (_ & P2 & P3).
      rewrite heldl_cons in Hnd. rewrite !heldl_cons. destruct (status_pid s) as [p|]; cbn [app] in *.
      + inversion Hnd as [|? ? Hni Hnd']; subst. destruct (IH Hnd') as [E1 E2]. split.
        * cbn [filter]. assert (memb p (p :: heldl r') = true) as -> by (apply memb_spec; now left).
          cbn [negb]. rewrite Skip by assumption. exact E1.
        * intros q. cbn. rewrite E2. split; [|tauto]. intros [<-|[Hq He]]; auto.
      + apply IH. exact Hnd.
    - destruct (flushed_pids _ _ _ _ _ _ _ F) as (_ & P2 & P3).
      cbn in Hnd. inversion Hnd as [|? ? Hni Hnd']; subst. destruct (IH Hnd') as [E1 E2].
      change (heldl (PDone :: r')) with (heldl r'). change (heldl (PNew ad 0 p x d :: r)) with (p :: heldl r). split.
      + cbn [filter]. assert (memb p (heldl r') = false) as -> by (apply memb_false; auto). cbn [negb]. now rewrite E1.
      + intros q. rewrite E2. cbn. split.
        * intros [Hq He']. split; [auto|]. intros [<-|]; auto.
        * intros [[<-|Hq] He']; [exfalso; apply He'; auto|]. split; [exact Hq|]. intros Hq'. apply He'. auto.
    - cbn in Hnd. inversion Hnd as [|? ? Hni Hnd']; subst. destruct (IH Hnd') as [E1 E2].
      destruct (flushed_pids _ _ _ _ _ _ _ F) as (_ & P2 & P3).
      change (heldl (PNew ad now p x true :: r')) with (p :: heldl r').
      change (heldl (PNew ad l p x (wdup w) :: r)) with (p :: heldl r). split.
      + cbn [filter]. assert (memb p (p :: heldl r') = true) as -> by (apply memb_spec; now left).
        cbn [negb]. rewrite Skip by assumption. exact E1.
      + intros q. cbn. rewrite E2. split; [|tauto]. intros [<-|[Hq He']]; auto.
    - cbn in Hnd. inversion Hnd as [|? ? Hni Hnd']; subst. destruct (IH Hnd') as [E1 E2].
      destruct (flushed_pids _ _ _ _ _ _ _ F) as (_ & P2 & P3).
      change (heldl (PRec now p :: r')) with (p :: heldl r').
      change (heldl (PRec l p :: r)) with (p :: heldl r). split.
      + cbn [filter]. assert (memb p (p :: heldl r') = true) as -> by (apply memb_spec; now left).
        cbn [negb]. rewrite Skip by assumption. exact E1.
      + intros q. cbn. rewrite E2. split; [|tauto]. intros [<-|[Hq He']]; auto.
  Qed.

  (** ** Transmitted and waiting messages against queued ones *)
  Definition rel (x : N * pid * W + N * pid * M) (y : N * pid * M) : Prop :=
    match x with inl s => transmits carries s y | inr z => z = y end.
  Inductive mx (b : bool) : list (N * pid * W + N * pid * M) -> list (N * pid * M) -> Prop :=
  | mx_nil : mx b [] []
  | mx_keep x a y q : rel x y -> mx b a q -> mx b (x :: a) (y :: q)
  | mx_skip a y q : b = true -> mx b a q -> mx b a (y :: q).

  Lemma mx_refl b l : mx b (map inr l) l.
  Proof. induction l; constructor; auto. reflexivity. Qed.
  Lemma mx_comp b a c x q : mx b (a ++ map inr c) q -> mx b x c -> mx b (a ++ x) q.
  Proof.
    intros H. remember (a ++ map inr c)%list as l eqn:El. revert a c x El.
    induction H as [|r l y q R H IH|l y q Hb H IH]; intros a c x El Hx.
    - symmetry in El. apply app_eq_nil in El as [-> El]. destruct c; [|discriminate]. exact Hx.
    - destruct a as [|r' a]; cbn in El.
      + destruct c as [|z c]; [discriminate|]. cbn in El. injection El as -> ->. cbn in R. subst z.
        inversion Hx; subst; cbn.
        * constructor; [auto|]. now apply (IH [] c).
        * constructor; [auto|]. now apply (IH [] c).
      + injection El as -> ->. cbn. constructor; [exact R|]. now apply (IH a c).
    - constructor; [exact Hb|]. now apply (IH a c).
  Qed.
  Lemma mx_snoc b a q y : mx b a q -> mx b (a ++ [inr y]) (q ++ [y]).
  Proof. induction 1; cbn; constructor; auto; [reflexivity|constructor]. Qed.
  Lemma mx_in_order a c q : mx true (map inl a ++ c) q -> in_order carries a q.
  Proof.
    intros H. remember (map inl a ++ c)%list as l eqn:El. revert a c El.
    induction H as [|r l y q R H IH|l y q Hb H IH]; intros a c El.
    - symmetry in El. apply app_eq_nil in El as [El _]. destruct a; [|discriminate]. constructor.
    - destruct a as [|s a]; [constructor|]. cbn in El. injection El as -> ->. constructor; [exact R|]. now apply (IH a c).
    - apply ino_skip. now apply (IH a c).
  Qed.
  Lemma mx_exact a c q : mx false (map inl a ++ map inr c) q -> exists q1, q = (q1 ++ c)%list /\ Forall2 (transmits carries) a q1.
  Proof.
    revert q. induction a as [|s a IH]; cbn; intros q H.
    - exists []. cbn. split; [|constructor]. revert q H. induction c as [|z c IHc]; intros q H; inversion H; subst; try discriminate; auto.
      cbn in *. subst. f_equal. auto.
    - inversion H; subst; try discriminate. destruct (IH _ H4) as (q1 & -> & F). exists (y :: q1). split; [reflexivity|].
      constructor; assumption.
  Qed.

  Definition firsts (t : N) (o : list (sent W)) : list (N * pid * W) :=
    flat_map (fun s => match s with
                       | SPub w => if wdup w then [] else match wpid w with Some p => [(t, p, w)] | None => [] end
                       | SRel _ => [] end) o.

  Lemma first_sent_app a b : first_sent wpid wdup (a ++ b : list oev) = (first_sent wpid wdup a ++ first_sent wpid wdup b)%list.
  Proof. unfold first_sent. now rewrite flat_map_app. Qed.
  Lemma queued_app a b : queued (a ++ b : list oev) = (queued a ++ queued b)%list.
  Proof. unfold queued. now rewrite flat_map_app. Qed.

  Lemma first_sent_flush now o e : first_sent wpid wdup (flush_events now o e) = firsts now o.
  Proof.
    unfold flush_events. rewrite first_sent_app.
    assert (first_sent wpid wdup (map (EExpired now) e : list oev) = []) as -> by (induction e; cbn; auto).
    rewrite app_nil_r. induction o as [|[w|p] o IH]; cbn; [reflexivity| |exact IH]. f_equal. exact IH.
  Qed.
  Lemma queued_flush now o e : queued (flush_events now o e) = [].
  Proof. unfold flush_events. rewrite queued_app. induction o; cbn; auto. induction e; cbn; auto. Qed.

  Lemma flushed_early now timeout n l l' o e : flushed now timeout n l l' o e -> now < timeout ->
    l' = l /\ o = [] /\ e = [].
  Proof.
    induction 1 as [l|n|n s r r' o e Hd F IH|n ad p x d r r' o e Hd He F IH|
      n ad l p x d w r r' o e Hd He H1 H2 H3 F IH|n l p r r' o e Hd F IH]; intros Hlt; try lia; auto.
    destruct (IH Hlt) as (-> & -> & ->). auto.
  Qed.

  Lemma flushed_wait now timeout n l l' o e : flushed now timeout n l l' o e -> Forall entry_ok l ->
    forall b, (b = false -> e = []) -> mx b (map inl (firsts now o) ++ map inr (waitl l')) (waitl l).
  Proof.
    intros F Hok b Hb. destruct (N.lt_ge_cases now timeout) as [Hlt|Hge].
    { destruct (flushed_early _ _ _ _ _ _ _ F Hlt) as (-> & -> & ->). cbn. apply mx_refl. }
    induction F as [l|n|n s r r' o e Hd F IH|n ad p x d r r' o e Hd He F IH|
      n ad l p x d w r r' o e Hd He H1 H2 H3 F IH|n l p r r' o e Hd F IH].
    - apply mx_refl.
    - cbn. constructor.
    - inversion Hok as [|? ? Hs Hok']; subst. specialize (IH Hok' Hb).
      destruct s as [ad l p x d|l p|]; [|exact IH|exact IH].
      destruct d; [exact IH|]. destruct Hs as [_ Hs]. rewrite Hs in Hd by reflexivity. cbn in Hd. lia.
    - inversion Hok as [|? ? Hs Hok']; subst. destruct b; [|discriminate (Hb eq_refl)].
      specialize (IH Hok' ltac:(discriminate)).
      destruct d; cbn; [exact IH|]. constructor; [reflexivity|exact IH].
    - inversion Hok as [|? ? Hs Hok']; subst. specialize (IH Hok' Hb).
      cbn. rewrite H1. destruct (wdup w); cbn; [exact IH|]. constructor; [split; [reflexivity|exact H3]|exact IH].
    - inversion Hok as [|? ? Hs Hok']; subst. exact (IH Hok' Hb).
  Qed.

  (** ** Outstanding identifiers *)
  Notation outstanding := (outstanding wpid).
  Lemma in_add_pid p q l : In p (add_pid q l) <-> p = q \/ In p l.
  Proof. clear wpid wdup carries lifetime mok.
    unfold add_pid. fold (memb q l). destruct (memb q l) eqn:E.
    - apply memb_spec in E. split; [auto|]. intros [->|]; auto.
    - cbn. intuition.
  Qed.
  Lemma NoDup_add_pid q l : NoDup l -> NoDup (add_pid q l).
  Proof. clear wpid wdup carries lifetime mok.
    unfold add_pid. fold (memb q l). destruct (memb q l) eqn:E; auto. intros. constructor; auto. now apply memb_false.
  Qed.
  Lemma outstanding_app a b : outstanding (a ++ b : list oev) = fold_left (outstanding_step wpid) b (outstanding a).
  Proof. unfold OutSpec.outstanding. apply fold_left_app. Qed.

  Lemma outstanding_flush now o e : forall acc, NoDup acc ->
    NoDup (fold_left (outstanding_step wpid) (flush_events now o e) acc) /\
    forall p, In p (fold_left (outstanding_step wpid) (flush_events now o e) acc) ->
      In p acc \/ exists s, In s o /\ sent_pid s = Some p.
  Proof.
    unfold flush_events.
    assert (E : forall e acc, fold_left (outstanding_step wpid) (map (EExpired now) e : list oev) acc = acc)
      by (induction e0 as [|q e0 IH]; cbn; auto).
    induction o as [|s o IH]; intros acc Hnd; cbn [map app fold_left].
    - rewrite E. auto.
    - assert (Q : NoDup (outstanding_step wpid acc (ESent now s : oev)) /\
                  forall p, In p (outstanding_step wpid acc (ESent now s : oev)) -> In p acc \/ sent_pid s = Some p).
      { destruct s as [w|q]; cbn; [destruct (wpid w) as [q|]|].
        - split; [now apply NoDup_add_pid|]. intros p [->|]%in_add_pid; auto.
        - auto.
        - split; [now apply NoDup_add_pid|]. intros p [->|]%in_add_pid; auto. }
      destruct Q as [Q1 Q2]. destruct (IH _ Q1) as [I1 I2]. split; [exact I1|].
      intros p Hp. destruct (I2 p Hp) as [H|(s' & Hs & E')].
      + destruct (Q2 p H) as [|H']; [auto|]. right. exists s. cbn. auto.
      + right. exists s'. cbn. auto.
  Qed.

  Lemma flushed_last now timeout n l l' o e : 0 < now -> flushed now timeout n l l' o e ->
    (forall p s, In s l -> status_pid s = Some p -> last_of s <> 0 ->
       exists s', In s' l' /\ status_pid s' = Some p /\ last_of s' <> 0) /\
    (forall p s, In s o -> sent_pid s = Some p ->
       exists s', In s' l' /\ status_pid s' = Some p /\ last_of s' <> 0).
  Proof.
    intros Hnow F. induction F as [l|n|n s r r' o e Hd F IH|n ad p x d r r' o e Hd He F IH|
      n ad l p x d w r r' o e Hd He H1 H2 H3 F IH|n l p r r' o e Hd F IH].
    - split; [eauto|intros ? ? []].
    - split; [intros ? ? []|intros ? ? []].
    - destruct IH as [I1 I2]. split.
      + intros p s' [<-|Hs]; [exists s; cbn; auto|]. intros E1 E2.
        destruct (I1 p s' Hs E1 E2) as (s2 & ? & ? & ?). exists s2. cbn. auto.
      + intros p s' Hs E. destruct (I2 p s' Hs E) as (s2 & ? & ? & ?). exists s2. cbn. auto.
    - destruct IH as [I1 I2]. split.
      + intros p' s' [<-|Hs]; [cbn; congruence|]. intros E1 E2.
        destruct (I1 p' s' Hs E1 E2) as (s2 & ? & ? & ?). exists s2. cbn. auto.
      + intros p' s' Hs E. destruct (I2 p' s' Hs E) as (s2 & ? & ? & ?). exists s2. cbn. auto.
    - destruct IH as [I1 I2]. split.
      + intros p' s' [<-|Hs]; [cbn; intros [= <-] _; eexists; split; [left; reflexivity|cbn; split; [reflexivity|lia]]|].
        intros E1 E2. destruct (I1 p' s' Hs E1 E2) as (s2 & ? & ? & ?). exists s2. cbn. auto.
      + intros p' s' [<-|Hs] E; [cbn in E; rewrite H1 in E; injection E as <-; eexists; split; [left; reflexivity|cbn; split; [reflexivity|lia]]|].
        destruct (I2 p' s' Hs E) as (s2 & ? & ? & ?). exists s2. cbn. auto.
    - destruct IH as [I1 I2]. split.
      + intros p' s' [<-|Hs]; [cbn; intros [= <-] _; eexists; split; [left; reflexivity|cbn; split; [reflexivity|lia]]|].
        intros E1 E2. destruct (I1 p' s' Hs E1 E2) as (s2 & ? & ? & ?). exists s2. cbn. auto.
      + intros p' s' [<-|Hs] E; [cbn in E; injection E as <-; eexists; split; [left; reflexivity|cbn; split; [reflexivity|lia]]|].
        destruct (I2 p' s' Hs E) as (s2 & ? & ? & ?). exists s2. cbn. auto.
  Qed.

  Lemma flushed_beyond now timeout n l l' o e : flushed now timeout n l l' o e ->
    forall i, (n <= i)%nat -> nth_error l' i = nth_error l i.
  Proof.
    induction 1; intros i Hi; auto; (destruct i as [|i]; [lia|]); cbn; apply IHflushed; lia.
  Qed.

  Lemma flushed_ok now timeout n l l' o e : flushed now timeout n l l' o e -> Forall entry_ok l -> Forall entry_ok l'.
  Proof.
    induction 1; intros Hok; auto; inversion Hok as [|? ? Hs Hok']; subst; constructor; auto.
    - exact I.
    - cbn. destruct Hs as [Hm _]. split; [exact Hm|discriminate].
  Qed.

  Notation no_early_ack := (no_early_ack wpid wdup carries lifetime).
  Lemma no_expiry_app (a b : list oev) : no_expiry_event (a ++ b) -> no_expiry_event a /\ no_expiry_event b.
  Proof. clear wpid wdup carries lifetime mok. unfold no_expiry_event. intros H. split; intros t p Hin; apply (H t p); rewrite in_app_iff; auto. Qed.
  Lemma no_early_app timeout (a b : list oev) : no_early_ack timeout (a ++ b) -> no_early_ack timeout a.
  Proof.
    intros H l1 k t p l2 t0 m E. apply (H l1 k t p (l2 ++ b)%list). rewrite E, <- app_assoc. reflexivity.
  Qed.
  Lemma no_expiry_flush now o e : no_expiry_event (flush_events now o e) -> e = [].
  Proof.
    destruct e as [|p e]; [reflexivity|]. intros H. exfalso. apply (H now p). unfold flush_events.
    rewrite in_app_iff. right. now left.
  Qed.

  Lemma no_prefix timeout (a b : list oev) bb :
    (bb = false -> no_expiry_event (a ++ b)%list /\ no_early_ack timeout (a ++ b)%list) ->
    bb = false -> no_expiry_event a /\ no_early_ack timeout a.
  Proof.
    intros H E. destruct (H E) as [H1 H2]. apply no_expiry_app in H1 as [H1 _]. apply no_early_app in H2. auto.
  Qed.
  Lemma mx_app b a c x y : mx b a x -> mx b c y -> mx b (a ++ c) (x ++ y).
  Proof. induction 1; cbn; auto; intros; constructor; auto. Qed.

  (** ** The invariant *)
  Record Inv (q : pendq M) (log : list oev) : Prop := {
    i_nd : NoDup (heldl (pq q));
    i_act : forall p, active p log = memb p (heldl (pq q));
    i_life : forall p, life (pq_timeout q) p log (abs p (pq q));
    i_win : window_ok (pq_inflight q) (pq q);
    i_ok : Forall entry_ok (pq q);
    i_rm : receive_max log = pq_inflight q;
    i_out : forall p, In p (outstanding log) ->
      exists s, In s (pq q) /\ status_pid s = Some p /\ last_of s <> 0;
    i_outnd : NoDup (outstanding log);
    i_seq : forall b, (b = false -> no_expiry_event log /\ no_early_ack (pq_timeout q) log) ->
      mx b (map inl (first_sent wpid wdup log) ++ map inr (waitl (pq q))) (queued log);
    i_len : N.of_nat (length (pq q)) <= pq_max q
  }.

  Lemma active_app p a b : active p (a ++ b : list oev) = fold_left (active_step p) b (active p a).
  Proof. unfold active. apply fold_left_app. Qed.
  Lemma receive_max_app (a b : list oev) : receive_max (a ++ b) =
    fold_left (fun rm e => match e with EConn rm' => rm' | _ => rm end) b (receive_max a).
  Proof. unfold receive_max. apply fold_left_app. Qed.

  Lemma inv_clean q log : Inv q log -> Inv (clean_complete q) log.
  Proof.
    intros []. constructor; cbn; auto.
    - now rewrite heldl_drop_done.
    - intros p. rewrite heldl_drop_done. apply i_act0.
    - intros p. rewrite abs_drop_done. apply i_life0.
    - now apply window_ok_drop_done.
    - now apply Forall_drop_done.
    - intros p Hp. destruct (i_out0 p Hp) as (s & Hs & E & L). exists s. split; [|auto].
      clear - Hs L. induction (pq q) as [|x l IH]; [exact Hs|]. destruct Hs as [->|Hs].
      + destruct s; cbn; auto. cbn in L. congruence.
      + destruct x; cbn; auto.
    - now rewrite waitl_drop_done.
    - pose proof (drop_done_length (pq q)). lia.
  Qed.

  Lemma inv_new rm max timeout : Inv (PendQ rm max timeout []) [EConn rm].
  Proof.
    constructor; cbn; auto.
    - constructor.
    - intros p. change [EConn rm : oev] with ([] ++ [EConn rm : oev])%list. econstructor; [apply life_nil|apply ls_conn_idle].
    - intros i s. destruct i; discriminate.
    - intros ? [].
    - constructor.
    - constructor.
    - lia.
  Qed.

  Lemma memb_app p a b : memb p (a ++ b) = memb p a || memb p b.
  Proof. unfold memb. apply existsb_app. Qed.
  Lemma memb_cons p q l : memb p (q :: l) = (p =? q) || memb p l.
  Proof. reflexivity. Qed.
  Local Arguments memb : simpl never.

  Lemma abs_app p a b : abs p (a ++ b) = if memb p (heldl a) then abs p a else abs p b.
  Proof.
    induction a as [|s a IH]; [reflexivity|]. cbn [app]. rewrite heldl_cons.
    destruct (status_pid s) as [q|] eqn:Eq; cbn [app].
    - destruct (N.eqb_spec q p) as [->|Hq].
      + rewrite !(abs_cons_same p s) by exact Eq. rewrite memb_cons. now rewrite N.eqb_refl.
      + rewrite !(abs_cons_other p s) by congruence. rewrite IH, memb_cons. destruct (N.eqb_spec p q); [congruence|reflexivity].
    - rewrite !(abs_cons_other p s) by congruence. exact IH.
  Qed.

  Lemma inv_push q log now p x : Inv q log -> mok x -> active p log = false ->
    N.of_nat (length (pq q)) < pq_max q ->
    Inv (pq_set q (pq q ++ [PNew now 0 p x false])) (log ++ [EQueued now p x]).
  Proof.
    intros [] Hm Ha Hl. rewrite i_act0 in Ha. assert (Hn := Ha). apply memb_false in Hn. constructor; cbn.
    - rewrite heldl_app. cbn. apply NoDup_snoc; auto.
    - intros p0. rewrite active_app. cbn. rewrite heldl_app, memb_app, i_act0, (N.eqb_sym p p0). cbn. rewrite memb_cons. cbn.
      destruct (p0 =? p), (memb p0 (heldl (pq q))); reflexivity.
    - intros p0. rewrite abs_app. econstructor; [apply i_life0|].
      destruct (N.eq_dec p p0) as [->|Hp].
      + rewrite Ha. rewrite (abs_notin p0 (pq q) Hn). cbn. rewrite N.eqb_refl. apply ls_queue.
      + destruct (memb p0 (heldl (pq q))) eqn:E.
        * apply ls_other; [cbn; congruence|discriminate].
        * apply memb_false in E. rewrite (abs_notin p0 (pq q) E). cbn. destruct (N.eqb_spec p p0); [congruence|].
          apply ls_other; [cbn; congruence|discriminate].
    - intros i s E L. destruct (Nat.lt_ge_cases i (length (pq q))) as [Hi|Hi].
      + rewrite nth_error_app1 in E by assumption. eauto.
      + rewrite nth_error_app2 in E by assumption. destruct (i - length (pq q))%nat as [|[|]]; cbn in E; [|discriminate|discriminate].
        injection E as <-. reflexivity.
    - apply Forall_app. split; [assumption|]. repeat constructor; auto.
    - rewrite receive_max_app. exact i_rm0.
    - rewrite outstanding_app. cbn. intros p0 Hp. destruct (i_out0 p0 Hp) as (s & Hs & ?). exists s.
      rewrite in_app_iff. auto.
    - rewrite outstanding_app. exact i_outnd0.
    - intros bb Hb. assert (Hb' := no_prefix _ _ _ _ Hb). rewrite first_sent_app, queued_app, waitl_app. cbn. rewrite app_nil_r, map_app, app_assoc.
      now apply mx_snoc, i_seq0.
    - rewrite app_length. cbn. lia.
  Qed.

  Lemma inv_full q log now p x : Inv q log -> Inv q (log ++ [EFull now p x]).
  Proof.
    intros []. constructor; auto.
    - intros p0. rewrite active_app. cbn. auto.
    - intros p0. econstructor; [apply i_life0|]. apply ls_other; [cbn; congruence|discriminate].
    - rewrite receive_max_app. exact i_rm0.
    - rewrite outstanding_app. exact i_out0.
    - rewrite outstanding_app. exact i_outnd0.
    - intros bb Hb. assert (Hb' := no_prefix _ _ _ _ Hb). rewrite first_sent_app, queued_app. cbn. rewrite !app_nil_r. auto.
  Qed.

  (** A transmission without packet identifier. *)
  Lemma inv_zero q log now w : wpid w = None -> Inv q log -> Inv q (log ++ [ESent now (SPub w)]).
  Proof.
    intros Hw []. constructor; auto.
    - intros p0. rewrite active_app. cbn. auto.
    - intros p0. econstructor; [apply i_life0|]. apply ls_other; [cbn; congruence|discriminate].
    - rewrite receive_max_app. exact i_rm0.
    - rewrite outstanding_app. cbn. rewrite Hw. exact i_out0.
    - rewrite outstanding_app. cbn. rewrite Hw. exact i_outnd0.
    - intros bb Hb. assert (Hb' := no_prefix _ _ _ _ Hb). rewrite first_sent_app, queued_app. cbn. rewrite Hw. destruct (wdup w); cbn; rewrite !app_nil_r; auto.
  Qed.

  Lemma inv_flush q log now l' o e : 0 < now -> Inv q log ->
    flushed now (pq_timeout q) (current_inflight q) (pq q) l' o e ->
    Inv (pq_set q (drop_done l')) (log ++ flush_events now o e).
  Proof.
    intros Hnow [] F. pose proof (flushed_length _ _ _ _ _ _ _ F) as FL.
    destruct (flushed_given_up _ _ _ _ _ _ _ F i_nd0) as [G1 G2].
    destruct (flushed_last _ _ _ _ _ _ _ Hnow F) as [L1 L2].
    pose proof (flushed_wait _ _ _ _ _ _ _ F i_ok0) as W1.
    destruct (outstanding_flush now o e (outstanding log) i_outnd0) as [O1 O2].
    apply (inv_clean (pq_set q l')). constructor; cbn [pq pq_set pq_inflight pq_max pq_timeout]; auto.
    - assert (K : NoDup (heldl l')); [|exact K]. clear - F i_nd0.
      induction F as [l|n|n s r r' o e Hd F IH|n ad p x d r r' o e Hd He F IH|
        n ad l p x d w r r' o e Hd He H1 H2 H3 F IH|n l p r r' o e Hd F IH]; auto.
      + destruct (flushed_pids _ _ _ _ _ _ _ F) as (_ & _ & P3). rewrite heldl_cons in *.
        destruct (status_pid s); cbn in *; [|auto]. inversion i_nd0; subst. constructor; auto.
      + cbn in *. inversion i_nd0; auto.
      + destruct (flushed_pids _ _ _ _ _ _ _ F) as (_ & _ & P3). cbn in *. inversion i_nd0; subst. constructor; auto.
      + destruct (flushed_pids _ _ _ _ _ _ _ F) as (_ & _ & P3). cbn in *. inversion i_nd0; subst. constructor; auto.
    - intros p. rewrite active_app, i_act0. unfold flush_events. rewrite fold_left_app.
      assert (E1 : forall o b, fold_left (active_step p) (map (ESent now) o : list oev) b = b)
        by (induction o0; cbn; auto).
      rewrite E1.
      assert (E2 : forall e b, fold_left (active_step p) (map (EExpired now) e : list oev) b = if memb p e then false else b).
      { induction e0 as [|q0 e0 IH]; intros b; [reflexivity|]. cbn. rewrite IH, memb_cons, (N.eqb_sym p q0).
        destruct (q0 =? p), (memb p e0); reflexivity. }
      rewrite E2. specialize (G2 p). rewrite <- !memb_spec in G2.
      destruct (memb p e), (memb p (heldl (pq q))), (memb p (heldl l')); intuition congruence.
    - intros p. eapply life_app; [apply i_life0|]. now apply flushed_life with (n := current_inflight q).
    - intros i s E L. rewrite (flushed_beyond _ _ _ _ _ _ _ F) in E by (unfold current_inflight; lia). eauto.
    - eapply flushed_ok; eauto.
    - rewrite receive_max_app. unfold flush_events. rewrite fold_left_app.
      assert (E1 : forall (o : list (sent W)) b, fold_left (fun rm e => match e with EConn rm' => rm' | _ => rm end) (map (ESent now) o : list oev) b = b)
        by (induction o0; cbn; auto).
      assert (E2 : forall e b, fold_left (fun rm e => match e with EConn rm' => rm' | _ => rm end) (map (EExpired now) e : list oev) b = b)
        by (induction e0; cbn; auto).
      now rewrite E1, E2.
    - rewrite outstanding_app. intros p Hp. destruct (O2 p Hp) as [H|(s & Hs & E)].
      + destruct (i_out0 p H) as (s & Hs & E & L). eauto.
      + eauto.
    - rewrite outstanding_app. exact O1.
    - intros bb Hb. assert (Hb' := no_prefix _ _ _ _ Hb). rewrite first_sent_app, queued_app, first_sent_flush, queued_flush, app_nil_r, map_app, <- app_assoc.
      apply mx_comp with (waitl (pq q)); [now apply i_seq0|]. apply W1. intros E. destruct (Hb E) as [X1 _].
      apply no_expiry_app in X1 as [_ X1]. now apply no_expiry_flush in X1.
    - rewrite FL. exact i_len0.
  Qed.

  Lemma in_filter_neq (p p0 : pid) l : In p (filter (fun q => negb (q =? p0)) l) <-> In p l /\ p <> p0.
  Proof. clear wpid wdup carries lifetime mok. rewrite filter_In. split; intros [H E]; (split; [exact H|]); [intros ->; rewrite N.eqb_refl in E; discriminate|].
    destruct (N.eqb_spec p p0); [contradiction|reflexivity]. Qed.

  (** An acknowledgement replaces the entry [x] of identifier [p] by [x']. *)
  Lemma inv_replace q log k now p a x b x' : 0 < now -> Inv q log -> pq q = (a ++ x :: b)%list ->
    status_pid x = Some p ->
    match k with
    | AckPuback => (exists ad l m d, x = PNew ad l p m d) /\ x' = PDone
    | AckPubrec => (exists ad l m d, x = PNew ad l p m d) /\ x' = PRec now p
    | AckPubcomp => (exists l, x = PRec l p) /\ x' = PDone
    end -> (N.of_nat (length a) < pq_inflight q) ->
    Inv (pq_set q (a ++ x' :: b)) (log ++ [EAcked k now p true]).
  Proof.
    intros Hnow [] Eq Ep Hk Hw. rewrite Eq in *.
    assert (Hpid : status_pid x' = match k with AckPubrec => Some p | _ => None end)
      by (destruct k, Hk as [_ ->]; reflexivity).
    rewrite heldl_app, heldl_cons, Ep in i_nd0. cbn in i_nd0.
    assert (Hna : ~ In p (heldl a) /\ ~ In p (heldl b)).
    { apply NoDup_remove_2 in i_nd0. rewrite in_app_iff in i_nd0. tauto. }
    destruct Hna as [Hna Hnb]. assert (Hma := Hna). apply memb_false in Hma.
    assert (Hnd' : NoDup (heldl a ++ heldl b)) by now apply NoDup_remove_1 in i_nd0.
    constructor; cbn.
    - rewrite heldl_app, heldl_cons, Hpid. destruct k; cbn; auto.
    - intros p0. rewrite active_app, i_act0. cbn. rewrite !heldl_app, !heldl_cons, Ep, Hpid, !memb_app.
      destruct k; cbn; rewrite ?memb_cons, ?(N.eqb_sym p p0); try reflexivity.
      all: destruct (N.eqb_spec p0 p) as [->|]; cbn; [|reflexivity].
      all: rewrite Hma; cbn; symmetry; now apply memb_false.
    - intros p0. econstructor; [apply i_life0|]. rewrite !abs_app. destruct (N.eq_dec p0 p) as [->|Hp].
      + rewrite Hma. rewrite (abs_cons_same p x) by exact Ep.
        destruct k.
        * destruct Hk as [(ad & l & m & d & ->) ->]. rewrite (abs_cons_other p) by discriminate.
          rewrite (abs_notin p b Hnb). cbn. destruct d; [apply ls_puback|apply ls_puback_early].
        * destruct Hk as [(ad & l & m & d & ->) ->]. rewrite (abs_cons_same p) by reflexivity. cbn. unfold opt at 2.
          destruct (N.eqb_spec now 0); [lia|]. destruct d; [apply ls_pubrec|apply ls_pubrec_early].
        * destruct Hk as [(l & ->) ->]. rewrite (abs_cons_other p) by discriminate.
          rewrite (abs_notin p b Hnb). cbn. apply ls_pubcomp.
      + rewrite (abs_cons_other p0 x) by congruence. rewrite (abs_cons_other p0 x') by (rewrite Hpid; destruct k; congruence).
        apply ls_other; [cbn; congruence|discriminate].
    - intros i s E L. apply (i_win0 i s); [|exact L]. destruct (Nat.lt_ge_cases i (length a)).
      + rewrite nth_error_app1 in * by assumption. exact E.
      + rewrite nth_error_app2 in * by assumption. destruct (i - length a)%nat eqn:Ei; [lia|exact E].
    - apply Forall_app in i_ok0 as [Ha Hb]. apply Forall_app. split; [exact Ha|]. inversion Hb; subst.
      constructor; [|assumption]. destruct k, Hk as [_ ->]; exact I.
    - rewrite receive_max_app. exact i_rm0.
    - rewrite outstanding_app. cbn. intros p0 Hp.
      assert (K : In p0 (outstanding log) /\ (k = AckPubrec \/ p0 <> p)).
      { destruct k; [apply in_filter_neq in Hp as [? ?]; auto|auto|apply in_filter_neq in Hp as [? ?]; auto]. }
      destruct K as [K1 K2]. destruct (i_out0 p0 K1) as (s & Hs & E & L).
      apply in_app_iff in Hs as [Hs|[<-|Hs]].
      + exists s. rewrite in_app_iff. auto.
      + rewrite Ep in E. injection E as <-. destruct K2 as [->|]; [|congruence]. destruct Hk as [_ ->].
        eexists. rewrite in_app_iff. split; [right; left; reflexivity|]. cbn. split; [reflexivity|lia].
      + exists s. rewrite in_app_iff. cbn. auto.
    - rewrite outstanding_app. cbn. destruct k; auto; now apply NoDup_filter.
    - intros bb Hb. assert (Hb' := no_prefix _ _ _ _ Hb). rewrite first_sent_app, queued_app. cbn. rewrite !app_nil_r.
      apply mx_comp with (waitl (a ++ x :: b)); [now apply i_seq0|]. rewrite !waitl_app.
      assert (waitl (x' :: b) = waitl b) as -> by (destruct k, Hk as [_ ->]; reflexivity).
      rewrite map_app. apply mx_app; [apply mx_refl|].
      destruct x as [ad l p0 m []| |]; try apply mx_refl. cbn in Ep. injection Ep as ->.
      constructor; [|apply mx_refl]. destruct bb; [reflexivity|]. exfalso. destruct (Hb eq_refl) as [_ X2].
      apply (X2 log k now p [] ad m eq_refl). specialize (i_life0 p). rewrite abs_app, Hma in i_life0.
      rewrite (abs_cons_same p) in i_life0 by reflexivity. exact i_life0.
    - rewrite app_length in *. cbn in *. lia.
  Qed.

  Lemma inv_refused q log k now p : Inv q log -> Inv q (log ++ [EAcked k now p false]).
  Proof.
    intros []. constructor; auto.
    - intros p0. rewrite active_app. cbn. rewrite i_act0. destruct k; reflexivity.
    - intros p0. econstructor; [apply i_life0|]. destruct (N.eq_dec p p0) as [->|Hp]; [apply ls_refused|].
      apply ls_other; [cbn; congruence|discriminate].
    - rewrite receive_max_app. exact i_rm0.
    - rewrite outstanding_app. cbn. intros p0 Hp. apply i_out0.
      destruct k; auto; apply in_filter_neq in Hp; tauto.
    - rewrite outstanding_app. cbn. destruct k; auto; now apply NoDup_filter.
    - intros bb Hb. assert (Hb' := no_prefix _ _ _ _ Hb). rewrite first_sent_app, queued_app. cbn. rewrite !app_nil_r. auto.
  Qed.

  Lemma is_new_inv p (s : st) : is_new p s = true -> exists ad l m d, s = PNew ad l p m d.
  Proof. destruct s as [ad l p' m d| |]; cbn; try discriminate. intros E. apply N.eqb_eq in E. subst. eauto. Qed.
  Lemma is_rec_inv p (s : st) : is_rec p s = true -> exists l, s = PRec l p.
  Proof. destruct s as [|l p'|]; cbn; try discriminate. intros E. apply N.eqb_eq in E. subst. eauto. Qed.

  Lemma complete1 p (q : pendq M) : pend_complete p L1 q =
    let '(l, b) := update_first (current_inflight q) (is_new p) (fun _ => PDone) (pq q) in (pq_set q l, b).
  Proof. reflexivity. Qed.
  Lemma complete2 p (q : pendq M) : pend_complete p L2 q =
    let '(l, b) := update_first (current_inflight q) (is_rec p) (fun _ => PDone) (pq q) in (pq_set q l, b).
  Proof. reflexivity. Qed.

  Lemma ack_queue_spec k now p q :
    (exists a x b x', pq q = (a ++ x :: b)%list /\ (length a < current_inflight q)%nat /\ status_pid x = Some p /\
       match k with
       | AckPuback => (exists ad l m d, x = PNew ad l p m d) /\ x' = PDone
       | AckPubrec => (exists ad l m d, x = PNew ad l p m d) /\ x' = PRec now p
       | AckPubcomp => (exists l, x = PRec l p) /\ x' = PDone
       end /\ ack_queue k now p q = (pq_set q (a ++ x' :: b), true)) \/
    ((forall i s, (i < current_inflight q)%nat -> nth_error (pq q) i = Some s ->
        match k with AckPuback | AckPubrec => is_new p s = false | AckPubcomp => is_rec p s = false end) /\
     ack_queue k now p q = (q, false)).
  Proof.
    assert (Hset : pq_set q (pq q) = q) by (destruct q; reflexivity).
    destruct k; cbn [ack_queue]; rewrite ?complete1, ?complete2; unfold pend_pubrec.
    - destruct (update_first_spec (current_inflight q) (is_new p) (fun _ => PDone) (pq q))
        as [(a & x & b & E & L & _ & Hx & Eu)|[Hn Eu]]; rewrite Eu.
      + left. exists a, x, b, PDone. destruct (is_new_inv p x Hx) as (ad & l & m & d & ->).
        split; [exact E|]. split; [exact L|]. split; [reflexivity|]. split; [|reflexivity]. split; [eauto|reflexivity].
      + right. rewrite Hset. auto.
    - destruct (update_first_spec (current_inflight q) (is_new p) (fun _ => PRec now p) (pq q))
        as [(a & x & b & E & L & _ & Hx & Eu)|[Hn Eu]]; rewrite Eu.
      + left. exists a, x, b, (PRec now p). destruct (is_new_inv p x Hx) as (ad & l & m & d & ->).
        split; [exact E|]. split; [exact L|]. split; [reflexivity|]. split; [|reflexivity]. split; [eauto|reflexivity].
      + right. rewrite Hset. auto.
    - destruct (update_first_spec (current_inflight q) (is_rec p) (fun _ => PDone) (pq q))
        as [(a & x & b & E & L & _ & Hx & Eu)|[Hn Eu]]; rewrite Eu.
      + left. exists a, x, b, PDone. destruct (is_rec_inv p x Hx) as (l & ->).
        split; [exact E|]. split; [exact L|]. split; [reflexivity|]. split; [|reflexivity]. split; [eauto|reflexivity].
      + right. rewrite Hset. auto.
  Qed.

  Lemma inv_ack q log k now p : 0 < now -> Inv q log ->
    Inv (fst (ack_queue k now p q)) (log ++ [EAcked k now p (snd (ack_queue k now p q))]).
  Proof.
    intros Hnow HI. destruct (ack_queue_spec k now p q) as [(a & x & b & x' & E & L & Hp & Hk & Eq)|[_ Eq]]; rewrite Eq; cbn.
    - eapply inv_replace; eauto. unfold current_inflight in L. lia.
    - now apply inv_refused.
  Qed.

  Lemma inv_resume q log rm : Inv q log -> Inv (set_max_inflight rm (reset_last_sent q)) (log ++ [EConn rm]).
  Proof.
    intros [].
    assert (Hh : forall l, heldl (map reset_status l) = heldl l) by (induction l as [|[] l IH]; cbn; [reflexivity|f_equal; exact IH|f_equal; exact IH|exact IH]).
    assert (Hw : forall l, waitl (map reset_status l) = waitl l)
      by (induction l as [|[? ? ? ? []| |] l IH]; cbn; [reflexivity|exact IH|f_equal; exact IH|exact IH|exact IH]).
    constructor; cbn.
    - now rewrite Hh.
    - intros p. rewrite active_app, Hh. cbn. auto.
    - intros p. econstructor; [apply i_life0|]. clear. induction (pq q) as [|s l IH]; cbn; [apply ls_conn_idle|].
      destruct s as [ad l0 p0 x d|l0 p0|]; cbn; auto.
      + destruct (p0 =? p); [destruct d; [apply ls_conn_sent|apply ls_conn_wait]|exact IH].
      + destruct (p0 =? p); [apply ls_conn_rel|exact IH].
    - intros i s E _. rewrite nth_error_map in E. destruct (nth_error (pq q) i) as [[]|]; cbn in E; try discriminate; injection E as <-; reflexivity.
    - rewrite Forall_forall in *. intros s Hs. apply in_map_iff in Hs as (s0 & <- & Hs). specialize (i_ok0 s0 Hs).
      destruct s0; cbn in *; tauto.
    - rewrite receive_max_app. reflexivity.
    - rewrite outstanding_app. intros ? [].
    - rewrite outstanding_app. constructor.
    - intros bb Hb. assert (Hb' := no_prefix _ _ _ _ Hb). rewrite first_sent_app, queued_app, Hw. cbn. rewrite !app_nil_r. auto.
    - now rewrite map_length.
  Qed.

  (** Consequences. *)
  Lemma inv_window q log : Inv q log -> N.of_nat (length (outstanding log)) <= receive_max log.
  Proof.
    intros []. rewrite i_rm0.
    assert (Hin : incl (outstanding log) (heldl (firstn (N.to_nat (pq_inflight q)) (pq q)))).
    { intros p Hp. destruct (i_out0 p Hp) as (s & Hs & E & L). apply in_heldl. exists s. split; [|exact E].
      apply In_nth_error in Hs as [i Hi]. destruct (N.le_gt_cases (pq_inflight q) (N.of_nat i)) as [H|H].
      - contradiction (L (i_win0 i s Hi H)).
      - apply nth_error_In with i. rewrite <- Hi. clear - H. revert i H. generalize (pq q) as l.
        intros l i H. assert (K : forall n l i, (i < n)%nat -> nth_error (firstn n l : list st) i = nth_error l i).
        { induction n as [|n IH]; intros [|y l0] [|j] Hj; try lia; cbn; auto. apply IH. lia. }
        apply K. lia. }
    assert (H := NoDup_incl_length i_outnd0 Hin).
    assert (K : forall l, (length (heldl l) <= length l)%nat) by (induction l as [|s0 l IH]; [reflexivity|]; rewrite heldl_cons, app_length; destruct s0; cbn [status_pid length]; lia).
    specialize (K (firstn (N.to_nat (pq_inflight q)) (pq q))).
    rewrite firstn_length in K. lia.
  Qed.

  (** ** The loop *)
  Lemma flush_loop {A} (body : st -> A -> _) now q a : good_body now body -> Forall entry_ok (pq q) ->
    NoDup (heldl (pq q)) ->
    exists l1 a' o e l',
      pend_loop body (S (length (pq q))) now 0 q a [] [] = Some (pq_set q l1, a', o, e) /\
      flushed now (pq_timeout q) (current_inflight q) (pq q) l' o e /\
      fold_left (fun q p => fst (pend_complete p L1 q)) e (pq_set q l1) = pq_set q l' /\
      (e = [] -> l1 = l').
  Proof.
    intros Hb Hok Hnd. rewrite (pend_loop_pass body now (pq_timeout q) q a eq_refl).
    pose proof (pass_flushed body now (pq_timeout q) Hb (current_inflight q) (pq q) a Hok) as H.
    destruct (pass body now (pq_timeout q) (current_inflight q) (pq q) a) as [[[l1 a'] o] e].
    destruct H as (l' & F & L & C). exists l1, a', o, e, l'. split; [reflexivity|]. split; [exact F|].
    specialize (C [] (current_inflight q) ltac:(cbn; lia) Hnd). cbn [app] in C. split.
    - assert (K : forall e l, length l = length (pq q) ->
         fold_left (fun q p => fst (pend_complete p L1 q)) e (pq_set q l) =
         pq_set q (fold_left (fun l p => fst (update_first (current_inflight q) (is_new p) (fun _ => PDone) l)) e l)).
      { clear. induction e as [|p e IH]; intros l Hl; [reflexivity|]. cbn [fold_left].
        assert (E : fst (pend_complete p L1 (pq_set q l)) =
                    pq_set q (fst (update_first (current_inflight q) (is_new p) (fun _ => PDone) l))).
        { rewrite complete1. replace (current_inflight (pq_set q l)) with (current_inflight q)
            by (unfold current_inflight; cbn; now rewrite Hl). cbn [pq_set pq].
          destruct (update_first (current_inflight q) (is_new p) (fun _ => PDone) l). reflexivity. }
        rewrite E. apply IH. now rewrite update_first_length. }
      rewrite K by exact L. now rewrite C.
    - intros ->. exact C.
  Qed.

  Lemma flushed_no_done now timeout n l l' o : flushed now timeout n l l' o [] ->
    (forall s r, l = s :: r -> s <> PDone) -> drop_done l' = l'.
  Proof.
    intros F H. inversion F; subst; try reflexivity.
    - destruct l' as [|[] l']; try reflexivity. exfalso. eapply H; reflexivity.
    - destruct s; try reflexivity. exfalso. eapply H; reflexivity.
  Qed.
End Gen.
