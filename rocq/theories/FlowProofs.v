(** Proofs for C70. *)
From Coq Require Import List Bool Arith NArith Lia.
From Verif Require Import Base BaseLemmas OnlineModel OnlineSpec OnlineProofs FlowSpec.
Import ListNotations.
Local Open Scope N_scope.

Section Flow.
  Context {P Msg In Err Ctl Act Req Ans S G : Type}.
  Notation iface := (iface P Msg In Err Ctl Act Req Ans S G).
  Notation ev := (ev P Msg Req).
  Notation lst := (lst P Msg Req S).
  Notation ph := (ph P Msg Req S G).
  Notation env := (env Msg In Err Ctl Ans).
  Variable i : iface.
  Variable m : N.
  Notation unsent := (unsent_bytes i).

  Lemma size_app {A} (a b : list A) : size (a ++ b) = size a + size b.
  Proof. unfold size. rewrite app_length. lia. Qed.
  Lemma bytes_app (a b : list ev) : bytes i (a ++ b) = bytes i a + bytes i b.
  Proof. unfold bytes, stream. rewrite queued_app, flat_map_app, size_app. reflexivity. Qed.

  (** The packets in a write queue are not longer than [m]. *)
  Definition short (q : list (wp P)) : Prop := Forall (fun w => match w with Pkt p => size (enc i p) <= m | Data _ _ => True end) q.
  Lemma short_pkts ps : (forall p, List.In p ps -> size (enc i p) <= m) -> short (map Pkt ps).
  Proof. intros H. apply Forall_map, Forall_forall. exact H. Qed.
  Lemma pk_bytes q : pk q -> short q -> size (unsent q) <= size q * m.
  Proof.
    induction q as [|[p|d k] q IH]; intros K H; [cbn; lia| |inversion K; contradiction].
    inversion_clear K as [|? ? _ K']. inversion_clear H as [|? ? H1 H2]. specialize (IH K' H2).
    change (unsent (Pkt p :: q)) with (enc i p ++ unsent q). rewrite size_app.
    replace (size (Pkt p :: q)) with (size q + 1) by (unfold size; cbn [length]; lia). lia.
  Qed.
  Lemma room_lemma q : wfq q -> short q -> too_much q = false -> size (unsent q) <= room m.
  Proof.
    unfold too_much, room. intros W H E. apply orb_false_iff in E as (E1 & E2). apply N.leb_gt in E1.
    fold (size q) in E1. destruct q as [|[p|d k] q].
    - cbn. lia.
    - pose proof (pk_bytes (Pkt p :: q) W H) as B.
      assert (size (Pkt p :: q) * m <= 15 * m) by (apply N.mul_le_mono_r; lia). lia.
    - destruct W as (W1 & W2). inversion_clear H as [|? ? _ H2]. pose proof (pk_bytes q W2 H2) as B.
      change (unsent (Data d k :: q)) with (skipn k d ++ unsent q). rewrite size_app.
      apply N.leb_gt in E2. replace (size (Data d k :: q)) with (size q + 1) in E1 by (unfold size; cbn [length]; lia).
      assert (size (skipn k d) <= 2047) by (unfold size; rewrite skipn_length; lia).
      assert (size q * m <= 14 * m) by (apply N.mul_le_mono_r; lia). lia.
  Qed.

  (** ** Taking *)
  Definition fine (l : lst) (x : ph) : Prop := let '(_, _, t, _) := x in
    wfq (l_wp l) -> short (l_wp l) -> up_to i m t ->
    forall t1 t2, t = t1 ++ Took :: t2 -> size (unsent (l_wp l)) + bytes i t1 <= room m.
  Definition untaken (t : list ev) : Prop := ~ List.In Took t.
  Lemma split_app {A} (a b c d : list A) x : a ++ b = c ++ x :: d ->
    (exists e, a = c ++ x :: e) \/ (exists e, c = a ++ e /\ b = e ++ x :: d).
  Proof.
    revert c. induction a as [|y a IH]; intros c E; [right; exists c; auto|].
    destruct c as [|z c]; [left; cbn in E; injection E as <- _; now exists a|].
    cbn in E. injection E as <- E. destruct (IH c E) as [(e & ->)|(e & -> & ->)]; [left; now exists e|right; now exists e].
  Qed.
  Lemma short_later (l l' : lst) (g : G) t r : preW l (l', g, t, r) -> short (l_wp l) -> up_to i m t -> short (l_wp l').
  Proof. intros (E & _) H U. rewrite E. apply Forall_app. split; [exact H|now apply short_pkts]. Qed.
  Lemma wfq_later (l l' : lst) (g : G) t r : preW l (l', g, t, r) -> wfq (l_wp l) -> wfq (l_wp l').
  Proof. intros (E & _) H. rewrite E. now apply wfq_push. Qed.
  Lemma unsent_later (l l' : lst) (g : G) t r : preW l (l', g, t, r) -> size (unsent (l_wp l')) = size (unsent (l_wp l)) + bytes i t.
  Proof. intros (E & _). rewrite E, unsent_app, unsent_pkts, size_app. reflexivity. Qed.
  Lemma up_app (a b : list ev) : up_to i m (a ++ b) -> up_to i m a /\ up_to i m b.
  Proof. unfold up_to. rewrite queued_app. intros H. split; intros p Hp; apply H, in_app_iff; auto. Qed.

  Lemma fine_next l x k : preW l x -> fine l x -> (forall l' g', fine l' (k l' g')) -> fine l (next x k).
  Proof.
    destruct x as (((l1, g1), t1), [r|]); intros PW F K; [exact F|]. cbn [next].
    specialize (K l1 g1). destruct (k l1 g1) as (((l2, g2), t2), r2). cbn [fine] in *. intros W H U a b E.
    apply up_app in U as (U1 & U2). destruct (split_app _ _ _ _ _ E) as [(c & ->)|(c & -> & E2)].
    - apply (F W H U1 a c eq_refl).
    - specialize (K (wfq_later _ _ _ _ _ PW W) (short_later _ _ _ _ _ PW H U1) U2 _ _ E2).
      rewrite (unsent_later _ _ _ _ _ PW) in K. rewrite bytes_app. lia.
  Qed.
  Lemma fine_un l l' (g : G) t r : untaken t -> fine l (l', g, t, r).
  Proof. intros N W H U a b ->. destruct N. apply in_app_iff. right. now left. Qed.
  Lemma fine_took l x : too_much (l_wp l) = false -> fine l x -> fine l (took x).
  Proof.
    destruct x as (((l1, g1), t), r). cbn [fine took]. intros TM F W H U [|y a] b E.
    - cbn [bytes]. pose proof (room_lemma _ W H TM). unfold bytes, stream. cbn. lia.
    - cbn in E. injection E as <- E. assert (U' : up_to i m t) by exact U. exact (F W H U' a b E).
  Qed.
  Lemma fine_same l l' x : l_wp l' = l_wp l -> fine l' x -> fine l x.
  Proof. destruct x as (((l1, g1), t), r). cbn [fine]. intros ->. auto. Qed.

  Lemma un_asked s s' : untaken (asked i s s').
  Proof.
    intros X. pose proof (asked_only i s s') as H. unfold only_asked in H. rewrite Forall_forall in H. apply (H _ X).
  Qed.
  Lemma un_queued ps : untaken (map Queued ps).
  Proof. intros X. apply in_map_iff in X as (p & X & _). discriminate. Qed.
  Lemma un_app a b : untaken a -> untaken b -> untaken (a ++ b).
  Proof. intros A B X. apply in_app_iff in X as [X|X]; auto. Qed.
  Lemma un_small t : (forall x, List.In x t -> x <> Took) -> untaken t.
  Proof. intros H X. now apply (H _ X). Qed.
  Ltac un := repeat apply un_app; first [apply un_asked|apply un_queued|apply un_small; cbn; intuition (subst; discriminate)].
  Ltac pw := first [apply preW_id; [reflexivity|tr'|tr']|apply preW_push; tr']
  with tr' := rewrite ?queued_app, ?written_app, ?asked_noq, ?asked_now, ?queued_queued, ?written_queued; auto.

  (** Phases that take nothing. *)
  Definition still0 (x : ph) : Prop := let '(_, _, t, _) := x in untaken t.
  Lemma s0_next x k : still0 x -> (forall l g, still0 (k l g)) -> still0 (next x k).
  Proof.
    destruct x as (((l1, g1), t1), [r|]); intros H K; [exact H|]. cbn [next]. specialize (K l1 g1).
    destruct (k l1 g1) as (((l2, g2), t2), r2). now apply un_app.
  Qed.
  Lemma s0_fine l x : still0 x -> fine l x.
  Proof. destruct x as (((l1, g1), t), r). apply fine_un. Qed.
  Lemma actions_s0 now acts : forall l g, still0 (actions i now l g acts).
  Proof.
    induction acts as [|a r IH]; intros l g; cbn [actions]; [cbn; un|].
    destruct (i_action i now a (l_s l) g) as [s' g' out u|s' g' out|]; [apply s0_next; [cbn; un|apply IH]|cbn; un|cbn; un].
  Qed.
  Lemma after_s0 now l g : still0 (after i now l g).
  Proof. unfold after. destruct (i_after i now (l_s l)). cbn. un. Qed.
  Lemma hook_done_s0 now r a l g : still0 (hook_done i now r a l g).
  Proof.
    unfold hook_done. destruct (i_hook i now r a (l_s l) g); [|cbn; un|cbn; un].
    apply s0_next; [cbn; un|]. intros. apply s0_next; [apply actions_s0|]. intros. apply after_s0.
  Qed.
  Lemma hook_s0 e l g : still0 (hook_phase i e l g).
  Proof. unfold hook_phase. destruct (l_hook l); [|cbn; un]. destruct (e_hook e); [cbn; un|cbn; un|apply hook_done_s0]. Qed.
  Lemma take_s0 e l g : still0 (take_phase i e l g).
  Proof.
    unfold take_phase. destruct (l_take l) as [[]|]; [| |cbn; un].
    - destruct (e_tflush e) as [[]|]; cbn; un.
    - destruct (e_ready e) as [[]|]; [|cbn; un|cbn; un]. destruct (e_start e); [|cbn; un]. destruct (e_tflush e) as [[]|]; cbn; un.
  Qed.
  Lemma control_s0 now cs : forall l g, still0 (control_phase i now cs l g).
  Proof.
    induction cs as [|[c|] cs IH]; intros l g; cbn [control_phase]; [cbn; un| |cbn; un].
    destruct (i_control i now c (l_s l) g) as (((s', g'), stop), taken). destruct taken; [cbn; un|].
    destruct stop; [cbn; un|]. apply s0_next; [cbn; un|apply IH].
  Qed.

  Lemma read_fine now rs : forall l g, fine l (read_phase i now rs l g).
  Proof.
    induction rs as [|x rs IH]; intros l g; cbn [read_phase];
      (destruct (i_disc i (l_s l)) as [w|]; [apply fine_un; un|]);
      (destruct (too_much (l_wp l)) eqn:TM; [apply fine_un; un|]); cbn [orb];
      (destruct (_ <=? _); [apply fine_un; un|]); [apply fine_un; un|].
    destruct x as [x h|e]; (apply fine_took; [exact TM|]); apply (fine_same l (set_ru false l)); try reflexivity.
    - destruct (i_packet i now x (l_s (set_ru false l)) g) as [s' g' out req|s' g' out|]; [|apply fine_un; un|apply fine_un; un].
      apply fine_next; [pw|apply fine_un; un|]. intros l1 g1. apply fine_next; [| |apply IH].
      + destruct req as [r|]; [|apply after_preW]. destruct h; [pw|pw|].
        apply preW_next; [pw|]. intros. apply hook_done_preW.
      + apply s0_fine. destruct req as [r|]; [|apply after_s0]. destruct h; [cbn; un|cbn; un|].
        apply s0_next; [cbn; un|]. intros. apply hook_done_s0.
    - destruct (i_decode_error i e (l_s (set_ru false l))) as [(s', out)|]; [|apply fine_un; un].
      apply fine_next; [pw|apply fine_un; un|apply IH].
  Qed.
  Lemma normal_fine now ms : forall l g, fine l (normal_phase i now ms l g).
  Proof.
    induction ms as [|x ms IH]; intros l g; cbn [normal_phase];
      (destruct (i_disc i (l_s l)) as [w|]; [apply fine_un; un|]);
      (destruct (too_much (l_wp l)) eqn:TM; [apply fine_un; un|]); [apply fine_un; un|].
    destruct x as [(from, mg)|]; [|apply fine_un; un]. apply fine_took; [exact TM|]. apply (fine_same l (set_nu false l)); [reflexivity|].
    destruct (i_normal i now from mg (l_s (set_nu false l)) g) as ((s', g'), [(q0, po)|]).
    - set (out := match po with Some p => [p] | None => [] end). destruct q0.
      + apply fine_next; [pw|apply fine_un; un|apply IH].
      + destruct (i_pendings i now (l_s (push out (set_s s' (set_nu false l))))) as (s2, more).
        apply fine_next; [|apply fine_un; un|apply IH]. cbn [preW l_wp push set_wp set_s set_nu]. rewrite !queued_app, !written_app, !asked_noq, !asked_now, !queued_queued, !written_queued. cbn [app].
        split; [|reflexivity]. rewrite map_app, app_assoc. reflexivity.
    - apply fine_next; [pw|apply fine_un; un|apply IH].
  Qed.
  Lemma prod_fine e l g : fine l (prod i e l g).
  Proof.
    unfold prod. apply fine_next; [apply hook_preW|apply s0_fine, hook_s0|]. intros.
    apply fine_next; [apply take_preW|apply s0_fine, take_s0|]. intros.
    apply fine_next; [apply read_preW|apply read_fine|]. intros.
    apply fine_next; [apply control_preW|apply s0_fine, control_s0|]. intros. apply normal_fine.
  Qed.

  (** ** Writing *)
  Lemma batch_short q : forall data idx d k q', short q -> batch i q data idx = Some (d, k, q') -> short q'.
  Proof.
    induction q as [|w q IH]; intros data idx d k q' H E; cbn [batch] in E; [injection E as <- <- <-; exact H|].
    inversion_clear H as [|? ? _ H2].
    destruct (match w with Pkt p => match i_encode i p with Some b => Some (data ++ b, idx) | None => None end | Data d0 k0 => Some (d0, k0) end) as [(d1, k1)|]; [|discriminate].
    destruct (2048 <=? N.of_nat (length d1)); [injection E as <- <- <-; exact H2|eapply IH; eauto].
  Qed.
  Lemma write_short dr ws : forall q, short q -> let '(q', t, _) := write_loop i dr ws q in short q' /\ untaken t.
  Proof.
    assert (U : forall t : list ev, quiet t -> untaken t).
    { intros t Q X. unfold quiet in Q. rewrite Forall_forall in Q. apply (Q _ X). }
    enough (A : forall q, short q -> let '(q', _, _) := write_loop i dr ws q in short q').
    { intros q H. specialize (A q H). pose proof (write_loop_quiet i dr ws q) as Q. destruct (write_loop i dr ws q) as ((q', t), w). split; [exact A|now apply U]. }
    induction ws as [|x ws IH]; intros q H; (destruct q as [|w0 q0]; [exact H|]); cbn [write_loop]; set (q := w0 :: q0) in *;
      (destruct (batch i q [] 0) as [((d, k), q1)|] eqn:B; [|exact H]); pose proof (batch_short _ _ _ _ _ _ H B) as H1;
      (destruct (Nat.ltb (length d) k); [exact H|]).
    - constructor; [exact Logic.I|exact H1].
    - destruct x as [n|]; [|exact H1]. destruct (Nat.ltb _ _).
      + destruct dr; [|constructor; [exact Logic.I|exact H1]].
        assert (H2 : short (Data d (k + Nat.min n (length d - k)) :: q1)) by (constructor; [exact Logic.I|exact H1]).
        specialize (IH _ H2). destruct (write_loop i true ws _) as ((q2, t2), e2). exact IH.
      + specialize (IH _ H1). destruct (write_loop i dr ws q1) as ((q2, t2), e2). exact IH.
  Qed.
  Lemma write_phase_short e l g l' g' t r : short (l_wp l) -> write_phase i e l g = (l', g', t, r) -> short (l_wp l') /\ untaken t.
  Proof.
    intros H E. unfold write_phase in E. pose proof (write_short false (e_write e) _ H) as A.
    destruct (write_loop i false (e_write e) (l_wp l)) as ((q, t0), w). destruct A as (A1 & A2).
    assert (A3 : untaken (t0 ++ [Waits WFlush])) by (apply un_app; [exact A2|un]).
    destruct w; try (destruct (wrote t0)); try (destruct (e_flush e) as [[]|]); injection E as <- <- <- <-; split; assumption.
  Qed.
  Lemma drain_phase_short e l g l' g' t r : short (l_wp l) -> drain_phase i e l g = (l', g', t, r) -> short (l_wp l') /\ untaken t.
  Proof.
    intros H E. unfold drain_phase in E.
    set (l0 := match l_drain l with None => set_drain (i_disc i (l_s l)) l | Some _ => l end) in *.
    assert (Q0 : l_wp l0 = l_wp l) by (unfold l0; destruct (l_drain l); reflexivity).
    destruct (l_drain l0) as [who|]; [|injection E as <- <- <- <-; rewrite Q0; split; [exact H|un]].
    rewrite Q0 in E. pose proof (write_short true (e_write2 e) _ H) as A.
    destruct (write_loop i true (e_write2 e) (l_wp l)) as ((q, t0), w). destruct A as (A1 & A2).
    assert (A3 : forall u, untaken u -> untaken (t0 ++ u)) by (intros u Hu; apply un_app; [exact A2|exact Hu]).
    destruct w; try (destruct (e_flush2 e) as [[]|]); try (destruct (e_shut e) as [[]|]); try (destruct who);
      try (destruct (e_slept e)); try (destruct (e_drain e) as [[]|]); injection E as <- <- <- <-;
      (split; [exact A1|first [exact A2|apply A3; un]]).
  Qed.
  Lemma noisy_un e l g l' g' t r sent : broadcast_phase i e l g = ((l', g', t, r), sent) -> untaken t.
  Proof.
    assert (SK : forall d hold cs, let '(_, t, _) := sink_poll d hold cs in untaken (t : list ev)).
    { intros d hold cs. destruct hold as [mm|]; [destruct cs as [|[] cs]|]; cbn; un. }
    assert (SA : forall d ms hold fl cs ss used, let '(_, _, t) := send_all d ms hold fl cs ss used in untaken (t : list ev)).
    { intros d ms. induction ms as [|mm ms IH]; intros; cbn [send_all]; pose proof (SK d hold cs) as H;
        destruct (sink_poll d hold cs) as ((r0, t0), cs'); [destruct r0; exact H|].
      destruct r0; [|exact H|exact H]. destruct (match ss with b :: _ => b | [] => true end).
      - specialize (IH (Some mm) fl cs' (tl ss) (used + 1)). destruct (send_all d ms (Some mm) fl cs' (tl ss) (used + 1)) as ((kp, u), t').
        now apply un_app.
      - apply un_app; [exact H|un]. }
    assert (SV : forall d ms hold fl cs ss, let '(_, _, t) := serve d ms hold fl cs ss in untaken (t : list ev)).
    { intros. unfold serve. destruct (_ && _); [|apply SA]. pose proof (SK d hold cs) as H.
      destruct (sink_poll d hold cs) as ((r0, t0), cs'). destruct r0; exact H. }
    assert (AL : forall sinks b, let '(_, _, _, t) := serve_all (In := In) (Err := Err) (Ctl := Ctl) (Ans := Ans) e sinks b in untaken (t : list ev)).
    { intros sinks b. induction b as [|(d, ms) b IH]; cbn [serve_all]; [un|].
      destruct (match aget d sinks with Some x => x | None => (None, true) end) as (hold, fl).
      pose proof (SV d ms hold fl (e_chan e d) (e_send e d)) as H.
      destruct (serve d ms hold fl (e_chan e d) (e_send e d)) as ((kp, u), t0).
      destruct (serve_all e sinks b) as (((b2, k2), u2), t2). destruct kp as [((ms', h'), fl')|]; now apply un_app. }
    unfold broadcast_phase. pose proof (AL (l_sinks l) (i_bc i (l_s l))) as H.
    destruct (serve_all e (l_sinks l) (i_bc i (l_s l))) as (((b', k'), used), t0).
    destruct (negb _); [|destruct (_ <? _)]; intros E; injection E as <- <- <- <- _; exact H.
  Qed.

  (** ** A poll, a life *)
  Lemma poll_fine e l g l' t r : wfq (l_wp l) -> short (l_wp l) -> up_to i m t -> poll_case i e l g l' t r ->
    (forall t1 t2, t = t1 ++ Took :: t2 -> size (unsent (l_wp l)) + bytes i t1 <= room m + size (written t1)) /\
    (r = RPending -> short (l_wp l')).
  Proof.
    intros W H U C.
    assert (A : forall l1 g1 t1 r1 u, prod i e l g = (l1, g1, t1, r1) -> t = t1 ++ u -> untaken u ->
      (forall a b, t = a ++ Took :: b -> size (unsent (l_wp l)) + bytes i a <= room m + size (written a)) /\ short (l_wp l1)).
    { intros l1 g1 t1 r1 u E -> N. apply up_app in U as (U1 & _). pose proof (prod_fine e l g) as F. pose proof (prod_preW i e l g) as PW. rewrite E in F, PW.
      split; [|eapply short_later; eauto]. intros a b X. destruct (split_app _ _ _ _ _ X) as [(c & ->)|(c & -> & ->)].
      - cbn [fine] in F. specialize (F W H U1 a c eq_refl). lia.
      - destruct N. apply in_app_iff. right. now left. }
    destruct C as [l1 g1 t1 r E1|l1 g1 t1 l2 g2 t2 r E1 E2|l1 g1 t1 l2 g2 t2 l3 g3 t3 r sent E1 E2 E3
      |l1 g1 t1 l2 g2 t2 l3 g3 t3 sent l4 g4 t4 r E1 E2 E3 E4|l1 g1 t1 l2 g2 t2 l3 g3 t3 sent l4 g4 t4 w E1 E2 E3 E4 Ew].
    - destruct (A _ _ _ _ [] E1 (eq_sym (app_nil_r _)) ltac:(un)) as (A1 & A2). auto.
    - assert (S1 : short (l_wp l1)).
      { pose proof (prod_preW i e l g) as PW. rewrite E1 in PW. eapply short_later; eauto. now apply up_app in U as (U1 & _). }
      destruct (write_phase_short _ _ _ _ _ _ _ S1 E2) as (S2 & N2).
      destruct (A _ _ _ _ _ E1 eq_refl N2) as (A1 & A2). auto.
    - assert (S1 : short (l_wp l1)).
      { pose proof (prod_preW i e l g) as PW. rewrite E1 in PW. eapply short_later; eauto. now apply up_app in U as (U1 & _). }
      destruct (write_phase_short _ _ _ _ _ _ _ S1 E2) as (S2 & N2). pose proof (noisy_un _ _ _ _ _ _ _ _ E3) as N3.
      destruct (broadcast_noisy i _ _ _ _ _ _ _ _ E3) as (_ & WP3 & _).
      destruct (A _ _ _ _ _ E1 eq_refl ltac:(now apply un_app)) as (A1 & A2). split; [exact A1|]. rewrite WP3. auto.
    - assert (S1 : short (l_wp l1)).
      { pose proof (prod_preW i e l g) as PW. rewrite E1 in PW. eapply short_later; eauto. now apply up_app in U as (U1 & _). }
      destruct (write_phase_short _ _ _ _ _ _ _ S1 E2) as (S2 & N2). pose proof (noisy_un _ _ _ _ _ _ _ _ E3) as N3.
      destruct (broadcast_noisy i _ _ _ _ _ _ _ _ E3) as (_ & WP3 & _). rewrite <- WP3 in S2.
      destruct (drain_phase_short _ _ _ _ _ _ _ S2 E4) as (S4 & N4).
      destruct (A _ _ _ _ _ E1 eq_refl ltac:(repeat apply un_app; assumption)) as (A1 & A2). auto.
    - assert (S1 : short (l_wp l1)).
      { pose proof (prod_preW i e l g) as PW. rewrite E1 in PW. eapply short_later; eauto. now apply up_app in U as (U1 & _). }
      destruct (write_phase_short _ _ _ _ _ _ _ S1 E2) as (S2 & N2). pose proof (noisy_un _ _ _ _ _ _ _ _ E3) as N3.
      destruct (broadcast_noisy i _ _ _ _ _ _ _ _ E3) as (_ & WP3 & _). rewrite <- WP3 in S2.
      destruct (drain_phase_short _ _ _ _ _ _ _ S2 E4) as (S4 & N4).
      assert (Nw : untaken w) by (rewrite Ew; destruct (_ || _); un).
      destruct (A _ _ _ _ _ E1 eq_refl ltac:(repeat apply un_app; assumption)) as (A1 & A2). auto.
  Qed.
  Lemma life_fine es : forall l l' t r, wfq (l_wp l) -> short (l_wp l) -> up_to i m t -> life i es l = (l', t, r) ->
    forall t1 t2, t = t1 ++ Took :: t2 -> size (unsent (l_wp l)) + bytes i t1 <= room m + size (written t1).
  Proof.
    induction es as [|(e, g) es IH]; intros l l' t r W H U E a b X; cbn [life] in E.
    - injection E as <- <- <-. destruct a; discriminate.
    - destruct (poll i e l g) as (((l1, g1), t1), x) eqn:EP. apply poll_cases in EP.
      destruct x.
      2,3,4,5: injection E as <- <- <-; apply (proj1 (poll_fine _ _ _ _ _ _ W H U EP) _ _ X).
      destruct (life i es l1) as ((l2, t2), x2) eqn:EL. injection E as <- <- <-. apply up_app in U as (U1 & U2).
      destruct (poll_fine _ _ _ _ _ _ W H U1 EP) as (A1 & A2). destruct (poll_stream i _ _ _ _ _ _ W EP) as (_ & B & _).
      destruct (B eq_refl) as (W1 & U1'). destruct (split_app _ _ _ _ _ X) as [(c & ->)|(c & -> & E2)]; [now apply (A1 a c)|].
      specialize (IH _ _ _ _ W1 (A2 eq_refl) U2 EL _ _ E2). apply (f_equal size) in U1'. rewrite !size_app in U1'. fold (bytes i t1) in U1'.
      rewrite bytes_app, written_app, size_app. unfold bytes in *. lia.
  Qed.
  Lemma room_before es s l t r : life i es (lst_new s) = (l, t, r) -> up_to i m t ->
    forall t1 t2, t = t1 ++ Took :: t2 -> backlog i t1 <= room m.
  Proof.
    intros E U a b X. pose proof (life_fine es (lst_new s) l t r (Forall_nil _) (Forall_nil _) U E a b X) as A. cbn in A.
    unfold backlog. lia.
  Qed.
  Lemma room_after es s l t r : life i es (lst_new s) = (l, t, r) -> up_to i m t ->
    forall t1 t2 t3, t = t1 ++ Took :: t2 ++ t3 -> backlog i (t1 ++ Took :: t2) <= room m + bytes i t2.
  Proof.
    intros E U a b c X. pose proof (room_before _ _ _ _ _ E U a (b ++ c) X) as A. unfold backlog in *.
    change (a ++ Took :: b) with (a ++ [Took] ++ b). rewrite !bytes_app, !written_app, !size_app. cbn [written flat_map].
    replace (bytes i [Took]) with 0 by reflexivity. cbn [size length]. lia.
  Qed.
End Flow.
