(** The default hook changes nothing: proofs. *)
From Coq Require Import List Bool Arith NArith String Lia.
From Verif Require Import Base BaseLemmas TopicModel MsgModel PendingModel OutModel RouteModel RetainModel GlobModel Sess5Model Sess3Model
  ConnModel OnlineModel HookModel HookLast StdHookModel StdHookSpec.
Import List ListNotations.
Local Open Scope N_scope.
Local Open Scope list_scope.

Section Gen.
  Context {P Msg X Err Ctl Act Req Ans S G : Type}.
  Notation iface := (iface P Msg X Err Ctl Act Req Ans S G).
  Notation ph := (ph P Msg Req S G).
  Definition sim (a b : ph) : Prop :=
    let '(l, g, t, r) := a in let '(l', g', t', r') := b in l = l' /\ g = g' /\ visible t = visible t' /\ r = r'.
  Lemma sim_refl a : sim a a.
  Proof. destruct a as [[[? ?] ?] ?]. repeat split. Qed.
  Lemma visible_app (a b : list (ev P Msg Req)) : visible (a ++ b) = visible a ++ visible b.
  Proof. apply filter_app. Qed.
  Lemma sim_next a b k k' : sim a b -> (forall l g, sim (k l g) (k' l g)) -> sim (next a k) (next b k').
  Proof.
    destruct a as [[[l g] t] r], b as [[[l' g'] t'] r']. intros (-> & -> & V & ->) K. cbn. destruct r' as [x|]; [repeat split; exact V|].
    specialize (K l' g'). destruct (k l' g') as [[[? ?] ?] ?], (k' l' g') as [[[? ?] ?] ?]. destruct K as (-> & -> & V' & ->). repeat split. now rewrite !visible_app, V, V'.
  Qed.
  Lemma sim_hidden l g t k b : visible t = [] -> sim (k l g) b -> sim (next (l, g, t, None) k) b.
  Proof. intros V K. cbn. destruct (k l g) as [[[? ?] ?] ?], b as [[[? ?] ?] ?]. destruct K as (-> & -> & V' & ->). repeat split. now rewrite visible_app, V, V'. Qed.
  Lemma sim_took a b : sim a b -> sim (took a) (took b).
  Proof. destruct a as [[[l g] t] r], b as [[[l' g'] t'] r']. intros (-> & -> & V & ->). repeat split. cbn [visible filter]. f_equal. exact V. Qed.
  Lemma next_assoc (a : ph) k k' : next (next a k) k' = next a (fun l g => next (k l g) k').
  Proof.
    destruct a as [[[l g] t] r]. cbn. destruct r as [x|]; [reflexivity|]. destruct (k l g) as [[[l1 g1] t1] r1]. cbn. destruct r1; [reflexivity|].
    destruct (k' l1 g1) as [[[? ?] ?] ?]. now rewrite app_assoc.
  Qed.
  Lemma visible_asked (i : iface) s s' : visible (asked i s s') = [].
  Proof.
    unfold asked. induction (i_bc i s') as [|[d ms] b IH]; [reflexivity|]. cbn [flat_map fst snd]. rewrite visible_app, IH, app_nil_r.
    induction (skipn (length (queue_of (i_bc i s) d)) ms); [reflexivity|assumption].
  Qed.

  Definition with_packet (p : N -> X -> S -> G -> hp P S G (option Req)) (i : iface) : iface :=
    {| i_encode := i_encode i; i_disc := i_disc i; i_bc := i_bc i; i_cnt := i_cnt i; i_max := i_max i; i_set := i_set i; i_decode_error := i_decode_error i; i_packet := p;
       i_hook := i_hook i; i_after := i_after i; i_action := i_action i; i_control := i_control i; i_normal := i_normal i; i_pendings := i_pendings i; i_build := i_build i |}.
  Variables (i : iface) (pk : N -> X -> S -> G -> hp P S G (option Req)).
  Let j := with_packet pk i.
  Variables (asks : Req -> X -> Prop) (answer : Req -> Ans).
  (** Without hooks nothing is asked, and what is done is what a hooked packet leads to. *)
  Hypothesis pk_plain : forall now x s g s' g' out q, pk now x s g = HpOk s' g' out (Some q) -> False.
  Hypothesis pk_same : forall now x s g,
    pk now x s g = i_packet i now x s g \/
    exists q, i_packet i now x s g = HpOk s g [] (Some q) /\ asks q x /\
      match pk now x s g with
      | HpOk s' g' out _ => i_hook i now q (answer q) s g = HpOk s' g' out []
      | HpErr s' g' out => i_hook i now q (answer q) s g = HpErr s' g' out
      | HpPanic => i_hook i now q (answer q) s g = HpPanic
      end.

  Lemma push_none (s : S) (l : lst P Msg Req S) : s = l_s l -> push [] (set_s s l) = l.
  Proof. intros ->. destruct l. unfold push, set_wp, set_s. cbn. now rewrite app_nil_r. Qed.
  Lemma read_sim now rs : (forall x h, In (RdPacket x h) rs -> forall q, asks q x -> h = HDone (answer q)) ->
    forall l g, sim (read_phase i now rs l g) (read_phase j now rs l g).
  Proof.
    induction rs as [|[x h|e] rs IH]; intros PA l g.
    - cbn. destruct (i_disc i (l_s l)); [apply sim_refl|]. destruct (_ || _); apply sim_refl.
    - cbn [read_phase]. change (i_disc j) with (i_disc i). change (i_max j) with (i_max i). change (i_cnt j) with (i_cnt i). destruct (i_disc i (l_s l)); [apply sim_refl|]. destruct (_ || _); [apply sim_refl|].
      assert (IH' : forall l g, sim (read_phase i now rs l g) (read_phase j now rs l g)) by (apply IH; intros; eapply PA; [right|]; eassumption).
      apply sim_took. set (l0 := set_ru false l). change (i_packet j now x (l_s l0) g) with (pk now x (l_s l0) g). destruct (pk_same now x (l_s l0) g) as [E|(q & E & A & B)].
      + rewrite <- E. destruct (pk now x (l_s l0) g) as [s' g' out req|s' g' out|] eqn:EP; [|apply sim_refl|apply sim_refl].
        change (asked j) with (asked i). apply sim_next; [apply sim_refl|]. intros l1 g1. destruct req as [q|]; [exfalso; eapply pk_plain; eauto|].
        apply sim_next; [apply sim_refl|]. exact IH'.
      + rewrite E. rewrite (PA x h (or_introl eq_refl) q A). apply sim_hidden; [cbn [map]; now rewrite app_nil_r, visible_asked|]. rewrite push_none by reflexivity.
        rewrite next_assoc. apply sim_hidden; [reflexivity|]. unfold hook_done.
        destruct (pk now x (l_s l0) g) as [s' g' out req|s' g' out|] eqn:EP; rewrite B.
        * rewrite next_assoc. change (asked j) with (asked i). apply sim_next; [apply sim_refl|]. intros l1 g1. destruct req as [q'|]; [exfalso; eapply pk_plain; eauto|].
          rewrite next_assoc. apply sim_hidden; [reflexivity|]. cbv beta. apply sim_next; [apply sim_refl|]. exact IH'.
        * cbn. repeat split.
        * cbn. repeat split.
    - cbn [read_phase]. change (i_disc j) with (i_disc i). change (i_max j) with (i_max i). change (i_cnt j) with (i_cnt i). change (i_decode_error j) with (i_decode_error i). destruct (i_disc i (l_s l)); [apply sim_refl|]. destruct (_ || _); [apply sim_refl|].
      apply sim_took. destruct (i_decode_error i e _) as [[s' out]|]; [|apply sim_refl]. change (asked j) with (asked i). apply sim_next; [apply sim_refl|]. apply IH. intros; eapply PA; [right|]; eassumption.
  Qed.

  (** ** No question is ever pending without hooks *)
  Definition hl (a : ph) : Prop := let '(l, _, _, _) := a in l_hook l = None.
  Lemma hl_next a k : hl a -> (forall l g, l_hook l = None -> hl (k l g)) -> hl (next a k).
  Proof. destruct a as [[[l g] t] r]. intros H K. cbn. destruct r; [exact H|]. specialize (K l g H). now destruct (k l g) as [[[? ?] ?] ?]. Qed.
  Lemma hl_took a : hl a -> hl (took a).
  Proof. destruct a as [[[l g] t] r]. auto. Qed.
  Lemma hl_after now l g : l_hook l = None -> hl (after j now l g).
  Proof. intros H. unfold after. destruct (i_after j now (l_s l)). exact H. Qed.
  Lemma hl_read now rs : forall l g, l_hook l = None -> hl (read_phase j now rs l g).
  Proof.
    induction rs as [|[x h|e] rs IH]; intros l g H; cbn [read_phase]; (destruct (i_disc j (l_s l)); [exact H|]); (destruct (_ || _); [exact H|]).
    - exact H.
    - apply hl_took. change (i_packet j now x (l_s (set_ru false l)) g) with (pk now x (l_s (set_ru false l)) g). destruct (pk now x (l_s (set_ru false l)) g) as [s' g' out req|s' g' out|] eqn:EP; [|exact H|exact H].
      apply hl_next; [exact H|]. intros l1 g1 H1. destruct req as [q|]; [exfalso; eapply pk_plain; eauto|]. apply hl_next; [now apply hl_after|exact IH].
    - apply hl_took. destruct (i_decode_error j e _) as [[s' out]|]; [|exact H]. apply hl_next; [exact H|exact IH].
  Qed.
  Lemma hl_take e l g : l_hook l = None -> hl (take_phase j e l g).
  Proof.
    intros H. unfold take_phase. destruct (l_take l) as [[]|]; [|destruct (e_ready e) as [[]|]|exact H].
    - destruct (e_tflush e) as [[]|]; exact H.
    - destruct (e_start e); [destruct (e_tflush e) as [[]|]; exact H|exact H].
    - exact H.
    - exact H.
  Qed.
  Lemma hl_control now cs : forall l g, l_hook l = None -> hl (control_phase j now cs l g).
  Proof.
    induction cs as [|[c|] cs IH]; intros l g H; cbn [control_phase]; try exact H. destruct (i_control j now c (l_s l) g) as [[[s' g'] stop] taken].
    destruct taken; [exact H|]. destruct stop; [exact H|]. apply hl_next; [exact H|exact IH].
  Qed.
  Lemma hl_normal now ms : forall l g, l_hook l = None -> hl (normal_phase j now ms l g).
  Proof.
    induction ms as [|[[from m]|] ms IH]; intros l g H; cbn [normal_phase]; (destruct (i_disc j (l_s l)); [exact H|]); (destruct (too_much (l_wp l)); [exact H|]); try exact H.
    apply hl_took. destruct (i_normal j now from m (l_s (set_nu false l)) g) as [[s' g'] [[qos0 po]|]]; [|apply hl_next; [exact H|exact IH]].
    destruct qos0; [apply hl_next; [exact H|exact IH]|]. destruct (i_pendings j now _) as [s2 more]. apply hl_next; [exact H|exact IH].
  Qed.
  Lemma hl_write e l g : l_hook l = None -> hl (write_phase j e l g).
  Proof. intros H. unfold write_phase. destruct (write_loop j false (e_write e) (l_wp l)) as [[q t] w]. destruct w; try exact H; destruct (wrote t); try exact H; destruct (e_flush e) as [[]|]; exact H. Qed.
  Lemma hl_drain e l g : l_hook l = None -> hl (drain_phase j e l g).
  Proof.
    intros H. unfold drain_phase. set (l0 := match l_drain l with None => _ | Some _ => _ end). assert (H0 : l_hook l0 = None) by (unfold l0; destruct (l_drain l); exact H). clearbody l0.
    destruct (l_drain l0) as [who|]; [|exact H0]. destruct (write_loop j true (e_write2 e) (l_wp l0)) as [[q t] w]. destruct w; try exact H0.
    destruct (e_flush2 e) as [[]|]; try exact H0. destruct (e_shut e) as [[]|]; try exact H0. destruct who; [exact H0|]. destruct (e_slept e); [exact H0|]. destruct (e_drain e) as [[]|]; exact H0.
  Qed.
  Lemma hl_broadcast e l g : l_hook l = None -> hl (fst (broadcast_phase j e l g)).
  Proof.
    intros H. unfold broadcast_phase. destruct (serve_all e (l_sinks l) (i_bc j (l_s l))) as [[[b' k'] used] t]. destruct (negb _); [exact H|]. destruct (_ <? used); exact H.
  Qed.
  Lemma hl_poll e l g : l_hook l = None -> let '(l', _, _, _) := poll j e l g in l_hook l' = None.
  Proof.
    intros H. unfold poll.
    assert (A : hl (next (hook_phase j e l g) (fun l g => next (take_phase j e l g) (fun l g => next (read_phase j (e_now e) (e_read e) l g) (fun l g =>
      next (control_phase j (e_now e) (e_ctl e) l g) (fun l g => normal_phase j (e_now e) (e_norm e) l g)))))).
    { unfold hook_phase. rewrite H. apply hl_next; [exact H|]. intros l1 g1 H1. apply hl_next; [now apply hl_take|]. intros l2 g2 H2. apply hl_next; [now apply hl_read|]. intros l3 g3 H3.
      apply hl_next; [now apply hl_control|]. intros l4 g4 H4. now apply hl_normal. }
    destruct (next _ _) as [[[l1 g1] t1] r1]. cbn in A. destruct r1; [exact A|].
    pose proof (hl_write e l1 g1 A) as B. destruct (write_phase j e l1 g1) as [[[l2 g2] t2] r2]. cbn in B. destruct r2; [exact B|].
    pose proof (hl_broadcast e l2 g2 B) as C. destruct (broadcast_phase j e l2 g2) as [[[[l3 g3] t3] r3] sent]. cbn in C. destruct r3; [exact C|].
    pose proof (hl_drain e l3 g3 C) as D. destruct (drain_phase j e l3 g3) as [[[l4 g4] t4] r4]. cbn in D. destruct r4; exact D.
  Qed.

  Lemma poll_sim e l g : l_hook l = None -> prompt_answers asks answer e ->
    let '(l1, g1, t1, r1) := poll i e l g in let '(l2, g2, t2, r2) := poll j e l g in l1 = l2 /\ g1 = g2 /\ visible t1 = visible t2 /\ r1 = r2.
  Proof.
    intros H PA. unfold poll.
    assert (A : sim (next (hook_phase i e l g) (fun l g => next (take_phase i e l g) (fun l g => next (read_phase i (e_now e) (e_read e) l g) (fun l g =>
      next (control_phase i (e_now e) (e_ctl e) l g) (fun l g => normal_phase i (e_now e) (e_norm e) l g)))))
      (next (hook_phase j e l g) (fun l g => next (take_phase j e l g) (fun l g => next (read_phase j (e_now e) (e_read e) l g) (fun l g =>
      next (control_phase j (e_now e) (e_ctl e) l g) (fun l g => normal_phase j (e_now e) (e_norm e) l g)))))).
    { unfold hook_phase. rewrite H. apply sim_next; [apply sim_refl|]. intros l1 g1. apply sim_next; [apply sim_refl|]. intros l2 g2. apply sim_next; [apply read_sim; exact PA|]. intros l3 g3. apply sim_refl. }
    destruct (next (hook_phase i e l g) _) as [[[l1 g1] t1] r1]. destruct (next (hook_phase j e l g) _) as [[[l1' g1'] t1'] r1']. destruct A as (-> & -> & V & ->).
    destruct r1' as [x|]; [auto|]. change (write_phase j) with (write_phase i). destruct (write_phase i e l1' g1') as [[[l2 g2] t2] r2]. destruct r2; [rewrite !visible_app, V; auto|].
    change (broadcast_phase j) with (broadcast_phase i). destruct (broadcast_phase i e l2 g2) as [[[[l3 g3] t3] r3] sent]. destruct r3; [rewrite !visible_app, V; auto|].
    change (drain_phase j) with (drain_phase i). destruct (drain_phase i e l3 g3) as [[[l4 g4] t4] r4]. destruct r4; rewrite !visible_app, V; auto.
  Qed.
  Lemma life_sim es : forall l, l_hook l = None -> Forall (fun x => prompt_answers asks answer (fst x)) es ->
    let '(l1, t1, r1) := life i es l in let '(l2, t2, r2) := life j es l in l1 = l2 /\ visible t1 = visible t2 /\ r1 = r2.
  Proof.
    induction es as [|[e g] es IH]; intros l H F; [cbn; auto|]. inversion F as [|? ? F1 F2]; subst. cbn [life]. pose proof (poll_sim e l g H F1) as A. pose proof (hl_poll e l g H) as B.
    destruct (poll i e l g) as [[[l1 g1] t1] r1], (poll j e l g) as [[[l2 g2] t2] r2]. destruct A as (-> & -> & V & ->). destruct r2; auto.
    specialize (IH l2 B F2). destruct (life i es l2) as [[l3 t3] r3], (life j es l2) as [[l4 t4] r4]. destruct IH as (-> & V' & ->). rewrite !visible_app, V, V'. auto.
  Qed.
End Gen.

Definition no_hooks : hooks := Hooks false false false.
Lemma std5 hk hash pick encode es l : l_hook l = None -> Forall (fun x => prompt_answers (fun q x => asks5 q (snd x)) std_answer5 (fst x)) es ->
  let '(l1, t1, r1) := life (online5 hk hash pick encode) es l in let '(l2, t2, r2) := life (online5 no_hooks hash pick encode) es l in
  l1 = l2 /\ visible t1 = visible t2 /\ r1 = r2.
Proof.
  intros H F. change (online5 no_hooks hash pick encode) with (with_packet (packet5 no_hooks hash pick) (online5 hk hash pick encode)).
  eapply life_sim; [| |exact H|exact F].
  - intros now x s g s' g' out q E. unfold packet5 in E. cbn in E. destruct (_ <? _) in E; [|destruct (snd x)]; destruct (handle_packet5 _ _ _ _ _ _ _) in E; discriminate.
  - intros now [len x] s g. cbn [i_packet online5 i_hook]. unfold packet5. cbn [fst snd no_hooks hk_publish hk_subscribe hk_unsubscribe].
    destruct (cf_packet_server (g_cfg g) <? len) eqn:L; [now left|].
    destruct x as [w|p|p|p|p|p id fs|p fs| |code ex|]; try (now left).
    + destruct (hk_publish hk); [right|now left]. exists (QPub w). split; [reflexivity|]. split; [reflexivity|]. unfold handle_packet5. rewrite L. cbn.
      destruct (handle_publish5 hash pick w s g) as [[[s' g'] out]|]; [|reflexivity]. destruct (is_error5 out); reflexivity.
    + destruct (hk_subscribe hk); [right|now left]. exists (QSub p id fs). split; [reflexivity|]. split; [reflexivity|]. unfold handle_packet5. rewrite L. cbn.
      destruct (handle_subscribe5 now p id fs s g) as [[[s' g'] out]|]; reflexivity.
    + destruct (hk_unsubscribe hk); [right|now left]. exists (QUnsub p fs). split; [reflexivity|]. split; [reflexivity|]. unfold handle_packet5. rewrite L. cbn.
      destruct (handle_unsubscribe5 p fs s g) as [[[s' g'] out]|]; reflexivity.
Qed.
Lemma std3 hk hash encode es l : l_hook l = None -> Forall (fun x => prompt_answers (fun q x => asks3 q (snd x)) std_answer3 (fst x)) es ->
  let '(l1, t1, r1) := life (online3 hk hash encode) es l in let '(l2, t2, r2) := life (online3 no_hooks hash encode) es l in
  l1 = l2 /\ visible t1 = visible t2 /\ r1 = r2.
Proof.
  intros H F. change (online3 no_hooks hash encode) with (with_packet (packet3 no_hooks hash) (online3 hk hash encode)).
  eapply life_sim; [| |exact H|exact F].
  - intros now x s g s' g' out q E. unfold packet3 in E. cbn in E. destruct (_ <? _) in E; [|destruct (snd x)]; destruct (handle_packet3 _ _ _ _ _ _) in E; discriminate.
  - intros now [len x] s g. cbn [i_packet online3 i_hook]. unfold packet3. cbn [fst snd no_hooks hk_publish hk_subscribe hk_unsubscribe].
    destruct (cf_packet_server (g_cfg g) <? len) eqn:L; [now left|].
    destruct x as [w|p|p|p|p|p fs|p fs| | |]; try (now left).
    + destruct (hk_publish hk); [right|now left]. exists (ZPub w). split; [reflexivity|]. split; [reflexivity|]. unfold handle_packet3. rewrite L. cbn.
      destruct (handle_publish3 hash w s g) as [[[s' g'] out]| |]; reflexivity.
    + destruct (hk_subscribe hk); [right|now left]. exists (ZSub p fs). split; [reflexivity|]. split; [reflexivity|]. unfold handle_packet3. rewrite L. cbn.
      destruct (handle_subscribe3 now p fs s g) as [[s' g'] []]; reflexivity.
    + destruct (hk_unsubscribe hk); [right|now left]. exists (ZUnsub p fs). split; [reflexivity|]. split; [reflexivity|]. unfold handle_packet3. rewrite L. cbn.
      destruct (handle_unsubscribe3 p fs s g) as [[[s' g'] out]|]; reflexivity.
Qed.

(** CONNECT *)
Lemma std_connect5 M pw first final utf8 hk c a uuid now ask p l :
  @connect_hooked5 M pw first final utf8 hk std_before5 c a uuid now ask p l = connect_phase5 M pw first final utf8 c a uuid now ask p l.
Proof. unfold connect_hooked5, before_connect5, std_before5. destruct (ck_before hk); reflexivity. Qed.
Lemma std_after5 hk pick now s g : after_connect5 hk pick now std_after s g = HpOk s g [] tt.
Proof. unfold after_connect5, std_after. destruct (ck_before hk); reflexivity. Qed.
Lemma std_connect3 hk : before_connect3 hk std_before3 = true.
Proof. unfold before_connect3, std_before3. destruct (ck_before hk); reflexivity. Qed.
