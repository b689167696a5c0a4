(** Hook verdicts: specification and lemmas. *)
From Coq Require Import List Bool String Ascii NArith Lia.
From Coq Require Import ZifyBool ZifyNat ZifyN.
From Verif Require Import Base BaseLemmas TopicModel MsgModel PendingModel OutModel RouteModel RetainModel GlobModel Sess5Model Sess3Model
  ConnModel OnlineModel OnlineSpec OnlineProofs HookModel HookFacts.
Import ListNotations.
Local Open Scope N_scope.

(** ** Specification *)

(** The hook for this packet is enabled. *)
Definition hooked5 (hk : hooks) (x : in5) : bool :=
  match x with
  | IPub _ => hk_publish hk | ISub _ _ _ => hk_subscribe hk | IUnsub _ _ => hk_unsubscribe hk | _ => false
  end.
Definition hooked3 (hk : hooks) (x : in3) : bool :=
  match x with
  | YPub _ => hk_publish hk | YSub _ _ => hk_subscribe hk | YUnsub _ _ => hk_unsubscribe hk | _ => false
  end.
(** The request shown to the application is this packet. *)
Definition asks5 (q : req5) (x : in5) : Prop :=
  match q with QPub w => x = IPub w | QSub p id fs => x = ISub p id fs | QUnsub p fs => x = IUnsub p fs end.
Definition asks3 (q : req3) (x : in3) : Prop :=
  match q with ZPub w => x = YPub w | ZSub p fs => x = YSub p fs | ZUnsub p fs => x = YUnsub p fs end.

(** The application's answer refuses the request. *)
Definition refused5 (q : req5) (a : ans5) : Prop :=
  match q, a with
  | QPub _, APub _ code _ | QSub _ _ _, ASub _ _ _ code _ | QUnsub _ _, AUnsub _ _ code _ => code <> 0
  | _, _ => False
  end.
(** The acknowledgement that carries the verdict; QoS 0 has none. *)
Definition refusal5 (a : ans5) : list pkt5 :=
  match a with
  | APub w code _ => match w5_qp w with Q0 => [] | Q1 p => [KPuback p code] | Q2 p => [KPubrec p code] end
  | ASub p _ fs code _ => [KSuback p (map (fun _ => code) fs)]
  | AUnsub p fs code _ => [KUnsuback p (map (fun _ => code) fs)]
  end.
(** It accepts it, as packet [x], and asks for actions. *)
Definition accepted5 (q : req5) (a : ans5) (x : in5) (acts : list action) : Prop :=
  match q, a with
  | QPub _, APub w code after => code = 0 /\ x = IPub w /\ after = Some acts
  | QSub _ _ _, ASub p id fs code after => code = 0 /\ x = ISub p id fs /\ after = Some acts
  | QUnsub _ _, AUnsub p fs code after => code = 0 /\ x = IUnsub p fs /\ after = Some acts
  | _, _ => False
  end.
Definition refused3 (q : req3) (a : ans3) : Prop :=
  match q, a with
  | ZPub _, BPub _ ok _ | ZSub _ _, BSub _ _ ok _ | ZUnsub _ _, BUnsub _ _ ok _ => ok = false
  | _, _ => False
  end.
Definition accepted3 (q : req3) (a : ans3) (x : in3) (acts : list action) : Prop :=
  match q, a with
  | ZPub _, BPub w ok after => ok = true /\ x = YPub w /\ after = Some acts
  | ZSub _ _, BSub p fs ok after => ok = true /\ x = YSub p fs /\ after = Some acts
  | ZUnsub _ _, BUnsub p fs ok after => ok = true /\ x = YUnsub p fs /\ after = Some acts
  | _, _ => False
  end.

(** Let in, as the packet [x], but then the after-hook fails. *)
Definition after_fails5 (q : req5) (a : ans5) (x : in5) : Prop :=
  match q, a with
  | QPub _, APub w code after => code = 0 /\ x = IPub w /\ after = None
  | QSub _ _ _, ASub p id fs code after => code = 0 /\ x = ISub p id fs /\ after = None
  | QUnsub _ _, AUnsub p fs code after => code = 0 /\ x = IUnsub p fs /\ after = None
  | _, _ => False
  end.
Definition after_fails3 (q : req3) (a : ans3) (x : in3) : Prop :=
  match q, a with
  | ZPub _, BPub w ok after => ok = true /\ x = YPub w /\ after = None
  | ZSub _ _, BSub p fs ok after => ok = true /\ x = YSub p fs /\ after = None
  | ZUnsub _ _, BUnsub p fs ok after => ok = true /\ x = YUnsub p fs /\ after = None
  | _, _ => False
  end.

(** ** Lemmas *)
Lemma c47_before hk hash pick now len x s g : len <= cf_packet_server (g_cfg g) ->
  hooked5 hk x = true -> exists q, packet5 hk hash pick now (len, x) s g = HpOk s g [] (Some q) /\ asks5 q x.
Proof.
  intros L H. unfold packet5. cbn [fst snd]. assert (X : (cf_packet_server (g_cfg g) <? len) = false) by (apply N.ltb_ge; exact L).
  rewrite X. destruct x; try discriminate H; cbn in H; rewrite H; eexists; split; reflexivity.
Qed.
Lemma c47_before3 hk hash now len x s g : len <= cf_packet_server (g_cfg g) ->
  hooked3 hk x = true -> exists q, packet3 hk hash now (len, x) s g = HpOk s g [] (Some q) /\ asks3 q x.
Proof.
  intros L H. unfold packet3. cbn [fst snd]. assert (X : (cf_packet_server (g_cfg g) <? len) = false) by (apply N.ltb_ge; exact L).
  rewrite X. destruct x; try discriminate H; cbn in H; rewrite H; eexists; split; reflexivity.
Qed.

Section Gen.
  Context {P Msg In Err Ctl Act Req Ans S G : Type}.
  Variable i : iface P Msg In Err Ctl Act Req Ans S G.
  Lemma c47_waits e l g q : l_hook l = Some q -> e_hook e = HWait -> poll i e l g = (l, g, [Waits WHook], RPending).
  Proof. intros A B. unfold poll, hook_phase. rewrite A, B. reflexivity. Qed.
  Lemma c47_failed e l g q : l_hook l = Some q -> e_hook e = HFail -> exists l', poll i e l g = (l', g, [], RReady true) /\ l_s l' = l_s l.
  Proof. intros A B. unfold poll, hook_phase. rewrite A, B. eexists. split; reflexivity. Qed.
  Lemma asked_for_asked_same (s s' : S) d : i_bc i s' = i_bc i s -> NoDup (keys (i_bc i s)) -> asked_for d (asked i s s' : list (ev P Msg Req)) = [].
  Proof.
    intros E ND. unfold asked. rewrite E.
    assert (K : forall b, (forall x, List.In x b -> skipn (List.length (queue_of (i_bc i s) (fst x))) (snd x) = []) ->
      flat_map (fun x => map (Asked (fst x)) (skipn (List.length (queue_of (i_bc i s) (fst x))) (snd x))) b = ([] : list (ev P Msg Req))).
    { induction b as [|x b IH]; intros H; cbn [flat_map]; [reflexivity|]. rewrite (H x (or_introl eq_refl)), IH; [reflexivity|]. intros y Hy. apply H. now right. }
    rewrite K; [reflexivity|]. intros (c, ms) Hx. cbn [fst snd]. unfold queue_of. rewrite (in_aget c ms _ ND Hx). apply skipn_all.
  Qed.
End Gen.

Lemma hook5_refused hash pick now q a s g : refused5 q a -> hook5 hash pick now q a s g = HpOk s g (refusal5 a) [].
Proof.
  unfold refused5, hook5. destruct q, a; intros H; try contradiction; (destruct (N.eqb_spec code 0) as [X|X]; [contradiction|]); reflexivity.
Qed.
Lemma asked_for_queued {P Msg Req} d (ps : list P) : asked_for d (map Queued ps : list (ev P Msg Req)) = [].
Proof. induction ps as [|p ps IH]; [reflexivity|]. cbn. exact IH. Qed.
Lemma queued_queued {P Msg Req} (ps : list P) : queued (map Queued ps : list (ev P Msg Req)) = ps.
Proof. induction ps as [|p ps IH]; [reflexivity|]. cbn. f_equal. exact IH. Qed.
Lemma queued_asked {P Msg In Err Ctl Act Req Ans S G : Type} (i : iface P Msg In Err Ctl Act Req Ans S G) (s s' : S) :
  queued (asked i s s' : list (ev P Msg Req)) = [].
Proof.
  unfold asked. induction (i_bc i s') as [|(c, ms) b IH]; [reflexivity|]. cbn [flat_map]. rewrite queued_app, IH, app_nil_r.
  cbn [fst snd]. induction (skipn _ ms) as [|m r IHm]; [reflexivity|]. cbn. exact IHm.
Qed.

Lemma c47_refused hk hash pick encode now q a l g l' g' t r :
  let i := online5 hk hash pick encode in
  NoDup (keys (s_bcast (l_s l))) -> refused5 q a -> hook_done i now q a l g = (l', g', t, r) ->
  r = None /\ g' = g /\ l_s l' = fst (after_packet5 now (l_s l)) /\ (forall d, asked_for d t = []) /\
  queued t = (refusal5 a ++ snd (after_packet5 now (l_s l)))%list.
Proof.
  intros i ND R. unfold hook_done. change (i_hook i) with (hook5 hash pick). rewrite (hook5_refused hash pick now q a (l_s l) g R).
  cbn [actions next]. unfold after. change (i_after i) with after_packet5. cbn [l_s push set_wp set_s].
  pose proof (after_same now (l_s l)) as (B1 & _).
  destruct (after_packet5 now (l_s l)) as (s2, out2) eqn:EA. cbn [fst] in B1. cbn [next]. intros E. injection E as <- <- <- <-.
  split; [reflexivity|]. split; [reflexivity|]. split; [reflexivity|]. split.
  - intros d. rewrite !asked_for_app, !asked_for_queued. rewrite (asked_for_asked_same i (l_s l) (l_s l) d eq_refl ND).
    rewrite (asked_for_asked_same i (l_s l) s2 d B1 ND). reflexivity.
  - rewrite !queued_app, !queued_queued, !queued_asked. reflexivity.
Qed.

Lemma c47_accepted hash pick now len q a x acts s g s' g' out :
  accepted5 q a x acts -> len <= cf_packet_server (g_cfg g) ->
  handle_packet5 hash pick now len x s g = Go s' g' out -> is_error5 out = false ->
  hook5 hash pick now q a s g = HpOk s' g' out acts.
Proof.
  intros A L H NE. unfold handle_packet5 in H. assert (X : (cf_packet_server (g_cfg g) <? len) = false) by (apply N.ltb_ge; exact L).
  rewrite X in H. unfold accepted5 in A. destruct q, a; try contradiction; destruct A as (-> & -> & ->); cbn [hook5 N.eqb].
  - destruct (handle_publish5 hash pick w0 s g) as [((s2, g2), o2)|]; [|discriminate]. injection H as <- <- <-. now rewrite NE.
  - destruct (handle_subscribe5 now p0 id0 fs0 s g) as [((s2, g2), o2)|]; [|discriminate]. now injection H as <- <- <-.
  - destruct (handle_unsubscribe5 p0 fs0 s g) as [((s2, g2), o2)|]; [|discriminate]. now injection H as <- <- <-.
Qed.

Lemma c47_actions hk hash pick encode now acts : let i := online5 hk hash pick encode in forall l g s' g' u,
  apply_actions5 pick now acts (l_s l) g = HpOk s' g' [] u ->
  exists l' t, actions i now l g acts = (l', g', t, None) /\ l_s l' = s' /\ queued t = [].
Proof.
  intros i. induction acts as [|a r IH]; intros l g s' g' u; cbn [apply_actions5 actions].
  - intros E. injection E as <- <- <-. exists l, []. repeat split.
  - change (i_action i) with (action5 pick). 
    assert (N : forall s1 g1 o u1, action5 pick now a (l_s l) g = HpOk s1 g1 o u1 -> o = []).
    { intros s1 g1 o u1. unfold action5. destruct a.
      - destruct (enc_len5 _); [|discriminate]. destruct (send_publish5 _ _ _ _) as [((?, ?), ?)|]; [|discriminate]. now intros E; injection E.
      - destruct (handle_subscribe5 _ _ _ _ _ _) as [((?, ?), ?)|]; [|discriminate]. now intros E; injection E.
      - destruct (handle_unsubscribe5 _ _ _ _) as [((?, ?), ?)|]; [|discriminate]. now intros E; injection E. }
    destruct (action5 pick now a (l_s l) g) as [s1 g1 o u1| |]; try discriminate. rewrite (N _ _ _ _ eq_refl).
    intros E. destruct (IH (push [] (set_s s1 l)) g1 s' g' u E) as (l' & t & A1 & A2 & A3). cbn [next]. rewrite A1.
    eexists. eexists. split; [reflexivity|]. split; [exact A2|]. rewrite !queued_app, A3, queued_asked. reflexivity.
Qed.

Lemma c47_refused3 hk hash encode now q a l g l' g' t r :
  let i := online3 hk hash encode in
  NoDup (keys (z_bcast (l_s l))) -> refused3 q a -> hook_done i now q a l g = (l', g', t, r) ->
  r = Some (RReady true) /\ g' = g /\ l_s l' = l_s l /\ (forall d, asked_for d t = []) /\ queued t = [].
Proof.
  intros i ND R. unfold hook_done. change (i_hook i) with (hook3 hash).
  assert (H : hook3 hash now q a (l_s l) g = HpErr (l_s l) g []).
  { unfold refused3, hook3 in *. destruct q, a; try contradiction; subst ok; reflexivity. }
  rewrite H. unfold failed. intros E. injection E as <- <- <- <-. split; [reflexivity|]. split; [reflexivity|]. split; [reflexivity|].
  rewrite app_nil_r. split; [intros d; now apply asked_for_asked_same|apply queued_asked].
Qed.

Lemma c47_accepted3 hash now len q a x acts s g s' g' out :
  accepted3 q a x acts -> len <= cf_packet_server (g_cfg g) ->
  handle_packet3 hash now len x s g = Go3 s' g' out -> hook3 hash now q a s g = HpOk s' g' out acts.
Proof.
  intros A L H. unfold handle_packet3 in H. assert (X : (cf_packet_server (g_cfg g) <? len) = false) by (apply N.ltb_ge; exact L).
  rewrite X in H. unfold accepted3 in A. destruct q, a; try contradiction; destruct A as (-> & -> & ->); cbn [hook3].
  - destruct (handle_publish3 hash w0 s g) as [((s2, g2), o2)| |]; try discriminate. now injection H as <- <- <-.
  - destruct (handle_subscribe3 now p0 fs0 s g) as ((s2, g2), [o2| |]); try discriminate. now injection H as <- <- <-.
  - destruct (handle_unsubscribe3 p0 fs0 s g) as [((s2, g2), o2)|]; [|discriminate]. now injection H as <- <- <-.
Qed.

Lemma failed_quiet {P Msg In Err Ctl Act Req Ans S G} (i : iface P Msg In Err Ctl Act Req Ans S G) (s s' : S) (out : list P) b :
  ~ List.In (Wrote b) (asked i s s' ++ map Queued out : list (ev P Msg Req))%list.
Proof.
  intros J. apply in_app_iff in J as [J|J]; [|apply in_map_iff in J as (p & X & _); discriminate].
  unfold asked in J. apply in_flat_map in J as (x & _ & J). apply in_map_iff in J as (m & X & _). discriminate.
Qed.
Lemma c47_afterwards hk hash pick encode e l g q a x len s' g' out : let i := online5 hk hash pick encode in
  l_hook l = Some q -> e_hook e = HDone a -> after_fails5 q a x -> len <= cf_packet_server (g_cfg g) ->
  handle_packet5 hash pick (e_now e) len x (l_s l) g = Go s' g' out -> is_error5 out = false ->
  exists l' t, poll i e l g = (l', g', t, RReady true) /\ l_s l' = s' /\ queued t = out /\ (forall b, ~ List.In (Wrote b) t).
Proof.
  intros i HQ HA A L H NE. unfold handle_packet5 in H. assert (X : (cf_packet_server (g_cfg g) <? len) = false) by (apply N.ltb_ge; exact L). rewrite X in H.
  assert (K : hook5 hash pick (e_now e) q a (l_s l) g = HpErr s' g' out).
  { unfold after_fails5 in A. destruct q, a; try contradiction; destruct A as (-> & -> & ->); cbn [hook5 N.eqb].
    - destruct (handle_publish5 hash pick w0 (l_s l) g) as [((s2, g2), o2)|]; [|discriminate]. injection H as <- <- <-. now rewrite NE.
    - destruct (handle_subscribe5 (e_now e) p0 id0 fs0 (l_s l) g) as [((s2, g2), o2)|]; [|discriminate]. now injection H as <- <- <-.
    - destruct (handle_unsubscribe5 p0 fs0 (l_s l) g) as [((s2, g2), o2)|]; [|discriminate]. now injection H as <- <- <-. }
  unfold poll, hook_phase. rewrite HQ, HA. unfold hook_done. change (i_hook i) with (hook5 hash pick). change (l_s (set_hook None l)) with (l_s l). rewrite K. unfold failed. cbn [next].
  do 2 eexists. split; [reflexivity|]. split; [reflexivity|]. split; [now rewrite queued_app, queued_asked, queued_queued|intros b; apply failed_quiet].
Qed.
Lemma c47_afterwards3 hk hash encode e l g q a x len s' g' out : let i := online3 hk hash encode in
  l_hook l = Some q -> e_hook e = HDone a -> after_fails3 q a x -> len <= cf_packet_server (g_cfg g) ->
  handle_packet3 hash (e_now e) len x (l_s l) g = Go3 s' g' out ->
  exists l' t, poll i e l g = (l', g', t, RReady true) /\ l_s l' = s' /\ queued t = out /\ (forall b, ~ List.In (Wrote b) t).
Proof.
  intros i HQ HA A L H. unfold handle_packet3 in H. assert (X : (cf_packet_server (g_cfg g) <? len) = false) by (apply N.ltb_ge; exact L). rewrite X in H.
  assert (K : hook3 hash (e_now e) q a (l_s l) g = HpErr s' g' out).
  { unfold after_fails3 in A. destruct q, a; try contradiction; destruct A as (-> & -> & ->); cbn [hook3].
    - destruct (handle_publish3 hash w0 (l_s l) g) as [((s2, g2), o2)| |]; try discriminate. now injection H as <- <- <-.
    - destruct (handle_subscribe3 (e_now e) p0 fs0 (l_s l) g) as ((s2, g2), [o2| |]); try discriminate. now injection H as <- <- <-.
    - destruct (handle_unsubscribe3 p0 fs0 (l_s l) g) as [((s2, g2), o2)|]; [|discriminate]. now injection H as <- <- <-. }
  unfold poll, hook_phase. rewrite HQ, HA. unfold hook_done. change (i_hook i) with (hook3 hash). change (l_s (set_hook None l)) with (l_s l). rewrite K. unfold failed. cbn [next].
  do 2 eexists. split; [reflexivity|]. split; [reflexivity|]. split; [now rewrite queued_app, queued_asked, queued_queued|intros b; apply failed_quiet].
Qed.

Lemma c47_connect_refused M pw first final utf8 hk code c a uuid now ask p l :
  ck_before hk = true -> code <> 0 ->
  exists k, @connect_hooked5 M pw first final utf8 hk (Some code) c a uuid now ask p l = ([AConnack k], [], CFail) /\
    ka_code k = code /\ ka_present k = false.
Proof.
  intros B NZ. unfold connect_hooked5, before_connect5. rewrite B. destruct (N.eqb_spec code 0); [contradiction|].
  eexists. split; [reflexivity|]. split; reflexivity.
Qed.

(** The actions are carried out one after the other. *)
Inductive in_order (pick : string -> string -> N) (now : N) : list action -> sess5 -> glob -> sess5 -> glob -> Prop :=
| IO_nil s g : in_order pick now [] s g s g
| IO_cons a r s g s1 g1 s' g' : action5 pick now a s g = HpOk s1 g1 [] tt -> in_order pick now r s1 g1 s' g' -> in_order pick now (a :: r) s g s' g'.

Lemma c47_connect_accepted M pw first final utf8 hk verdict c a uuid now ask p l :
  ck_before hk = false \/ verdict = Some 0 ->
  @connect_hooked5 M pw first final utf8 hk verdict c a uuid now ask p l = connect_phase5 M pw first final utf8 c a uuid now ask p l.
Proof. unfold connect_hooked5, before_connect5. intros [->| ->]; [reflexivity|]. destruct (ck_before hk); reflexivity. Qed.
Lemma c47_connect_failed M pw first final utf8 hk c a uuid now ask p l : ck_before hk = true ->
  @connect_hooked5 M pw first final utf8 hk None c a uuid now ask p l = ([], [], CFail).
Proof. unfold connect_hooked5, before_connect5. now intros ->. Qed.
Lemma c47_connect3 hk verdict : before_connect3 hk verdict = true <-> (ck_before hk = false \/ verdict = Some true).
Proof.
  unfold before_connect3. destruct (ck_before hk); [|split; auto]. destruct verdict as [[]|]; split; auto; try discriminate; intros [H|H]; discriminate.
Qed.
Lemma c47_after_failed hk pick now s g : ck_before hk = true -> after_connect5 hk pick now None s g = HpErr s g [].
Proof. unfold after_connect5. now intros ->. Qed.
Lemma c47_after_actions hk pick now acts s g s' g' u : ck_before hk = true ->
  (after_connect5 hk pick now (Some acts) s g = HpOk s' g' [] u <-> in_order pick now acts s g s' g').
Proof.
  unfold after_connect5. intros ->. destruct u. revert s g. induction acts as [|a r IH]; intros s g; cbn [apply_actions5].
  - split; [intros H; injection H as <- <-; constructor|]. intros H. inversion H; subst. reflexivity.
  - split.
    + intros H. destruct (action5 pick now a s g) as [s1 g1 o []| |] eqn:E; try discriminate H.
      apply IH in H. econstructor; [|exact H]. destruct a; cbn in E |- *;
      repeat match goal with |- context[match ?x with _ => _ end] => destruct x as [[[? ?] ?]|] || destruct x; try discriminate E end; congruence.
    + intros H. inversion H as [|? ? ? ? s1 g1 ? ? A R]; subst. rewrite A. now apply IH.
Qed.
