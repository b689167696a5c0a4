(** The server process: proofs. *)
From Coq Require Import List Bool Arith NArith Lia.
From Verif Require Import Base AcceptModel GlobModel TextModel PassModel ConfModel ListenModel ListenSpec.
Import ListNotations.
Local Open Scope N_scope.

Lemma put_same {A} k (x y : A) l : nth_error l k = Some y -> nth_error (list_put k x l) k = Some x.
Proof. revert l. induction k as [|k IH]; intros [|z l] H; cbn in *; try discriminate; auto. Qed.
Lemma put_other {A} k j (x : A) l : j <> k -> nth_error (list_put k x l) j = nth_error l j.
Proof. revert j l. induction k as [|k IH]; intros [|j] [|z l] H; cbn; auto; congruence. Qed.
Lemma put_length {A} k (x : A) l : length (list_put k x l) = length l.
Proof. revert l. induction k as [|k IH]; intros [|z l]; cbn; auto. Qed.

(** What a step does to loop [k]. *)
Lemma step_other e s s' o k : lstep e s = Some (s', o) -> about e <> Some k ->
  nth_error (sv_tasks s') k = nth_error (sv_tasks s) k /\ (forall c, ~ In (Served k c) o).
Proof.
  intros E N. destruct e as [j ok|j c|j ok|j|ok|c|ok|d]; cbn in E, N.
  - assert (k <> j) by congruence. destruct (nth_error (sv_tasks s) j) as [[]|]; try discriminate. injection E as <- <-. cbn. rewrite put_other by assumption. auto.
  - assert (k <> j) by congruence. destruct (nth_error (sv_tasks s) j) as [[]|]; try discriminate; injection E as <- <-; cbn; rewrite ?put_other by assumption; split; auto; intros x [F|[]]; discriminate.
  - assert (k <> j) by congruence. destruct ok; destruct (nth_error (sv_tasks s) j) as [[|q|]|]; try discriminate; [destruct q as [|c q]; [discriminate|]|]; injection E as <- <-; cbn; rewrite put_other by assumption; split; auto; intros x F.
    + destruct F as [F|[]]. congruence.
    + apply in_map_iff in F. destruct F as (? & F & _). discriminate.
  - assert (k <> j) by congruence. destruct (nth_error (sv_tasks s) j) as [[| |t0]|]; try discriminate. destruct (_ <=? _); [|discriminate]. injection E as <- <-. cbn. rewrite put_other by assumption. auto.
  - destruct (sv_http s) as [[]|]; try discriminate. injection E as <- <-. auto.
  - destruct (sv_http s) as [[]|]; try discriminate; injection E as <- <-; split; auto; intros x [F|[]]; discriminate.
  - destruct ok; destruct (sv_http s) as [[|q|]|]; try discriminate; [destruct q as [|c q]; [discriminate|]|]; injection E as <- <-; split; auto. intros x [F|[]]. discriminate.
  - destruct (tick_ok d s); [|discriminate]. injection E as <- <-. auto.
Qed.
Lemma step_now e s s' o : lstep e s = Some (s', o) -> sv_now s <= sv_now s' /\ ((forall d, e <> LvTick d) -> sv_now s' = sv_now s).
Proof.
  intros E. destruct e as [j ok|j c|j [] |j|ok|c|[] |d]; cbn in E;
    repeat match type of E with
    | context [match nth_error ?a ?b with _ => _ end] => destruct (nth_error a b) as [[]|]; try discriminate
    | context [match sv_http s with _ => _ end] => destruct (sv_http s) as [[]|]; try discriminate
    | context [match ?q with [] => _ | _ => _ end] => destruct q; try discriminate
    | context [if ?b then _ else None] => destruct b; try discriminate
    end; injection E as <- <-; cbn; split; try lia; auto. intros H. exfalso. eapply H. reflexivity.
Qed.
Lemma step_length e s s' o : lstep e s = Some (s', o) -> length (sv_tasks s') = length (sv_tasks s).
Proof.
  intros E. destruct e as [j ok|j c|j [] |j|ok|c|[] |d]; cbn in E;
    repeat match type of E with
    | context [match nth_error ?a ?b with _ => _ end] => destruct (nth_error a b) as [[]|]; try discriminate
    | context [match sv_http s with _ => _ end] => destruct (sv_http s) as [[]|]; try discriminate
    | context [match ?q with [] => _ | _ => _ end] => destruct q; try discriminate
    | context [if ?b then _ else None] => destruct b; try discriminate
    end; injection E as <- <-; cbn; rewrite ?put_length; auto.
Qed.
Lemma run_length s0 h s : lrun s0 h s -> length (sv_tasks s) = length (sv_tasks s0).
Proof. induction 1; auto. erewrite step_length by eassumption. assumption. Qed.

Lemma tick_task d s k t : tick_ok d s = true -> nth_error (sv_tasks s) k = Some t ->
  match t with LOpen => False | LListen _ => True | LSleep t0 => sv_now s + d <= t0 + 1000 end.
Proof.
  intros H E. unfold tick_ok in H. apply andb_true_iff in H. destruct H as (H & _). rewrite forallb_forall in H. specialize (H t (nth_error_In _ _ E)). destruct t; [discriminate|exact I|]. now apply N.leb_le.
Qed.

(** ** A listener is down only for a second after an error *)
Definition up_inv (T : N) (k : nat) (h : list lpast) (s : server) : Prop :=
  match nth_error (sv_tasks s) k with
  | Some (LListen _) => True
  | Some (LSleep t) => failed_at k t h /\ t <= sv_now s <= t + 1000
  | Some LOpen => (sv_now s = T /\ (forall t ok o, ~ In (t, LvOpen k ok, o) h)) \/ exists t, failed_at k t h /\ sv_now s = t + 1000
  | None => True
  end.
Lemma failed_app k t h x : failed_at k t h -> failed_at k t (h ++ x).
Proof. intros (o & [H|H]); exists o; [left|right]; apply in_or_app; now left. Qed.
Lemma up_run T loops http h s k : lrun (server_new T loops http) h s -> up_inv T k h s.
Proof.
  induction 1 as [|h s e s' o R IH E].
  - unfold up_inv. cbn. destruct (nth_error (map (fun _ => LOpen) loops) k) as [t|] eqn:F; [|exact I].
    apply nth_error_In, in_map_iff in F. destruct F as (? & <- & _). left. split; [reflexivity|]. intros ? ? ? [].
  - pose proof (step_now _ _ _ _ E) as (N1 & N2). unfold up_inv in *.
    assert (NI : forall t ok o', about e <> Some k -> ~ In (t, LvOpen k ok, o') h -> ~ In (t, LvOpen k ok, o') (h ++ [(sv_now s, e, o)])).
    { intros t ok o' NA NH F. apply in_app_or in F. destruct F as [F|[F|[]]]; [auto|]. injection F as _ -> _. now cbn in NA. }
    assert (DEC : {about e = Some k} + {about e <> Some k}) by (destruct (about e) as [j|]; [destruct (Nat.eq_dec j k); [left; congruence|right; congruence]|right; discriminate]).
    destruct DEC as [A|A].
    + assert (NT : sv_now s' = sv_now s) by (apply N2; intros d ->; discriminate). destruct e as [j ok|j c|j ok|j|ok|c|ok|d]; cbn in A; try discriminate; injection A as ->; cbn in E.
      * destruct (nth_error (sv_tasks s) k) as [[]|] eqn:G; try discriminate. injection E as <- <-. cbn. rewrite (put_same _ _ _ _ G). destruct ok; [exact I|]. split; [|lia]. exists []. left. apply in_or_app. right. now left.
      * destruct (nth_error (sv_tasks s) k) as [[|q|t0]|] eqn:G; try discriminate; injection E as <- <-; cbn; rewrite ?(put_same _ _ _ _ G), ?G.
        -- destruct IH as [(IH1 & IH2)|(t & IH1 & IH2)]; [left; split; [assumption|]|right; exists t; split; [now apply failed_app|assumption]].
           intros t ok o' F. apply in_app_or in F. destruct F as [F|[F|[]]]; [now apply IH2 in F|discriminate].
        -- exact I.
        -- destruct IH as (IH1 & IH2). split; [now apply failed_app|assumption].
      * destruct ok; destruct (nth_error (sv_tasks s) k) as [[|q|t0]|] eqn:G; try discriminate; [destruct q as [|c q]; [discriminate|]|]; injection E as <- <-; cbn; rewrite (put_same _ _ _ _ G); [exact I|].
        split; [|lia]. eexists. right. apply in_or_app. right. left. reflexivity.
      * destruct (nth_error (sv_tasks s) k) as [[|q|t0]|] eqn:G; try discriminate. destruct (N.leb_spec (t0 + 1000) (sv_now s)); [|discriminate]. injection E as <- <-. cbn. rewrite (put_same _ _ _ _ G).
        destruct IH as (IH1 & IH2). right. exists t0. split; [now apply failed_app|lia].
    + destruct (step_other _ _ _ _ _ E A) as (-> & _). destruct (nth_error (sv_tasks s) k) as [t|] eqn:G; [|exact I].
      destruct e as [j ok|j c|j ok|j|ok|c|ok|d]; try (rewrite (N2 ltac:(intros; discriminate)); destruct t; [|exact I|];
        [destruct IH as [(IH1 & IH2)|(t & IH1 & IH2)]; [left; split; [assumption|intros t ok' o'; now apply NI]|right; exists t; split; [now apply failed_app|assumption]]
        |destruct IH; split; [now apply failed_app|assumption]]).
      cbn in E. destruct (tick_ok d s) eqn:TK; [|discriminate]. injection E as <- <-. cbn. pose proof (tick_task _ _ _ _ TK G) as TT. destruct t; [contradiction|exact I|]. destruct IH. split; [now apply failed_app|lia].
Qed.
Lemma up_lemma T loops http h s k : lrun (server_new T loops http) h s -> (k < length loops)%nat ->
  listening k s \/ (exists t, failed_at k t h /\ t <= sv_now s <= t + 1000) \/ (sv_now s = T /\ forall t ok o, ~ In (t, LvOpen k ok, o) h).
Proof.
  intros R L. pose proof (up_run _ _ _ _ _ k R) as U. unfold up_inv in U. destruct (nth_error (sv_tasks s) k) as [[|q|t]|] eqn:G.
  - destruct U as [U|(t & U1 & U2)]; [auto|]. right. left. exists t. split; [exact U1|lia].
  - left. exists q. exact G.
  - right. left. exists t. exact U.
  - exfalso. apply nth_error_None in G. apply run_length in R. cbn in R. rewrite map_length in R. lia.
Qed.

(** ** Nobody is passed over *)
Lemma connected_app k a b : connected_to k (a ++ b) = connected_to k a ++ connected_to k b.
Proof. apply flat_map_app. Qed.
Lemma served_app k a b : served_by k (a ++ b) = served_by k a ++ served_by k b.
Proof. apply flat_map_app. Qed.
Lemma served_none k (o : list lout) : (forall c, ~ In (Served k c) o) -> flat_map (fun o => match o with Served j c => if (j =? k)%nat then [c] else [] | _ => [] end) o = [].
Proof.
  induction o as [|x o IH]; intros H; [reflexivity|]. cbn. rewrite IH by (intros c F; apply (H c); now right). destruct x as [c|j c|c|c]; try reflexivity. destruct (Nat.eqb_spec j k); [|reflexivity]. subst. exfalso. apply (H c). now left.
Qed.
Lemma served_lemma T loops http h s k : lrun (server_new T loops http) h s -> (forall t o, ~ In (t, LvAccept k false, o) h) ->
  connected_to k h = served_by k h ++ waiting_at k s.
Proof.
  induction 1 as [|h s e s' o R IH E]; intros NF.
  - unfold waiting_at. cbn. destruct (nth_error (map (fun _ => LOpen) loops) k) as [t|] eqn:F; [|reflexivity]. apply nth_error_In, in_map_iff in F. destruct F as (? & <- & _). reflexivity.
  - specialize (IH ltac:(intros t o' F; apply (NF t o'); apply in_or_app; now left)). rewrite connected_app, served_app, IH. unfold waiting_at in *.
    destruct (Nat.eq_dec (match about e with Some j => j | None => S k end) k) as [A|A].
    + destruct e as [j ok|j c|j ok|j|ok|c|ok|d]; cbn [about] in A; try (exfalso; lia); subst j; cbn in E.
      * destruct (nth_error (sv_tasks s) k) as [[]|] eqn:G; try discriminate. injection E as <- <-. cbn. rewrite (put_same _ _ _ _ G). destruct ok; now rewrite !app_nil_r.
      * destruct (nth_error (sv_tasks s) k) as [[|q|t0]|] eqn:G; try discriminate; injection E as <- <-; cbn; rewrite ?(put_same _ _ _ _ G), ?G, ?app_nil_r; [reflexivity| |reflexivity].
        rewrite Nat.eqb_refl. cbn. now rewrite <- app_assoc.
      * destruct ok; [|exfalso; eapply NF; apply in_or_app; right; left; reflexivity]. destruct (nth_error (sv_tasks s) k) as [[|q|t0]|] eqn:G; try discriminate. destruct q as [|c q]; [discriminate|]. injection E as <- <-. cbn. rewrite (put_same _ _ _ _ G), Nat.eqb_refl. cbn. now rewrite app_nil_r, <- app_assoc.
      * destruct (nth_error (sv_tasks s) k) as [[|q|t0]|] eqn:G; try discriminate. destruct (_ <=? _); [|discriminate]. injection E as <- <-. cbn. rewrite (put_same _ _ _ _ G). now rewrite !app_nil_r.
    + assert (NA : about e <> Some k) by (intros F; rewrite F in A; auto). destruct (step_other _ _ _ _ _ E NA) as (-> & NS).
      assert (C0 : connected_to k [(sv_now s, e, o)] = []).
      { cbn. destruct e as [| j c | | | | | |]; try reflexivity. destruct o; [|reflexivity]. destruct (Nat.eqb_spec j k); [subst; now cbn in NA|reflexivity]. }
      assert (S0 : served_by k [(sv_now s, e, o)] = []) by (unfold served_by; cbn [flat_map snd]; rewrite app_nil_r; exact (served_none k o NS)).
      rewrite C0, S0. now rewrite !app_nil_r.
Qed.

(** ** HTTP *)
Lemma http_ended h s s0 : lrun s0 h s -> (exists t o, In (t, HvOpen false, o) h) -> sv_http s = Some HEnded.
Proof.
  induction 1 as [|h s e s' o R IH E]; intros (t & o' & F); [destruct F|]. apply in_app_or in F. destruct F as [F|[F|[]]].
  - specialize (IH (ex_intro _ t (ex_intro _ o' F))). destruct e as [j ok|j c|j [] |j|ok|c|[] |d]; cbn in E; rewrite ?IH in E;
      repeat match type of E with
      | context [match nth_error ?a ?b with _ => _ end] => destruct (nth_error a b) as [[]|]; try discriminate
      | context [match ?q with [] => _ | _ => _ end] => destruct q; try discriminate
      | context [if ?b then _ else None] => destruct b; try discriminate
      end; try discriminate; injection E as <- <-; cbn; auto.
  - injection F as _ Fe _. subst e. cbn in E. destruct (sv_http s) as [[]|]; try discriminate. now injection E as <- <-.
Qed.
Lemma http_refused h s s0 c : lrun s0 h s -> (exists t o, In (t, HvOpen false, o) h) -> lstep (HvArrive c) s = Some (s, [Refused c]).
Proof. intros R F. cbn. now rewrite (http_ended _ _ _ R F). Qed.

Lemma forever_lemma s0 h s : lrun s0 h s -> sv_tasks s0 <> [] -> ended s = false.
Proof. intros R H. apply run_length in R. unfold ended. destruct (sv_tasks s); [destruct (sv_tasks s0); [contradiction|discriminate]|reflexivity]. Qed.

(** ** The command *)
Lemma valid_auth c : is_valid c = true -> fc_auth c = true -> fc_password_file c = true.
Proof. unfold is_valid. intros H A. rewrite A in H. destruct (fc_password_file c); [reflexivity|discriminate]. Qed.
Lemma start_no_panic reuse conf file : start_command reuse conf file <> SPanic.
Proof.
  unfold start_command. destruct conf as [[[c ls] http]|]; [|discriminate]. destruct (is_valid c) eqn:V; [cbn [negb]|discriminate]. destruct (fc_auth c) eqn:A.
  - rewrite (valid_auth _ V A). destruct file as [f|]; [|discriminate]. destruct (load_passwords f); [|discriminate]. destruct (start reuse ls); discriminate.
  - destruct (start reuse ls); discriminate.
Qed.
Lemma start_runs reuse conf file loops http t : start_command reuse conf file = SRun loops http t <->
  exists c ls, conf = Some (c, ls, http) /\ is_valid c = true /\ start reuse ls = Some loops /\
    (if fc_auth c then exists f, file = Some f /\ load_passwords f = Some t else t = []).
Proof.
  unfold start_command. split.
  - destruct conf as [[[c ls] http']|]; [|discriminate]. destruct (is_valid c) eqn:V; [cbn [negb]|discriminate]. intros E. exists c, ls. destruct (fc_auth c) eqn:A.
    + rewrite (valid_auth _ V A) in E. destruct file as [f|]; [|discriminate]. destruct (load_passwords f) as [t'|] eqn:L; [|discriminate]. destruct (start reuse ls); [|discriminate]. injection E as -> -> ->. eauto 8.
    + destruct (start reuse ls); [|discriminate]. injection E as -> -> ->. auto.
  - intros (c & ls & -> & V & S & A). rewrite V. cbn [negb]. destruct (fc_auth c) eqn:FA.
    + destruct A as (f & -> & L). rewrite (valid_auth _ V FA), L, S. reflexivity.
    + subst. now rewrite S.
Qed.
Lemma start_something reuse c ls http file loops http' t : says c ls http -> start_command reuse (Some (c, ls, http)) file = SRun loops http' t ->
  loops <> [] \/ http' = true.
Proof.
  intros SY E. apply start_runs in E. destruct E as (c' & ls' & Eq & V & S & _). injection Eq as <- <- <-. unfold is_valid in V. rewrite SY in V. apply andb_true_iff in V. destruct V as (_ & V).
  destruct http; [now right|]. left. unfold start in S. destruct (tls_of (ls_mqtts ls)) as [am|]; [|discriminate]. destruct (tls_of (ls_wss ls)) as [aw|]; [|discriminate]. injection S as <-. cbn in V.
  assert (K : forall a, repeat a (if reuse && a_reuse a then 4 else 1)%nat <> []) by (intros a; destruct (reuse && a_reuse a); discriminate).
  destruct (ls_mqtt ls) as [l1|]; cbn [opt_list flat_map app]; [intros F; apply app_eq_nil in F; destruct F as (F & _); now apply K in F|].
  destruct (ls_mqtts ls) as [l2|]; cbn [opt_list flat_map app]; [intros F; apply app_eq_nil in F; destruct F as (F & _); now apply K in F|].
  destruct (ls_ws ls) as [l3|]; cbn [opt_list flat_map app]; [intros F; apply app_eq_nil in F; destruct F as (F & _); now apply K in F|].
  destruct (ls_wss ls) as [l4|]; cbn [opt_list flat_map app]; [intros F; apply app_eq_nil in F; destruct F as (F & _); now apply K in F|]. discriminate.
Qed.

Lemma default_lemma reuse file :
  start_command reuse (Some (default_config true, default_listeners, false)) file =
    SRun (repeat (plain_args false (Listener true None)) (if reuse then 4 else 1)) false [] /\
  forall loops http t, start_command reuse (Some (default_config false, default_listeners, false)) file = SRun loops http t <->
    loops = repeat (plain_args false (Listener true None)) (if reuse then 4 else 1) /\ http = false /\ exists f, file = Some f /\ load_passwords f = Some t.
Proof.
  split; [destruct reuse; reflexivity|]. intros loops http t. rewrite start_runs. split.
  - intros (c & ls & E & _ & S & F). injection E as <- <- <-. cbn [fc_auth default_config negb] in F. split; [|auto]. destruct reuse; cbn in S; injection S as <-; reflexivity.
  - intros (-> & -> & F). exists (default_config false), default_listeners. split; [reflexivity|]. split; [reflexivity|]. split; [destruct reuse; reflexivity|exact F].
Qed.
