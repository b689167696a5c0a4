(** The event loop does nothing but the broker's steps, for any session (for C71). *)
From Coq Require Import List Bool Arith NArith String Lia.
From Verif Require Import Base BaseLemmas TopicModel MsgModel PendingModel OutModel RouteModel RetainModel GlobModel Sess5Model Sess3Model ConnModel RegModel
  OnlineModel HookModel OnlineSpec OnlineProofs BrokerModel BrokerSpec BrokerInv RunProofs ApartSpec LifeSpec DelivSpec InSpec AccSpec AccProofs DrainProofs BridgeSpec BridgeLift.
Import ListNotations.
Local Open Scope N_scope.
Local Open Scope list_scope.

Section Sim.
  Variables (hash5 : wpub5 -> N) (hash3 : wpub3 -> N) (pick : draw -> broker -> string -> string -> N).
  Notation bstep := (bstep hash5 hash3 pick).
  Notation brun := (brun hash5 hash3 pick).
  Notation bgo := (bgo hash5 hash3 pick).
  Context {P In Req Ans S : Type}.
  Notation iface := (iface P nmsg In derr HookModel.control action Req Ans S glob).
  Notation lst := (lst P nmsg Req S).
  Notation ev := (ev P nmsg Req).
  Notation env := (env nmsg In derr HookModel.control Ans).
  Variable i : iface.
  Variables (k : N) (c : client_id) (mk : S -> sess) (say : P -> bout) (pk : list bout -> list P) (ev_in : In -> bev) (arr_err : derr -> list bev).

  Definition reach (b : broker) : Prop := exists c h, brun c h b.
  Definition L (w : client_id -> list nmsg) (H : N) (s : S) : S := i_set i (up w (i_bc i s)) (i_cnt i s + H) s.
  Definition at_ w H b s : Prop := aget k (b_tasks b) = Some (TOnline (mk (L w H s))) /\ a_id (mk s) = c /\ fresh w (i_bc i s).
  Definition end_ w H b s : Prop := aget k (b_tasks b) = Some (TEnd (mk (L w H s))) /\ fresh w (i_bc i s).
  Definition same (b b' : broker) (g : glob) : Prop := glob_of b' = g /\ b_chans b' = b_chans b /\ b_now b' = b_now b.

  Hypothesis mk_set : forall bc n s, mk (i_set i bc n s) = a_set_bcast bc n (mk s).
  Hypothesis mk_bc : forall s, a_bcast (mk s) = i_bc i s.
  Hypothesis set_set : forall bc n bc' n' s, i_set i bc n (i_set i bc' n' s) = i_set i bc n s.
  Hypothesis WB : well_behaved i.
  Hypothesis pk_say : forall out, pk (map say out) = out.
  Hypothesis pk_app : forall a b, pk (a ++ b) = pk a ++ pk b.
  Hypothesis pk_nil : pk [] = [].
  Hypothesis in_who : forall x, who (ev_in x) = Some k.
  Hypothesis in_arr : forall x, match ev_in x with EPacket5 _ _ _ | EPacket3 _ _ _ => True | _ => False end.

  Hypothesis H_packet : forall w H b s x, reach b -> at_ w H b s -> i_disc i s = None ->
    match i_packet i (seconds b) x s (glob_of b) with
    | HpOk s1 g1 out req => req = None /\ let '(s2, out2) := i_after i (seconds b) s1 in
        exists b', bstep (ev_in x) b = BOk b' (map say (out ++ out2)) /\ at_ w H b' s2 /\ same b b' g1
    | HpErr s1 g1 out => out = [] /\ exists b', bstep (ev_in x) b = BOk b' [] /\ end_ w H b' s1 /\ same b b' g1
    | HpPanic => bstep (ev_in x) b = BPanic
    end.
  Hypothesis H_error : forall w H b s e s' out, reach b -> at_ w H b s -> i_disc i s = None -> i_decode_error i e s = Some (s', out) ->
    exists r b', arr_err e = [EMalformed k r] /\ bstep (EMalformed k r) b = BOk b' (map say out) /\ at_ w H b' s' /\ same b b' (glob_of b).
  Hypothesis H_io : forall e s, i_decode_error i e s = None -> arr_err e = [].
  Hypothesis H_control : forall w H b s m r ms o, reach b -> at_ w H b s -> aget c (b_chans b) = Some (Chan (m :: r) ms o) ->
    match i_control i (seconds b) (plain m) s (glob_of b) with (s', g', stop, taken) => s' = s /\ g' = glob_of b /\
      exists b' out, bstep (EControl k) b = BOk b' out /\ pk out = [] /\ glob_of b' = glob_of b /\ b_now b' = b_now b /\ b_chans b' = aset c (Chan r ms o) (b_chans b) /\
        if taken then handed b' k (mk (L w H s)) else if stop then end_ w H b' s else at_ w H b' s end.
  Hypothesis H_normal : forall w H b s m r cs o, reach b -> at_ w H b s -> i_disc i s = None -> aget c (b_chans b) = Some (Chan cs (m :: r) o) ->
    match i_normal i (seconds b) (fst m) (snd m) s (glob_of b) with (s', g', res) => g' = glob_of b /\
      let '(s2, out) := match res with
        | None => (s', [])
        | Some (q0, po) => if q0 then (s', opt_list po) else let '(s2, more) := i_pendings i (seconds b) s' in (s2, opt_list po ++ more)
        end in
      exists b', bstep (ENormal k) b = BOk b' (map say out) /\ at_ w H b' s2 /\ glob_of b' = glob_of b /\ b_now b' = b_now b /\ b_chans b' = aset c (Chan cs r o) (b_chans b) end.

  (** ** Runs of the connection's own steps *)
  Definition arr (x : rd In derr Ans) : list bev := match x with RdPacket x _ => [ev_in x] | RdErr e => arr_err e end.
  (** [h] leads from [b] to [b'] and tells the trace [t], with the arrivals [rs]. *)
  Definition tells (b : broker) (h : list past) (b' : broker) (t : list ev) (rs : list bev) : Prop :=
    bgo b h b' /\ own k h /\ pk (shown h) = OnlineSpec.queued t /\ (forall d, passed_by k (passed_in d h) = delivered_to d t) /\ arrivals h = rs.
  Lemma shown_app h1 h2 : shown (h2 ++ h1) = shown h1 ++ shown h2.
  Proof. unfold shown. rewrite rev_app_distr, map_app, concat_app. reflexivity. Qed.
  Lemma arrivals_app h1 h2 : arrivals (h2 ++ h1) = arrivals h1 ++ arrivals h2.
  Proof. unfold arrivals. rewrite rev_app_distr, flat_map_app. reflexivity. Qed.
  Lemma passed_in_app d h1 h2 : passed_in d (h2 ++ h1) = passed_in d h1 ++ passed_in d h2.
  Proof. induction h2 as [|p h2 IH]; cbn [app passed_in]; [rewrite app_nil_r; reflexivity|]. rewrite IH, app_assoc. reflexivity. Qed.
  Lemma tells_nil b : tells b [] b [] [].
  Proof. repeat split; auto; constructor. Qed.
  Lemma tells_app b h1 b1 t1 r1 h2 b2 t2 r2 : tells b h1 b1 t1 r1 -> tells b1 h2 b2 t2 r2 -> tells b (h2 ++ h1) b2 (t1 ++ t2) (r1 ++ r2).
  Proof.
    intros (A1 & A2 & A3 & A4 & A5) (B1 & B2 & B3 & B4 & B5). split; [eapply go_trans; eauto|]. split; [apply Forall_app; auto|].
    split; [rewrite shown_app, pk_app, A3, B3; symmetry; unfold OnlineSpec.queued; apply flat_map_app|].
    split; [|rewrite arrivals_app, A5, B5; reflexivity]. intros d. rewrite passed_in_app. unfold passed_by in *. rewrite flat_map_app, A4, B4. unfold delivered_to. rewrite flat_map_app. reflexivity.
  Qed.
  Lemma tells_mute b h b' t t' rs : OnlineSpec.queued t' = OnlineSpec.queued t -> (forall d, delivered_to d t' = delivered_to d t) -> tells b h b' t rs -> tells b h b' t' rs.
  Proof. intros Q D (A & B & C & E & F). repeat split; auto; [now rewrite Q|]. intros d. now rewrite D. Qed.
  Lemma tells_one b e b' out t : bstep e b = BOk b' out -> who e = Some k -> pk out = OnlineSpec.queued t -> (forall d, delivered_to d t = []) -> (forall d, e <> EFlush k d) ->
    tells b [Past b e out] b' t (match e with EPacket5 _ _ _ | EPacket3 _ _ _ | EMalformed _ _ => [e] | _ => [] end).
  Proof.
    intros ST W Q D N. split; [econstructor; [constructor|exact ST]|]. split; [constructor; [exact W|constructor]|]. split; [unfold shown; cbn; rewrite app_nil_r; exact Q|].
    split; [|unfold arrivals; cbn; rewrite app_nil_r; reflexivity]. intros d. rewrite D. cbn. unfold passed. cbn. destruct e; try reflexivity. cbn in W. injection W as ->. destruct (N d0 eq_refl).
  Qed.
  Lemma reach_tells b h b' t rs : reach b -> tells b h b' t rs -> reach b'.
  Proof. intros (c0 & h0 & R) (G & _). exists c0, (h ++ h0). eapply run_go; eauto. Qed.
  Lemma asked_mute s s' : OnlineSpec.queued (asked i s s') = [] /\ forall d, delivered_to d (asked i s s') = [].
  Proof.
    unfold asked. induction (i_bc i s') as [|[d q] bc IH]; [split; reflexivity|]. cbn [flat_map fst snd]. unfold OnlineSpec.queued, delivered_to in *.
    assert (X : forall l, flat_map (fun x : ev => match x with Queued p => [p] | _ => [] end) (map (Asked d) l) = []) by (induction l; auto).
    assert (Y : forall d' l, flat_map (fun x : ev => match x with Delivered c m => if N.eqb c d' then [m] else [] | _ => [] end) (map (Asked d) l) = []) by (intros d' l; induction l; auto).
    destruct IH as (I1 & I2). split; [rewrite flat_map_app, I1, X; reflexivity|]. intros d'. rewrite flat_map_app, I2, Y. reflexivity.
  Qed.
  Lemma q_app (a b : list ev) : OnlineSpec.queued (a ++ b) = OnlineSpec.queued a ++ OnlineSpec.queued b. Proof. apply flat_map_app. Qed.
  Lemma d_app d (a b : list ev) : delivered_to d (a ++ b) = delivered_to d a ++ delivered_to d b. Proof. apply flat_map_app. Qed.
  Lemma q_map ps : OnlineSpec.queued (map Queued ps : list ev) = ps.
  Proof. induction ps; cbn; [reflexivity|]. unfold OnlineSpec.queued in IHps. now rewrite IHps. Qed.
  Lemma d_map d ps : delivered_to d (map Queued ps : list ev) = [].
  Proof. induction ps; cbn; auto. Qed.

  Lemma q_asked s s' : OnlineSpec.queued (asked i s s') = []. Proof. apply asked_mute. Qed.
  Lemma d_asked d s s' : delivered_to d (asked i s s') = []. Proof. apply asked_mute. Qed.
  Lemma q_took (t : list ev) : OnlineSpec.queued (Took :: t) = OnlineSpec.queued t. Proof. reflexivity. Qed.
  Lemma d_took d (t : list ev) : delivered_to d (Took :: t) = delivered_to d t. Proof. reflexivity. Qed.

  (** ** Taking in *)
  Definition outcome w H (b : broker) (l : lst) (r : option res) : Prop :=
    match r with
    | None => at_ w H b (l_s l) /\ l_hook l = None /\ l_take l = None
    | Some (RReady _) => end_ w H b (l_s l)
    | Some RPanic => exists e, who e = Some k /\ bstep e b = BPanic
    | Some RPending => l_take l = Some false /\ handed b k (mk (L w H (l_s l))) /\ i_cnt i (l_s l) + H = OnlineModel.total (up w (i_bc i (l_s l)))
    | Some _ => False
    end.
  Lemma close_ b w H s : at_ w H b s -> exists b', bstep (EClose k) b = BOk b' [] /\ end_ w H b' s /\ same b b' (glob_of b).
  Proof.
    intros (A & _ & F). eexists. split; [cbn; unfold do_close; rewrite A; reflexivity|]. split; [|repeat split].
    split; [|exact F]. cbn. rewrite aget_N, N.eqb_refl. reflexivity.
  Qed.
  Lemma same_trans b b1 b2 g1 g2 : same b b1 g1 -> same b1 b2 g2 -> same b b2 g2.
  Proof. intros (A1 & A2 & A3) (B1 & B2 & B3). repeat split; congruence. Qed.
  Lemma same_secs b b' g : same b b' g -> seconds b' = seconds b. Proof. intros (_ & _ & E). unfold seconds. now rewrite E. Qed.
  Ltac mute := rewrite ?q_took, ?d_took, ?q_app, ?d_app, ?q_map, ?d_map, ?q_asked, ?d_asked, ?q_app, ?d_app, ?q_map, ?d_map, ?q_asked, ?d_asked, ?pk_say; cbn [app]; auto.

  Lemma read_sim w H now rs : forall b l l' t g' r, reach b -> at_ w H b (l_s l) -> l_hook l = None -> l_take l = None -> now = seconds b ->
    read_phase i now rs l (glob_of b) = (l', g', t, r) ->
    exists h b' n, tells b h b' t (flat_map arr (firstn n rs)) /\ same b b' g' /\ outcome w H b' l' r /\ l_sinks l' = l_sinks l.
  Proof.
    induction rs as [|x rs IH]; intros b l l' t g' r R A HK TK NOW E; cbn [read_phase] in E.
    all: destruct (i_disc i (l_s l)) as [dd|] eqn:D; [injection E as <- <- <- <-; exists [], b, O; split; [apply tells_nil|]; repeat split; auto; apply A|].
    all: destruct (_ || _) in E; [injection E as <- <- <- <-; exists [], b, O; split; [apply tells_nil|]; repeat split; auto; apply A|].
    { injection E as <- <- <- <-. exists [], b, O. split; [apply (tells_mute _ _ _ []); auto; apply tells_nil|]. repeat split; auto; apply A. }
    change (l_s (set_ru false l)) with (l_s l) in E. destruct x as [x hr|e].
    - pose proof (H_packet w H b (l_s l) x R A D) as HP. subst now. destruct (i_packet i (seconds b) x (l_s l) (glob_of b)) as [s1 g1 out req|s1 g1 out|] eqn:EP.
      + destruct HP as (-> & HP). unfold after in E. cbn [next l_s set_s push set_wp] in E. destruct (i_after i (seconds b) s1) as [s2 out2] eqn:EA.
        destruct HP as (b1 & ST & A1 & SM). pose proof SM as (G1 & _). cbn [next] in E.
        match type of E with context[read_phase i (seconds b) rs ?x ?g] => set (lx := x) in E; destruct (read_phase i (seconds b) rs lx g) as [[[l2 g2] t2] r2] eqn:ER end.
        cbn [took] in E. injection E as <- <- <- <-.
        assert (T1 : tells b [Past b (ev_in x) (map say (out ++ out2))] b1 (Took :: (asked i (l_s l) s1 ++ map Queued out) ++ asked i s1 s2 ++ map Queued out2) (arr (RdPacket x hr))).
        { pose proof (in_arr x) as IA. assert (NF : forall d, ev_in x <> EFlush k d) by (intros d Q; rewrite Q in IA; exact IA).
          pose proof (tells_one b (ev_in x) b1 _ (Took :: (asked i (l_s l) s1 ++ map Queued out) ++ asked i s1 s2 ++ map Queued out2) ST (in_who x)) as TO.
          cbn [arr]. destruct (ev_in x); try contradiction IA; apply TO; auto; try intros d; mute. }
        rewrite <- G1 in ER. destruct (IH b1 lx l2 t2 g2 r2) as (h & b2 & n & T2 & SM2 & O & SK); auto.
        { eapply reach_tells; eauto. } { symmetry. eapply same_secs; eauto. }
        exists (h ++ [Past b (ev_in x) (map say (out ++ out2))]), b2, (Datatypes.S n). cbn [firstn flat_map]. split; [|split; [eapply same_trans; eauto|split; [exact O|exact SK]]].
        pose proof (tells_app _ _ _ _ _ _ _ _ _ T1 T2) as T. rewrite <- ?app_assoc in *. cbn [app] in T. rewrite <- ?app_assoc in T. exact T.
      + destruct HP as (-> & b1 & ST & A1 & SM). unfold failed in E. cbn [took] in E. injection E as <- <- <- <-.
        exists [Past b (ev_in x) []], b1, 1%nat. cbn [firstn flat_map map]. rewrite !app_nil_r. split; [|split; [exact SM|split; [exact A1|reflexivity]]].
        pose proof (in_arr x) as IA. assert (NF : forall d, ev_in x <> EFlush k d) by (intros d Q; rewrite Q in IA; exact IA).
        pose proof (tells_one b (ev_in x) b1 _ (Took :: asked i (l_s l) s1) ST (in_who x)) as TO.
        cbn [arr]. destruct (ev_in x); try contradiction IA; apply TO; auto; try intros d; rewrite ?pk_nil; mute.
      + cbn [took] in E. injection E as <- <- <- <-. exists [], b, O. split; [apply (tells_mute _ _ _ []); auto; apply tells_nil|]. split; [repeat split|]. split; [|reflexivity]. exists (ev_in x). auto.
    - subst now. destruct (i_decode_error i e (l_s l)) as [[s1 out]|] eqn:EE.
      + destruct (H_error w H b (l_s l) e s1 out R A D EE) as (rr & b1 & AE & ST & A1 & SM). pose proof SM as (G1 & _). cbn [next] in E.
        match type of E with context[read_phase i (seconds b) rs ?x ?g] => set (lx := x) in E; destruct (read_phase i (seconds b) rs lx g) as [[[l2 g2] t2] r2] eqn:ER end.
        cbn [took] in E. injection E as <- <- <- <-.
        assert (T1 : tells b [Past b (EMalformed k rr) (map say out)] b1 (Took :: asked i (l_s l) s1 ++ map Queued out) (arr (RdErr e))).
        { cbn [arr]. rewrite AE. apply (tells_one b (EMalformed k rr)); auto; [|intros d|discriminate]; mute. }
        rewrite <- G1 in ER. destruct (IH b1 lx l2 t2 g2 r2) as (h & b2 & n & T2 & SM2 & O & SK); auto.
        { eapply reach_tells; eauto. } { symmetry. eapply same_secs; eauto. }
        exists (h ++ [Past b (EMalformed k rr) (map say out)]), b2, (Datatypes.S n). cbn [firstn flat_map]. split; [|split; [eapply same_trans; eauto|split; [exact O|exact SK]]].
        pose proof (tells_app _ _ _ _ _ _ _ _ _ T1 T2) as T. exact T.
      + cbn [took] in E. injection E as <- <- <- <-. destruct (close_ b w H (l_s l) A) as (b1 & ST & A1 & SM).
        exists [Past b (EClose k) []], b1, 1%nat. cbn [firstn flat_map arr]. rewrite (H_io _ _ EE). cbn [app]. split; [|split; [exact SM|split; [exact A1|reflexivity]]].
        refine (tells_one b (EClose k) b1 [] _ ST eq_refl _ _ _); [exact pk_nil|auto|discriminate].
  Qed.

  (** Only the connection's own inbox changed: messages left it. *)
  Definition inbox (b b' : broker) (g : glob) (cq : list ctl) (nq : list (client_id * nmsg)) (o : bool) : Prop :=
    glob_of b' = g /\ b_now b' = b_now b /\ (forall d, d <> c -> aget d (b_chans b') = aget d (b_chans b)) /\ aget c (b_chans b') = Some (Chan cq nq o).
  Lemma inbox_refl b cq nq o : aget c (b_chans b) = Some (Chan cq nq o) -> inbox b b (glob_of b) cq nq o.
  Proof. intros A. repeat split; auto. Qed.
  Lemma inbox_trans b b1 b2 g1 g2 cq nq o cq2 nq2 : inbox b b1 g1 cq nq o -> inbox b1 b2 g2 cq2 nq2 o -> inbox b b2 g2 cq2 nq2 o.
  Proof. intros (A1 & A2 & A3 & A4) (B1 & B2 & B3 & B4). repeat split; try congruence; auto. intros d N. rewrite B3, A3; auto. Qed.
  Lemma inbox_set b b' cq nq o cq2 nq2 : aget c (b_chans b) = Some (Chan cq nq o) -> glob_of b' = glob_of b -> b_now b' = b_now b -> b_chans b' = aset c (Chan cq2 nq2 o) (b_chans b) ->
    inbox b b' (glob_of b) cq2 nq2 o.
  Proof.
    intros A G N C. split; [exact G|]. split; [exact N|]. rewrite C. split; [intros d NE; rewrite aget_N; destruct (N.eqb_spec d c); [contradiction|reflexivity]|rewrite aget_N, N.eqb_refl; reflexivity].
  Qed.
  Lemma inbox_secs b b' g cq nq o : inbox b b' g cq nq o -> seconds b' = seconds b. Proof. intros (_ & E & _). unfold seconds. now rewrite E. Qed.

  Lemma bcnt_set bc n a : a_bcast (a_set_bcast bc n a) = bc /\ a_bcnt (a_set_bcast bc n a) = n.
  Proof. destruct a; split; reflexivity. Qed.
  Lemma at_count w H b s : reach b -> at_ w H b s -> i_cnt i s + H = OnlineModel.total (up w (i_bc i s)).
  Proof.
    intros (c0 & h0 & R) (A & _). assert (SA : sess_at b k = Some (mk (L w H s))) by (unfold sess_at; rewrite A; reflexivity).
    destruct (run_bc _ _ _ _ _ _ _ _ R SA) as (_ & E). unfold L in E. rewrite mk_set in E. destruct (bcnt_set (up w (i_bc i s)) (i_cnt i s + H) (mk s)) as (E1 & E2). rewrite E1, E2 in E. exact E.
  Qed.
  Lemma end_count w H b s : reach b -> end_ w H b s -> i_cnt i s + H = OnlineModel.total (up w (i_bc i s)).
  Proof.
    intros (c0 & h0 & R) (A & _). assert (SA : sess_at b k = Some (mk (L w H s))) by (unfold sess_at; rewrite A; reflexivity).
    destruct (run_bc _ _ _ _ _ _ _ _ R SA) as (_ & E). unfold L in E. rewrite mk_set in E. destruct (bcnt_set (up w (i_bc i s)) (i_cnt i s + H) (mk s)) as (E1 & E2). rewrite E1, E2 in E. exact E.
  Qed.

  Lemma control_sim w H now nq o cq : forall n b l l' t g' r, reach b -> at_ w H b (l_s l) -> l_hook l = None -> l_take l = None -> now = seconds b -> aget c (b_chans b) = Some (Chan cq nq o) ->
    control_phase i now (map (fun m => Some (plain m)) (firstn n cq)) l (glob_of b) = (l', g', t, r) ->
    exists h b' cq', tells b h b' t [] /\ inbox b b' g' cq' nq o /\ outcome w H b' l' r /\ l_sinks l' = l_sinks l.
  Proof.
    induction cq as [|m cq IH]; intros n b l l' t g' r R A HK TK NOW CH E.
    { rewrite firstn_nil in E. cbn in E. injection E as <- <- <- <-. exists [], b, []. split; [apply (tells_mute _ _ _ []); auto; apply tells_nil|]. split; [now apply inbox_refl|]. repeat split; auto; apply A. }
    destruct n as [|n]; cbn [firstn map control_phase] in E.
    { injection E as <- <- <- <-. exists [], b, (m :: cq). split; [apply (tells_mute _ _ _ []); auto; apply tells_nil|]. split; [now apply inbox_refl|]. repeat split; auto; apply A. }
    subst now. pose proof (H_control w H b (l_s l) m cq nq o R A CH) as HC. destruct (i_control i (seconds b) (plain m) (l_s l) (glob_of b)) as [[[s1 g1] stop] taken] eqn:EC.
    destruct HC as (-> & -> & b1 & out & ST & PO & G1 & N1 & C1 & HC). pose proof (inbox_set _ _ _ _ _ _ _ CH G1 N1 C1) as IB.
    assert (T1 : forall t, OnlineSpec.queued t = [] -> (forall d, delivered_to d t = []) -> tells b [Past b (EControl k) out] b1 t []).
    { intros t0 Q D. refine (tells_one b (EControl k) b1 out t0 ST eq_refl _ D _); [now rewrite PO|discriminate]. }
    destruct taken; [|destruct stop].
    - injection E as <- <- <- <-. exists [Past b (EControl k) out], b1, cq. split; [apply T1; [|intros d]; mute|]. split; [exact IB|]. split; [split; [reflexivity|split; [exact HC|]]|reflexivity].
      cbn. eapply at_count; eauto.
    - injection E as <- <- <- <-. exists [Past b (EControl k) out], b1, cq. split; [apply T1; [|intros d]; mute|]. split; [exact IB|]. split; [exact HC|reflexivity].
    - cbn [next] in E. match type of E with context[control_phase i (seconds b) ?y ?x ?g] => set (lx := x) in E; destruct (control_phase i (seconds b) y lx g) as [[[l2 g2] t2] r2] eqn:ER end.
      injection E as <- <- <- <-. rewrite <- G1 in ER. destruct (IH n b1 lx l2 t2 g2 r2) as (h & b2 & cq2 & T2 & IB2 & O & SK); auto.
      { eapply reach_tells; [exact R|]. apply (T1 []); auto. } { symmetry. eapply inbox_secs; eauto. } { apply IB. }
      exists (h ++ [Past b (EControl k) out]), b2, cq2. split; [|split; [eapply inbox_trans; eauto|split; [exact O|exact SK]]].
      apply (tells_app _ _ _ _ [] _ _ _ []) with (2 := T2). apply T1; [|intros d]; mute.
  Qed.

  Lemma normal_sim w H now cq o nq : forall n b l l' t g' r, reach b -> at_ w H b (l_s l) -> l_hook l = None -> l_take l = None -> now = seconds b -> aget c (b_chans b) = Some (Chan cq nq o) ->
    normal_phase i now (map Some (firstn n nq)) l (glob_of b) = (l', g', t, r) ->
    exists h b' nq', tells b h b' t [] /\ inbox b b' g' cq nq' o /\ (List.length nq' <= List.length nq)%nat /\ outcome w H b' l' r /\ l_sinks l' = l_sinks l.
  Proof.
    induction nq as [|m nq IH]; intros n b l l' t g' r R A HK TK NOW CH E.
    { rewrite firstn_nil in E. cbn in E. exists [], b, []. destruct (i_disc i (l_s l)); [|destruct (too_much (l_wp l))]; injection E as <- <- <- <-;
        (split; [apply (tells_mute _ _ _ []); auto; apply tells_nil|]; split; [now apply inbox_refl|]; repeat split; auto; apply A). }
    assert (X : forall m0, l_s m0 = l_s l -> l_hook m0 = None -> l_take m0 = None -> l_sinks m0 = l_sinks l -> forall t0, OnlineSpec.queued t0 = [] -> (forall d, delivered_to d t0 = []) ->
       exists h b' nq', tells b h b' t0 [] /\ inbox b b' (glob_of b) cq nq' o /\ (List.length nq' <= List.length (m :: nq))%nat /\ outcome w H b' m0 None /\ l_sinks m0 = l_sinks l).
    { intros m0 E1 E2 E3 E4 t0 Q D. exists [], b, (m :: nq). split; [apply (tells_mute _ _ _ []); auto; apply tells_nil|]. split; [now apply inbox_refl|]. split; [lia|]. repeat split; auto; rewrite E1; apply A. }
    destruct n as [|n]; cbn [firstn map normal_phase] in E;
      (destruct (i_disc i (l_s l)) eqn:D; [injection E as <- <- <- <-; apply X; auto|]; destruct (too_much (l_wp l)); [injection E as <- <- <- <-; apply X; auto|]).
    { injection E as <- <- <- <-. apply X; auto. }
    subst now. destruct m as [from m]. pose proof (H_normal w H b (l_s l) (from, m) nq cq o R A D CH) as HN. cbn [fst snd] in HN. change (l_s (set_nu false l)) with (l_s l) in E.
    destruct (i_normal i (seconds b) from m (l_s l) (glob_of b)) as [[s1 g1] res] eqn:EN. destruct HN as (-> & HN).
    assert (GO : forall lx s2 out tt, l_s lx = s2 -> l_hook lx = None -> l_take lx = None -> l_sinks lx = l_sinks l ->
      (exists b', bstep (ENormal k) b = BOk b' (map say out) /\ at_ w H b' s2 /\ glob_of b' = glob_of b /\ b_now b' = b_now b /\ b_chans b' = aset c (Chan cq nq o) (b_chans b)) ->
      OnlineSpec.queued tt = out -> (forall d, delivered_to d tt = []) -> took (next (lx, glob_of b, tt, None) (normal_phase i (seconds b) (map Some (firstn n nq)))) = (l', g', t, r) ->
      exists h b' nq', tells b h b' t [] /\ inbox b b' g' cq nq' o /\ (List.length nq' <= List.length ((from, m) :: nq))%nat /\ outcome w H b' l' r /\ l_sinks l' = l_sinks l).
    { intros lx s2 out tt E1 E2 E3 E4 (b1 & ST & A1 & G1 & N1 & C1) Q D1 F. cbn [next] in F. destruct (normal_phase i (seconds b) (map Some (firstn n nq)) lx (glob_of b)) as [[[l2 g2] t2] r2] eqn:ER. cbn [took] in F. injection F as <- <- <- <-.
      pose proof (inbox_set _ _ _ _ _ _ _ CH G1 N1 C1) as IB.
      assert (T1 : tells b [Past b (ENormal k) (map say out)] b1 (Took :: tt) []).
      { refine (tells_one b (ENormal k) b1 _ _ ST eq_refl _ _ _); [rewrite pk_say, q_took; auto|intros d; rewrite d_took; auto|discriminate]. }
      rewrite <- G1 in ER. destruct (IH n b1 lx l2 t2 g2 r2) as (h & b2 & nq2 & T2 & IB2 & LE & O & SK); auto.
      { eapply reach_tells; eauto. } { rewrite E1. exact A1. } { symmetry. eapply inbox_secs; eauto. } { apply IB. }
      exists (h ++ [Past b (ENormal k) (map say out)]), b2, nq2. split; [exact (tells_app _ _ _ _ [] _ _ _ [] T1 T2)|]. split; [eapply inbox_trans; eauto|]. split; [cbn; lia|]. split; [exact O|congruence]. }
    destruct res as [[q0 po]|].
    - destruct q0.
      + refine (GO _ _ _ _ _ _ _ _ HN _ _ E); auto; [|intros d]; mute; destruct po; reflexivity.
      + cbn [push set_wp set_s l_s] in E. destruct (i_pendings i (seconds b) s1) as [s2 more] eqn:EP. refine (GO _ _ _ _ _ _ _ _ HN _ _ E); auto; [|intros d]; mute; destruct po; reflexivity.
    - refine (GO _ _ [] _ _ _ _ _ HN _ _ E); auto; [|intros d]; mute.
  Qed.

  (** ** All that comes in *)
  Lemma prod_sim w H e : forall b l l' t g' r, reach b -> at_ w H b (l_s l) -> l_hook l = None -> l_take l = None ->
    (exists cq nq o, aget c (b_chans b) = Some (Chan cq nq o)) -> answers b c e ->
    prod i e l (glob_of b) = (l', g', t, r) ->
    exists h b' n, tells b h b' t (flat_map arr (firstn n (e_read e))) /\ glob_of b' = g' /\ b_now b' = b_now b /\ answers b c e /\
      (forall d ch', aget d (b_chans b') = Some ch' -> exists ch, aget d (b_chans b) = Some ch /\ ch_open ch' = ch_open ch /\ (List.length (ch_norm ch') <= List.length (ch_norm ch))%nat) /\
      outcome w H b' l' r /\ l_sinks l' = l_sinks l.
  Proof.
    intros b l l' t g' r R A HK TK (cq & nq & o & CH) AN E. destruct AN as (NOW & (n1 & EN) & (n2 & EC) & ROOM). unfold waiting, requests in *. rewrite CH in EN, EC. cbn [ch_norm ch_ctl] in EN, EC.
    unfold prod, hook_phase, take_phase in E. rewrite HK in E. cbn [next] in E. rewrite TK in E. cbn [next] in E.
    destruct (read_phase i (e_now e) (e_read e) l (glob_of b)) as [[[l1 g1] t1] r1] eqn:E1.
    destruct (read_sim w H (e_now e) (e_read e) b l l1 t1 g1 r1 R A HK TK NOW E1) as (h1 & b1 & n & T1 & (G1 & C1 & N1) & O1 & S1).
    assert (CK : forall b' cq' nq', (forall d, d <> c -> aget d (b_chans b') = aget d (b_chans b)) -> aget c (b_chans b') = Some (Chan cq' nq' o) -> (List.length nq' <= List.length nq)%nat ->
      forall d ch', aget d (b_chans b') = Some ch' -> exists ch, aget d (b_chans b) = Some ch /\ ch_open ch' = ch_open ch /\ (List.length (ch_norm ch') <= List.length (ch_norm ch))%nat).
    { intros b' cq' nq' F O LE d ch' X. destruct (N.eq_dec d c) as [->|NE]; [|rewrite F in X by auto; eauto]. rewrite O in X. injection X as <-. exists (Chan cq nq o). auto. }
    assert (AN : answers b c e). { unfold answers, waiting, requests. rewrite CH. cbn. eauto 6. }
    destruct r1 as [r1|]; cbn [next] in E.
    { injection E as <- <- <- <-. exists h1, b1, n. split; [exact T1|]. split; [exact G1|]. split; [exact N1|]. split; [exact AN|]. split; [|split; [exact O1|exact S1]]. rewrite C1. eauto. }
    destruct O1 as (A1 & HK1 & TK1). rewrite <- G1, EC in E. rewrite <- C1 in CH. pose proof (reach_tells _ _ _ _ _ R T1) as R1.
    assert (NOW1 : e_now e = seconds b1) by (unfold seconds in *; congruence).
    destruct (control_phase i (e_now e) (map (fun m => Some (plain m)) (firstn n2 cq)) l1 (glob_of b1)) as [[[l2 g2] t2] r2] eqn:E2.
    destruct (control_sim w H (e_now e) nq o cq n2 b1 l1 l2 t2 g2 r2 R1 A1 HK1 TK1 NOW1 CH E2) as (h2 & b2 & cq2 & T2 & (G2 & N2 & F2 & CH2) & O2 & S2). rewrite C1 in F2.
    pose proof (tells_app _ _ _ _ _ _ _ _ _ T1 T2) as T12. rewrite app_nil_r in T12.
    destruct r2 as [r2|]; cbn [next] in E.
    { injection E as <- <- <- <-. exists (h2 ++ h1), b2, n. split; [exact T12|]. split; [exact G2|]. split; [congruence|]. split; [exact AN|]. split; [|split; [exact O2|congruence]]. eapply CK; eauto. }
    destruct O2 as (A2 & HK2 & TK2). rewrite <- G2, EN in E. pose proof (reach_tells _ _ _ _ _ R1 T2) as R2.
    assert (NOW2 : e_now e = seconds b2) by (unfold seconds in *; congruence).
    destruct (normal_phase i (e_now e) (map Some (firstn n1 nq)) l2 (glob_of b2)) as [[[l3 g3] t3] r3] eqn:E3.
    destruct (normal_sim w H (e_now e) cq2 o nq n1 b2 l2 l3 t3 g3 r3 R2 A2 HK2 TK2 NOW2 CH2 E3) as (h3 & b3 & nq3 & T3 & (G3 & N3 & F3 & CH3) & LE & O3 & S3).
    pose proof (tells_app _ _ _ _ _ _ _ _ _ T12 T3) as T. rewrite app_nil_r in T.
    injection E as <- <- <- <-. exists (h3 ++ h2 ++ h1), b3, n. rewrite app_assoc. split; [rewrite <- ?app_assoc in *; exact T|]. split; [exact G3|]. split; [congruence|]. split; [exact AN|]. split; [|split; [exact O3|congruence]].
    eapply CK; eauto. intros d NE. rewrite F3, F2; auto.
  Qed.

  (** ** Messages to other clients *)
  Definition opt {A} (x : option A) : list A := match x with Some m => [m] | None => [] end.
  Definition tk b bc n a : Prop := aget k (b_tasks b) = Some (TOnline (a_set_bcast bc n a)).
  Definition rest b b' d : Prop := glob_of b' = glob_of b /\ b_now b' = b_now b /\ forall d', d' <> d -> aget d' (b_chans b') = aget d' (b_chans b).
  Lemma rest_refl b d : rest b b d. Proof. repeat split. Qed.
  Lemma rest_trans b b1 b2 d : rest b b1 d -> rest b1 b2 d -> rest b b2 d.
  Proof. intros (A1 & A2 & A3) (B1 & B2 & B3). repeat split; try congruence. intros d' N. rewrite B3, A3; auto. Qed.
  Lemma set_twice bc n bc' n' a : a_set_bcast bc n (a_set_bcast bc' n' a) = a_set_bcast bc n a. Proof. destruct a; reflexivity. Qed.
  Lemma id_set bc n a : a_id (a_set_bcast bc n a) = a_id a. Proof. destruct a; reflexivity. Qed.
  Lemma sess_tk b bc n a : tk b bc n a -> sess_at b k = Some (a_set_bcast bc n a). Proof. intros T. unfold sess_at. rewrite T. reflexivity. Qed.
  Lemma tells_flush b d b' bc n a q t : tk b bc n a -> aget d bc = Some q -> bstep (EFlush k d) b = BOk b' [] -> OnlineSpec.queued t = [] ->
    (forall d', delivered_to d' t = if (d =? d') && received_for b d then firstn 1 q else []) -> tells b [Past b (EFlush k d) []] b' t [].
  Proof.
    intros T Q ST Q0 D. split; [econstructor; [constructor|exact ST]|]. split; [repeat constructor|]. split; [unfold shown; cbn; rewrite Q0; exact pk_nil|]. split; [|reflexivity].
    intros d'. rewrite D. cbn [passed_in app]. unfold passed. cbn [w_e w_b]. rewrite (sess_tk _ _ _ _ T). destruct (N.eqb_spec d d') as [->|]; [|reflexivity]. cbn [andb].
    destruct (received_for b d'); [|reflexivity]. destruct (bcnt_set bc n a) as (-> & _). unfold DelivSpec.queue_of. rewrite Q. destruct q; cbn; [reflexivity|]. rewrite N.eqb_refl. reflexivity.
  Qed.
  Lemma flush_empty b d bc n a t : tk b bc n a -> aget d bc = Some [] -> OnlineSpec.queued t = [] -> (forall d', delivered_to d' t = []) ->
    exists b' n', tells b [Past b (EFlush k d) []] b' t [] /\ tk b' (adel d bc) n' a /\ rest b b' d /\ b_chans b' = b_chans b.
  Proof.
    intros T Q Q0 D. assert (ST : exists b', bstep (EFlush k d) b = BOk b' [] /\ b' = set_task k (TOnline (a_set_bcast (adel d bc) n a)) b).
    { eexists. split; [|reflexivity]. cbn. unfold do_flush. rewrite T. unfold flush. destruct (bcnt_set bc n a) as (-> & ->). rewrite Q, set_twice. reflexivity. }
    destruct ST as (b' & ST & ->). eexists. exists n. split; [eapply tells_flush; eauto|].
    { intros d'. rewrite D. destruct (_ && _); reflexivity. }
    split; [|repeat split]. unfold tk. cbn. rewrite aget_N, N.eqb_refl. reflexivity.
  Qed.
  Lemma flush_gone b d bc n a m ms ch t : tk b bc n a -> aget d bc = Some (m :: ms) -> aget d (b_chans b) = Some ch -> ch_open ch = false -> OnlineSpec.queued t = [] -> (forall d', delivered_to d' t = []) ->
    exists b' n', tells b [Past b (EFlush k d) []] b' t [] /\ tk b' (adel d bc) n' a /\ rest b b' d.
  Proof.
    intros T Q CH OP Q0 D. assert (ST : exists b', bstep (EFlush k d) b = BOk b' [] /\ b' = set_task k (TOnline (a_set_bcast (adel d bc) (n - N.of_nat (List.length (m :: ms))) a)) b).
    { eexists. split; [|reflexivity]. cbn -[List.length]. unfold do_flush. rewrite T. unfold flush. destruct (bcnt_set bc n a) as (-> & ->). rewrite Q, CH, OP, set_twice. reflexivity. }
    destruct ST as (b' & ST & ->). eexists. eexists. split; [eapply tells_flush; eauto|].
    { intros d'. rewrite D. unfold received_for. rewrite CH, OP, andb_false_r. reflexivity. }
    split; [|repeat split]. unfold tk. cbn. rewrite aget_N, N.eqb_refl. reflexivity.
  Qed.
  Lemma flush_ok b d bc n a m ms ch : tk b bc n a -> aget d bc = Some (m :: ms) -> aget d (b_chans b) = Some ch -> ch_open ch = true -> (List.length (ch_norm ch) < 8)%nat ->
    exists b' n' ch', tells b [Past b (EFlush k d) []] b' [Delivered d m] [] /\ tk b' (aset d ms bc) n' a /\ rest b b' d /\
      aget d (b_chans b') = Some ch' /\ ch_open ch' = true /\ List.length (ch_norm ch') = Datatypes.S (List.length (ch_norm ch)).
  Proof.
    intros T Q CH OP RM. assert (ST : exists b', bstep (EFlush k d) b = BOk b' [] /\ b' = set_task k (TOnline (a_set_bcast (aset d ms bc) (n - 1) a)) (set_chan d (push_norm (a_id a, m) ch) b)).
    { eexists. split; [|reflexivity]. cbn -[List.length]. unfold do_flush. rewrite T. unfold flush. destruct (bcnt_set bc n a) as (-> & ->). rewrite Q, CH, OP, !set_twice, id_set. cbn [negb]. unfold norm_room.
      destruct (N.ltb_spec (N.of_nat (List.length (ch_norm ch))) 8); [reflexivity|lia]. }
    destruct ST as (b' & ST & ->). eexists. eexists. exists (push_norm (a_id a, m) ch). split; [eapply tells_flush; eauto|].
    { intros d'. unfold received_for. rewrite CH, OP, andb_true_r. cbn. destruct (d =? d'); reflexivity. }
    split; [unfold tk; cbn; rewrite aget_N, N.eqb_refl; reflexivity|]. split; [repeat split; intros d' NE; cbn; rewrite aget_N; destruct (N.eqb_spec d' d); [contradiction|reflexivity]|].
    cbn. rewrite aget_N, N.eqb_refl. split; [reflexivity|]. split; [exact OP|]. rewrite app_length. cbn. lia.
  Qed.

  Lemma aset_same (d : client_id) (x : list nmsg) (bc : bcast) : aget d bc = Some x -> aset d x bc = bc.
  Proof. induction bc as [|[d' y] bc IH]; cbn [aset adel aget]; [discriminate|]. destruct (eqb_spec d d') as [->|]; [intros E; congruence|]. intros E. rewrite IH; auto. Qed.
  Lemma aset_aset (d : client_id) (x y : list nmsg) (bc : bcast) : aset d x (aset d y bc) = aset d x bc.
  Proof. induction bc as [|[d' z] bc IH]; cbn [aset adel aget]; [rewrite eqb_refl; reflexivity|]. destruct (eqb_spec d d') as [->|]; cbn [aset adel aget]; [rewrite eqb_refl; reflexivity|]. destruct (eqb_spec d d'); [contradiction|]. now rewrite IH. Qed.
  Lemma adel_aset (d : client_id) (x y : list nmsg) (bc : bcast) : aget d bc = Some y -> adel d (aset d x bc) = adel d bc.
  Proof. induction bc as [|[d' z] bc IH]; cbn [aset adel aget]; [discriminate|]. destruct (eqb_spec d d') as [->|]; cbn [aset adel aget]; [rewrite eqb_refl; reflexivity|]. destruct (eqb_spec d d'); [contradiction|]. intros E. now rewrite IH. Qed.

  Definition room (ch : BrokerModel.chan) (cs : list OnlineModel.chan) (ss : list bool) : Prop :=
    if ch_open ch then (forall x, List.In x cs -> x = COk) /\ (List.length cs + List.length (ch_norm ch) <= 8)%nat /\ ~ List.In false ss
    else forall x, List.In x cs -> x = CErr.
  Definition kept (d : client_id) (kp : option (list nmsg * option nmsg * bool)) (bc : bcast) : bcast :=
    match kp with Some (ms', hold', _) => aset d (opt hold' ++ ms') bc | None => adel d bc end.
  Lemma send_sim d ms : forall hold fl cs ss used kp u t b bc n a ch, reach b -> tk b bc n a -> aget d bc = Some (opt hold ++ ms) -> aget d (b_chans b) = Some ch -> room ch cs ss ->
    send_all d ms hold fl cs ss used = (kp, u, t) ->
    exists h b' n', tells b h b' t [] /\ tk b' (kept d kp bc) n' a /\ rest b b' d.
  Proof.
    assert (STAY : forall b bc n a q t, tk b bc n a -> aget d bc = Some q -> OnlineSpec.queued t = [] -> (forall d', delivered_to d' t = []) ->
      exists h b' n', tells b h b' t [] /\ tk b' (aset d q bc) n' a /\ rest b b' d).
    { intros b bc n a q t T A Q D. exists [], b, n. split; [apply (tells_mute _ _ _ []); auto; apply tells_nil|]. rewrite (aset_same _ _ _ A). split; [exact T|apply rest_refl]. }
    assert (GONE : forall b bc n a m q t ch cs ss, tk b bc n a -> aget d bc = Some (m :: q) -> aget d (b_chans b) = Some ch -> room ch cs ss -> (List.In CErr cs \/ List.In false ss) -> OnlineSpec.queued t = [] -> (forall d', delivered_to d' t = []) ->
      exists h b' n', tells b h b' t [] /\ tk b' (adel d bc) n' a /\ rest b b' d).
    { intros b bc n a m q t ch cs ss T A CH RM IN Q D. unfold room in RM. destruct (ch_open ch) eqn:OP.
      - destruct RM as (R1 & _ & R3). destruct IN as [IN|IN]; [specialize (R1 _ IN); discriminate|contradiction].
      - destruct (flush_gone b d bc n a m q ch t T A CH OP Q D) as (b' & n' & X). eauto. }
    assert (PASS : forall b bc n a m q ch cs ss, tk b bc n a -> aget d bc = Some (m :: q) -> aget d (b_chans b) = Some ch -> room ch (COk :: cs) ss ->
      exists b' n' ch', tells b [Past b (EFlush k d) []] b' [Delivered d m] [] /\ tk b' (aset d q bc) n' a /\ rest b b' d /\ aget d (b_chans b') = Some ch' /\ room ch' cs ss /\ ~ List.In false ss /\ ch_open ch' = true).
    { intros b bc n a m q ch cs ss T A CH RM. unfold room in RM. destruct (ch_open ch) eqn:OP; [|specialize (RM COk (or_introl eq_refl)); discriminate].
      destruct RM as (R1 & R2 & R3). cbn [List.length] in R2. destruct (flush_ok b d bc n a m q ch T A CH OP ltac:(lia)) as (b' & n' & ch' & X1 & X2 & X3 & X4 & X5 & X6).
      exists b', n', ch'. repeat (split; auto). unfold room. rewrite X5, X6. repeat split; auto; [|lia]. intros x I. apply R1. now right. }
    induction ms as [|m ms IH]; intros hold fl cs ss used kp u t b bc n a ch R T A CH RM E; cbn [send_all] in E.
    - destruct hold as [m|]; cbn [opt app] in A.
      + destruct cs as [|[] cs]; cbn [sink_poll] in E; injection E as <- <- <-; cbn [kept opt app].
        * eapply STAY; eauto.
        * destruct (PASS _ _ _ _ _ _ _ _ _ T A CH RM) as (b1 & n1 & ch1 & T1 & K1 & S1 & C1 & RM1 & _).
          destruct (flush_empty b1 d (aset d [] bc) n1 a [] K1 ltac:(apply aget_aset_eq) eq_refl (fun _ => eq_refl)) as (b2 & n2 & T2 & K2 & S2 & _).
          exists ([Past b1 (EFlush k d) []] ++ [Past b (EFlush k d) []]), b2, n2. split; [exact (tells_app _ _ _ _ [] _ _ _ [] T1 T2)|]. split; [rewrite (adel_aset _ _ _ _ A) in K2; exact K2|eapply rest_trans; eauto].
        * eapply GONE; eauto. left. now left.
      + cbn [sink_poll] in E. injection E as <- <- <-. cbn [kept]. destruct (flush_empty b d bc n a [] T A eq_refl (fun _ => eq_refl)) as (b2 & n2 & T2 & K2 & S2 & _). exists [Past b (EFlush k d) []], b2, n2. auto.
    - destruct hold as [m0|]; cbn [opt app] in A.
      + destruct cs as [|[] cs]; cbn [sink_poll] in E.
        * injection E as <- <- <-. cbn [kept opt app]. eapply STAY; eauto.
        * destruct (PASS _ _ _ _ _ _ _ _ _ T A CH RM) as (b1 & n1 & ch1 & T1 & K1 & S1 & C1 & RM1 & NF & OP1).
          assert (SS : match ss with b :: _ => b | [] => true end = true). { destruct ss as [|[] ss]; auto. destruct NF. now left. }
          rewrite SS in E. destruct (send_all d ms (Some m) fl cs (tl ss) (used + 1)) as [[kp1 u1] t1] eqn:E1. injection E as <- <- <-.
          assert (RM2 : room ch1 cs (tl ss)). { unfold room in *. rewrite OP1 in *. destruct RM1 as (X1 & X2 & X3). repeat split; auto. intros I. apply X3. destruct ss; [destruct I|now right]. }
          destruct (IH (Some m) fl cs (tl ss) _ _ _ _ b1 (aset d (m :: ms) bc) n1 a ch1 ltac:(eapply reach_tells; eauto) K1 ltac:(apply aget_aset_eq) C1 RM2 E1) as (h & b2 & n2 & T2 & K2 & S2).
          exists (h ++ [Past b (EFlush k d) []]), b2, n2. split; [exact (tells_app _ _ _ _ [] _ _ _ [] T1 T2)|]. split; [|eapply rest_trans; eauto].
          unfold kept in *. destruct kp1 as [[[ms1 h1] f1]|]; [rewrite aset_aset in K2|rewrite (adel_aset _ _ _ _ A) in K2]; exact K2.
        * injection E as <- <- <-. cbn [kept]. eapply GONE; eauto. left. now left.
      + cbn [sink_poll] in E. destruct ss as [|[] ss].
        * destruct (send_all d ms (Some m) fl cs (tl []) (used + 1)) as [[kp1 u1] t1] eqn:E1. injection E as <- <- <-. cbn [app]. eapply (IH (Some m)); eauto.
        * destruct (send_all d ms (Some m) fl cs (tl (true :: ss)) (used + 1)) as [[kp1 u1] t1] eqn:E1. injection E as <- <- <-. cbn [app].
          refine (IH (Some m) fl cs ss _ _ _ _ b bc n a ch R T A CH _ E1). unfold room in *. destruct (ch_open ch); [|exact RM]. destruct RM as (X1 & X2 & X3). repeat split; auto. intros I. apply X3. now right.
        * injection E as <- <- <-. cbn [kept]. eapply GONE; eauto. right. now left.
  Qed.
  Lemma serve_sim d ms hold fl cs ss kp u t b bc n a ch : reach b -> tk b bc n a -> aget d bc = Some (opt hold ++ ms) -> aget d (b_chans b) = Some ch -> room ch cs ss ->
    serve d ms hold fl cs ss = (kp, u, t) -> exists h b' n', tells b h b' t [] /\ tk b' (kept d kp bc) n' a /\ rest b b' d.
  Proof.
    intros R T A CH RM E. unfold serve in E. destruct (negb fl && _) eqn:B; [|eapply send_sim; eauto]. destruct ms; [|rewrite andb_false_r in B; discriminate].
    destruct (send_all (P := P) (Req := Req) d [] hold fl cs ss 0) as [[kp1 u1] t1] eqn:E1. destruct (send_sim d [] hold fl cs ss 0 kp1 u1 t1 b bc n a ch R T A CH RM E1) as (h & b' & n' & T1 & K1 & S1).
    assert (X : t = t1 /\ kept d kp bc = kept d kp1 bc). { cbn [send_all] in E1. match type of E with context[sink_poll ?a ?b ?c] => destruct (sink_poll (P := P) (Req := Req) a b c) as [[[] t0] cs0] end; injection E as <- <- <-; injection E1 as <- <- <-; auto. }
    destruct X as (-> & X). exists h, b', n'. rewrite X. auto.
  Qed.

  Lemma keys_map (f : client_id * list nmsg -> list nmsg) (bc : bcast) : keys (map (fun x => (fst x, f x)) bc) = keys bc.
  Proof. unfold keys. rewrite map_map. apply map_ext. reflexivity. Qed.
  Lemma aset_mid (d : client_id) (x y : list nmsg) (pre post : bcast) : ~ List.In d (keys pre) -> aset d y (pre ++ (d, x) :: post) = pre ++ (d, y) :: post.
  Proof. induction pre as [|[d' z] pre IH]; cbn [aset adel aget app keys map fst]; intros N; [rewrite eqb_refl; reflexivity|]. destruct (eqb_spec d d') as [->|]; [destruct N; left; reflexivity|]. rewrite IH; [reflexivity|intros I; apply N; right; exact I]. Qed.
  Lemma adel_mid (d : client_id) (x : list nmsg) (pre post : bcast) : ~ List.In d (keys pre) -> adel d (pre ++ (d, x) :: post) = pre ++ post.
  Proof. induction pre as [|[d' z] pre IH]; cbn [aset adel aget app keys map fst]; intros N; [rewrite eqb_refl; reflexivity|]. destruct (eqb_spec d d') as [->|]; [destruct N; left; reflexivity|]. rewrite IH; [reflexivity|intros I; apply N; right; exact I]. Qed.
  Lemma aget_mid (d : client_id) (x : list nmsg) (pre post : bcast) : ~ List.In d (keys pre) -> aget d (pre ++ (d, x) :: post) = Some x.
  Proof. induction pre as [|[d' z] pre IH]; cbn [aset adel aget app keys map fst]; intros N; [rewrite eqb_refl; reflexivity|]. destruct (eqb_spec d d') as [->|]; [destruct N; left; reflexivity|]. rewrite IH; [reflexivity|intros I; apply N; right; exact I]. Qed.
  Lemma outgoing_skip d x sinks (bc : bcast) : ~ List.In d (keys bc) -> outgoing ((d, x) :: sinks) bc = outgoing sinks bc.
  Proof.
    intros N. unfold outgoing. apply map_ext_in. intros [d' q] I. cbn [fst snd]. f_equal. f_equal. unfold hold_of. cbn [aget]. destruct (eqb_spec d' d) as [->|]; [|reflexivity].
    destruct N. apply in_map_iff. exists (d, q). auto.
  Qed.

  Lemma serve_all_sim (e : env) sinks bq : forall b2 k2 u t b pre n a, reach b -> tk b (pre ++ outgoing sinks bq) n a -> NoDup (keys pre ++ keys bq) ->
    (forall d ch, List.In d (keys bq) -> aget d (b_chans b) = Some ch -> room ch (e_chan e d) (e_send e d)) ->
    serve_all (Req := Req) e sinks bq = (b2, k2, u, t) ->
    exists h b' n', tells b h b' t [] /\ tk b' (pre ++ outgoing k2 b2) n' a /\ glob_of b' = glob_of b /\ b_now b' = b_now b.
  Proof.
    induction bq as [|[d ms] bq IH]; intros b2 k2 u t b pre n a R T ND RM E; cbn [serve_all] in E.
    { injection E as <- <- <- <-. exists [], b, n. split; [apply tells_nil|]. split; [exact T|auto]. }
    destruct (match aget d sinks with Some x => x | None => (None, true) end) as [hold fl] eqn:HF.
    destruct (serve d ms hold fl (e_chan e d) (e_send e d)) as [[kp used] t1] eqn:ES. destruct (serve_all e sinks bq) as [[[b3 k3] u3] t3] eqn:EA.
    assert (HO : hold_of sinks d = opt hold). { unfold hold_of. destruct (aget d sinks) as [[[m|] f]|]; injection HF as <- <-; reflexivity. }
    cbn [outgoing map fst snd] in T. fold (outgoing sinks bq) in T. rewrite HO in T.
    assert (NP : ~ List.In d (keys pre)). { cbn [keys map fst] in ND. apply NoDup_remove_2 in ND. rewrite in_app_iff in ND. tauto. }
    assert (NB : ~ List.In d (keys bq)). { cbn [keys map fst] in ND. apply NoDup_remove_2 in ND. rewrite in_app_iff in ND. tauto. }
    assert (CH : exists ch, aget d (b_chans b) = Some ch).
    { destruct R as (c0 & h0 & R). eapply target_chan; [exact R|exact (sess_tk _ _ _ _ T)|]. destruct (bcnt_set (pre ++ (d, opt hold ++ ms) :: outgoing sinks bq) n a) as (-> & _). rewrite aget_mid by exact NP. discriminate. }
    destruct CH as (ch & CH). destruct (serve_sim _ _ _ _ _ _ _ _ _ b _ n a ch R T ltac:(apply aget_mid; exact NP) CH (RM d ch (or_introl eq_refl) CH) ES) as (h1 & b1 & n1 & T1 & K1 & (G1 & N1 & C1)).
    pose proof (reach_tells _ _ _ _ _ R T1) as R1.
    assert (RM1 : forall d' ch', List.In d' (keys bq) -> aget d' (b_chans b1) = Some ch' -> room ch' (e_chan e d') (e_send e d')).
    { intros d' ch' I X. apply RM; [now right|]. rewrite C1 in X; [exact X|]. intros ->. contradiction. }
    destruct kp as [[[ms' hold'] fl']|]; cbn [kept] in K1.
    - rewrite aset_mid in K1 by exact NP. injection E as <- <- <- <-.
      destruct (IH b3 k3 u3 t3 b1 (pre ++ [(d, opt hold' ++ ms')]) n1 a R1) as (h2 & b2 & n2 & T2 & K2 & G2 & N2); auto.
      { rewrite <- app_assoc. exact K1. } { unfold keys in *. rewrite map_app, <- app_assoc. exact ND. }
      exists (h2 ++ h1), b2, n2. split; [exact (tells_app _ _ _ _ [] _ _ _ [] T1 T2)|]. split; [|split; congruence].
      cbn [outgoing map fst snd]. fold (outgoing ((d, (hold', fl')) :: k3) b3). rewrite outgoing_skip.
      + rewrite <- app_assoc in K2. unfold hold_of. cbn [aget]. rewrite eqb_refl. destruct hold'; exact K2.
      + assert (ND2 : NoDup (keys bq)) by (clear -ND; cbn [keys map fst] in ND; apply NoDup_remove_1 in ND; revert ND; unfold keys; generalize (map fst pre) (map fst bq); induction l; cbn; intros l2 ND; [exact ND|]; inversion_clear ND; auto).
        intros I. apply NB. exact (proj1 (proj2 (proj2 (serve_all_spec _ _ _ _ _ _ _ ND2 EA))) d I).
    - rewrite adel_mid in K1 by exact NP. injection E as <- <- <- <-.
      destruct (IH b3 k3 u3 t3 b1 pre n1 a R1) as (h2 & b2 & n2 & T2 & K2 & G2 & N2); auto.
      { apply NoDup_remove_1 in ND. exact ND. }
      exists (h2 ++ h1), b2, n2. split; [exact (tells_app _ _ _ _ [] _ _ _ [] T1 T2)|]. split; [exact K2|split; congruence].
  Qed.

  (** ** One poll *)
  Definition seen (l : lst) : sess := let q := outgoing (l_sinks l) (i_bc i (l_s l)) in mk (i_set i q (OnlineModel.total q) (l_s l)).
  Definition agrees_ (b : broker) (l : lst) : Prop :=
    reach b /\ aget k (b_tasks b) = Some (TOnline (seen l)) /\ a_id (mk (l_s l)) = c /\ l_hook l = None /\ l_take l = None /\ wfq (l_wp l) /\ J i l.
  Lemma seen_L w H l : (forall d, w d = hold_of (l_sinks l) d) -> i_cnt i (l_s l) + H = OnlineModel.total (up w (i_bc i (l_s l))) -> mk (L w H (l_s l)) = seen l.
  Proof.
    intros W C. unfold L, seen. rewrite C. assert (E : up w (i_bc i (l_s l)) = outgoing (l_sinks l) (i_bc i (l_s l))).
    { unfold up, outgoing. apply map_ext. intros x. rewrite W. reflexivity. } rewrite E. reflexivity.
  Qed.
  Lemma total_out sinks (bc : bcast) : OnlineModel.total bc <= OnlineModel.total (outgoing sinks bc).
  Proof. induction bc as [|[d q] bc IH]; cbn [outgoing map OnlineModel.total fold_right fst snd] in *; [lia|]. rewrite app_length. unfold OnlineModel.total, outgoing in IH. lia. Qed.
  Lemma agrees_at b l : agrees_ b l -> exists H, at_ (hold_of (l_sinks l)) H b (l_s l).
  Proof.
    intros (R & T & ID & _ & _ & _ & (TD & IN)). exists (OnlineModel.total (outgoing (l_sinks l) (i_bc i (l_s l))) - i_cnt i (l_s l)). split; [|split; [exact ID|]].
    - rewrite (seen_L _ _ l); [exact T|reflexivity|]. rewrite (proj2 TD). pose proof (total_out (l_sinks l) (i_bc i (l_s l))). unfold up. change (map _ (i_bc i (l_s l))) with (outgoing (l_sinks l) (i_bc i (l_s l))). lia.
    - intros d D. unfold hold_of. destruct (aget d (l_sinks l)) as [x|] eqn:X; [|reflexivity]. apply aget_None_notin in D. destruct D. apply IN. apply in_keys_aget. eauto.
  Qed.

  Definition settled (b : broker) (l : lst) : Prop := at_ (hold_of (l_sinks l)) (OnlineModel.total (outgoing (l_sinks l) (i_bc i (l_s l))) - i_cnt i (l_s l)) b (l_s l).

  Lemma broadcast_sim H e b l g l' g' t r sent : reach b -> at_ (hold_of (l_sinks l)) H b (l_s l) -> J i l ->
    (forall d ch, aget d (b_chans b) = Some ch -> room ch (e_chan e d) (e_send e d)) -> broadcast_phase i e l g = ((l', g', t, r), sent) ->
    r = None /\ g' = g /\ l_hook l' = l_hook l /\ l_take l' = l_take l /\ exists h b' H', tells b h b' t [] /\ at_ (hold_of (l_sinks l')) H' b' (l_s l') /\ glob_of b' = glob_of b /\ b_now b' = b_now b.
  Proof.
    intros R (A & ID & F) JL RM E. pose proof (broadcast_spec _ WB _ _ _ _ _ _ _ _ JL E) as (JL' & RN & _). unfold broadcast_phase in E.
    destruct (serve_all e (l_sinks l) (i_bc i (l_s l))) as [[[b2 k2] used] t0] eqn:ES.
    pose proof (serve_all_spec _ _ _ _ _ _ _ (proj1 (proj1 JL)) ES) as (KK & _).
    destruct (negb _) in E; [injection E as <- <- <- <- <-; discriminate RN|]. destruct (_ <? _) in E; [injection E as <- <- <- <- <-; discriminate RN|]. injection E as <- <- <- <- <-.
    split; [reflexivity|]. split; [reflexivity|]. split; [reflexivity|]. split; [reflexivity|].
    assert (T : tk b ([] ++ outgoing (l_sinks l) (i_bc i (l_s l))) (i_cnt i (l_s l) + H) (mk (l_s l))).
    { unfold tk. rewrite A. unfold L. rewrite mk_set. reflexivity. }
    destruct (serve_all_sim e (l_sinks l) (i_bc i (l_s l)) b2 k2 used t0 b [] _ _ R T (proj1 (proj1 JL)) (fun d ch _ => RM d ch) ES) as (h & b' & n' & TL & K & G & N). cbn [app] in K.
    exists h, b'. cbn [l_s l_sinks set_sinks set_s]. set (s' := i_set i b2 (i_cnt i (l_s l) - used) (l_s l)) in *. destruct JL' as ((ND' & CN') & IN'). cbn [l_s l_sinks set_sinks set_s] in ND', CN', IN'. fold s' in ND', CN', IN'.
    pose proof (reach_tells _ _ _ _ _ R TL) as (c0 & h0 & R'). destruct (run_bc _ _ _ _ _ _ _ _ R' (sess_tk _ _ _ _ K)) as (_ & CNT). destruct (bcnt_set (outgoing k2 b2) n' (mk (l_s l))) as (Q1 & Q2). rewrite Q1, Q2 in CNT.
    assert (B2 : i_bc i s' = b2) by apply (proj1 (wb_set _ WB _ _ _)).
    exists (n' - i_cnt i s'). split; [exact TL|]. split; [|auto]. split; [|split].
    - unfold L. rewrite mk_set, B2. unfold tk in K. rewrite K. change (mk s') with (mk (i_set i b2 (i_cnt i (l_s l) - used) (l_s l))). rewrite mk_set, set_twice. do 2 f_equal. pose proof (total_out k2 b2). rewrite CN', B2. change (up (hold_of k2) b2) with (outgoing k2 b2). f_equal. lia.
    - unfold s'. rewrite mk_set, id_set. exact ID.
    - rewrite B2. intros d D. unfold hold_of. destruct (aget d k2) as [x|] eqn:X; [|reflexivity]. apply aget_None_notin in D. destruct D. rewrite KK. apply in_keys_aget. eauto.
  Qed.

  Definition unready (e : env) : env :=
    Env (e_now e) (e_hook e) None (e_start e) (e_tflush e) (e_read e) (e_ctl e) (e_norm e) (e_write e) (e_flush e) (e_chan e) (e_send e) (e_write2 e) (e_flush2 e) (e_shut e) (e_slept e) (e_drain e).
  Lemma poll_unready e l g : l_hook l = None -> l_take l = None -> poll i (unready e) l g = poll i e l g.
  Proof. intros HK TK. unfold poll, hook_phase. rewrite HK. cbn [next]. unfold take_phase. rewrite TK. cbn [next]. unfold broadcast_phase.
    assert (X : forall sinks bc, serve_all (P := P) (Req := Req) (unready e) sinks bc = serve_all e sinks bc) by (intros sinks; induction bc as [|[d ms] bc IH]; cbn [serve_all]; [reflexivity|]; rewrite IH; reflexivity).
    destruct (next _ _) as [[[l1 g1] t1] [r1|]]; cbn [next]; [reflexivity|]. change (write_phase i (unready e)) with (write_phase i e). destruct (write_phase i e l1 g1) as [[[l2 g2] t2] [r2|]]; [reflexivity|]. rewrite X. reflexivity. Qed.

  Lemma steady_mute (t : list ev) : (forall d, delivered_to d t = []) -> OnlineSpec.queued t = [] -> forall b h b' rs t0, tells b h b' t0 rs -> tells b h b' (t0 ++ t) rs.
  Proof. intros D Q b h b' rs t0 T. apply (tells_mute _ _ _ t0); auto; [rewrite q_app, Q, app_nil_r; reflexivity|]. intros d. rewrite d_app, D, app_nil_r. reflexivity. Qed.
  Lemma write_keeps e l g l' g' t r : write_phase i e l g = (l', g', t, r) -> g' = g /\ l_hook l' = l_hook l /\ l_take l' = l_take l /\ (r = None \/ r = Some (RReady true) \/ r = Some RBug).
  Proof. unfold write_phase. destruct (write_loop i false (e_write e) (l_wp l)) as [[q t0] w]. destruct w; try destruct (wrote t0); try destruct (e_flush e) as [[]|]; intros E; injection E as <- <- <- <-; auto 6. Qed.
  Lemma drain_keeps e l g l' g' t r : drain_phase i e l g = (l', g', t, r) -> g' = g /\ l_hook l' = l_hook l /\ l_take l' = l_take l /\ (r = None \/ (exists x, r = Some (RReady x)) \/ r = Some RBug \/ r = Some RPending).
  Proof.
    unfold drain_phase. set (l0 := match l_drain l with None => set_drain (i_disc i (l_s l)) l | Some _ => l end). assert (X : l_hook l0 = l_hook l /\ l_take l0 = l_take l) by (unfold l0; destruct (l_drain l); auto). destruct X as (<- & <-).
    destruct (l_drain l0) as [wh|]; [|intros E; injection E as <- <- <- <-; auto 6]. destruct (write_loop i true (e_write2 e) (l_wp l0)) as [[q t0] w].
    destruct w; try destruct (e_flush2 e) as [[]|]; try destruct (e_shut e) as [[]|]; try destruct wh; try destruct (e_slept e); try destruct (e_drain e) as [[]|]; intros E; injection E as <- <- <- <-; eauto 9.
  Qed.

  Lemma poll_sim e b l l' g' t r : agrees_ b l -> (exists cq nq o, aget c (b_chans b) = Some (Chan cq nq o)) -> answers b c e -> e_ready e = None -> poll i e l (glob_of b) = (l', g', t, r) ->
    exists h b' n, tells b h b' t (flat_map arr (firstn n (e_read e))) /\ glob_of b' = g' /\ b_now b' = b_now b /\
      match r with
      | RPending => agrees_ b' l' \/ (l_take l' = Some false /\ handed b' k (seen l'))
      | RReady _ => aget k (b_tasks b') = Some (TEnd (seen l'))
      | RPanic => exists e, who e = Some k /\ bstep e b' = BPanic
      | _ => False
      end.
  Proof.
    intros AG CH AN RY E. destruct (agrees_at _ _ AG) as (H & A). destruct AG as (R & T & ID & HK & TK & WF & JL).
    pose proof (poll_cases _ _ _ _ _ _ _ _ E) as PC. assert (RY' : e_ready e <> Some COk) by congruence.
    destruct (poll_deliver _ WB _ _ _ _ _ _ WF JL RY' PC) as (JL' & NB & _).
    assert (WF' : r = RPending -> wfq (l_wp l')) by (intros ->; eapply poll_wfq; eauto). clear PC.
    unfold poll in E. fold (prod i e l (glob_of b)) in E. destruct (prod i e l (glob_of b)) as [[[l1 g1] t1] r1] eqn:E1.
    pose proof (prod_preW i e l (glob_of b)) as PW. pose proof (prod_preB _ WB e l (glob_of b) RY') as PB. rewrite E1 in PW, PB. destruct PW as (PW & _). destruct (PB (proj1 JL)) as (TD1 & IN1 & SK1 & _ & NB1 & _).
    assert (W1 : wfq (l_wp l1)) by (rewrite PW; now apply wfq_push).
    assert (J1 : J i l1) by (split; [exact TD1|rewrite SK1; eapply incl_tran; [apply JL|exact IN1]]).
    destruct (prod_sim _ H e b l l1 t1 g1 r1 R A HK TK CH AN E1) as (h1 & b1 & n & T1 & G1 & N1 & _ & C1 & O1 & S1). pose proof (reach_tells _ _ _ _ _ R T1) as R1. rewrite <- S1 in O1.
    destruct r1 as [r1|].
    { injection E as <- <- <- <-. exists h1, b1, n. split; [exact T1|]. split; [exact G1|]. split; [exact N1|]. destruct r1; cbn [outcome] in O1; auto.
      - right. destruct O1 as (O1 & O2 & O3). split; [exact O1|]. rewrite (seen_L _ _ l1) in O2; auto.
      - pose proof (end_count _ _ _ _ R1 O1) as CNT. destruct O1 as (O1 & _). rewrite (seen_L _ _ l1) in O1; auto. }
    destruct O1 as (A1 & HK1 & TK1). rewrite <- G1 in E.
    destruct (write_phase i e l1 (glob_of b1)) as [[[l2 g2] t2] r2] eqn:E2. destruct (write_keeps _ _ _ _ _ _ _ E2) as (-> & HK2 & TK2 & RW). rewrite HK1 in HK2. rewrite TK1 in TK2.
    destruct (write_phase_steady _ _ _ _ _ _ _ _ W1 E2) as (ST2 & L2 & K2 & NB2). destruct (write_phase_spec _ _ _ _ _ _ _ _ W1 E2) as (Q2 & _ & _ & WF2).
    assert (QW : OnlineSpec.queued t2 = []) by (clear -Q2; induction Q2 as [|x y X Y IH]; [reflexivity|]; destruct x; try contradiction X; exact IH).
    assert (DW : forall d, delivered_to d t2 = []) by (intros d; apply (ST2 d)).
    pose proof (steady_mute t2 DW QW _ _ _ _ _ T1) as T2.
    assert (A2 : at_ (hold_of (l_sinks l2)) H b1 (l_s l2)) by (rewrite K2, L2; exact A1).
    assert (CLOSE : forall bb ll HH, reach bb -> at_ (hold_of (l_sinks ll)) HH bb (l_s ll) -> exists b', tells bb [Past bb (EClose k) []] b' [] [] /\ aget k (b_tasks b') = Some (TEnd (seen ll)) /\ glob_of b' = glob_of bb /\ b_now b' = b_now bb).
    { intros bb ll HH RR AA. destruct (close_ _ _ _ _ AA) as (b' & ST & EN & (SG & SC & SN)). exists b'. split; [refine (tells_one bb (EClose k) b' [] [] ST eq_refl _ _ _); [exact pk_nil|auto|discriminate]|]. split; [|auto].
      pose proof (at_count _ _ _ _ RR AA) as CNT. destruct EN as (EN & _). rewrite (seen_L _ _ ll) in EN; auto. }
    destruct r2 as [r2|].
    { injection E as <- <- <- <-. destruct RW as [RW|[RW|RW]]; [discriminate| |congruence]. injection RW as ->. destruct (CLOSE b1 l2 H R1 A2) as (b' & T3 & EN & SG & SN).
      exists ([Past b1 (EClose k) []] ++ h1), b', n. split; [pose proof (tells_app _ _ _ _ _ _ _ _ _ T2 T3) as X; rewrite !app_nil_r in X; exact X|]. split; [exact SG|]. split; [congruence|exact EN]. }
    destruct (WF2 eq_refl) as (W2 & _). assert (J2 : J i l2) by (unfold J in *; rewrite L2, K2; exact J1).
    destruct (broadcast_phase i e l2 (glob_of b1)) as [[[[l3 g3] t3] r3] sent] eqn:E3.
    assert (RM : forall d ch, aget d (b_chans b1) = Some ch -> room ch (e_chan e d) (e_send e d)).
    { intros d ch' X. destruct (C1 _ _ X) as (ch & Y & OP & LE). destruct AN as (_ & _ & _ & RM). specialize (RM _ _ Y). unfold room. rewrite OP. destruct (ch_open ch); [|exact RM]. destruct RM as (M1 & M2 & M3). repeat split; auto. lia. }
    destruct (broadcast_sim H e b1 l2 (glob_of b1) l3 g3 t3 r3 sent R1 A2 J2 RM E3) as (-> & -> & HK3 & TK3 & h3 & b3 & H3 & T3 & A3 & G3 & N3).
    destruct (broadcast_spec _ WB _ _ _ _ _ _ _ _ J2 E3) as (J3 & _ & _). destruct (broadcast_noisy _ _ _ _ _ _ _ _ _ E3) as (_ & WP3 & _). rewrite <- WP3 in W2.
    pose proof (tells_app _ _ _ _ _ _ _ _ _ T2 T3) as T23. rewrite app_nil_r, <- app_assoc in T23. pose proof (reach_tells _ _ _ _ _ R1 T3) as R3.
    destruct (drain_phase i e l3 (glob_of b1)) as [[[l4 g4] t4] r4] eqn:E4. destruct (drain_keeps _ _ _ _ _ _ _ E4) as (-> & HK4 & TK4 & RD).
    destruct (drain_phase_steady _ _ _ _ _ _ _ _ W2 E4) as (ST4 & L4 & K4 & NB4). destruct (drain_phase_spec _ _ _ _ _ _ _ _ W2 E4) as (Q4 & _ & _ & _ & WF4 & _).
    assert (DW4 : forall d, delivered_to d t4 = []) by (intros d; apply (ST4 d)).
    pose proof (steady_mute t4 DW4 Q4 _ _ _ _ _ T23) as T4. rewrite <- !app_assoc in T4.
    assert (A4 : at_ (hold_of (l_sinks l4)) H3 b3 (l_s l4)) by (rewrite K4, L4; exact A3).
    assert (J4 : J i l4) by (unfold J in *; rewrite L4, K4; exact J3).
    assert (AGR : wfq (l_wp l4) -> agrees_ b3 l4).
    { intros WF4'. split; [exact R3|]. pose proof (at_count _ _ _ _ R3 A4) as CNT. destruct A4 as (A4 & ID4 & _). rewrite (seen_L _ _ l4) in A4; auto. split; [exact A4|]. split; [exact ID4|]. split; [congruence|]. split; [congruence|]. split; [exact WF4'|exact J4]. }
    destruct r4 as [r4|].
    - injection E as <- <- <- <-. destruct RD as [RD|[(x & RD)|[RD|RD]]]; try discriminate; [|congruence|]; injection RD as ->.
      + destruct (CLOSE b3 l4 H3 R3 A4) as (b' & T5 & EN & SG & SN). exists ([Past b3 (EClose k) []] ++ h3 ++ h1), b', n.
        split; [pose proof (tells_app _ _ _ _ _ _ _ _ _ T4 T5) as X; rewrite !app_nil_r in X; exact X|]. split; [congruence|]. split; [congruence|exact EN].
      + exists (h3 ++ h1), b3, n. split; [exact T4|]. split; [congruence|]. split; [congruence|]. left. auto.
    - injection E as <- <- <- <-. exists (h3 ++ h1), b3, n. split; [|split; [congruence|split; [congruence|left; auto]]].
      assert (X : forall x : bool, tells b (h3 ++ h1) b3 ((t1 ++ t2 ++ t3 ++ t4) ++ (if x then [Woke] else [])) (flat_map arr (firstn n (e_read e)))).
      { intros x. apply steady_mute; [| |exact T4]; destruct x; reflexivity. }
      match goal with |- context[if ?x then [Woke] else []] => specialize (X x) end. rewrite <- !app_assoc in X. exact X.
  Qed.
End Sim.
