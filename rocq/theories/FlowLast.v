(** Proofs for C70: one SUBSCRIBE. *)
From Coq Require Import List Bool String Ascii NArith Lia.
From Verif Require Import Base BaseLemmas TopicModel MsgModel PendingModel OutModel RouteModel RetainModel GlobModel Sess5Model
  ConnModel InSpec OnlineModel OnlineSpec OnlineProofs HookModel InProps OnlineProps FlowSpec FlowProofs.
Import ListNotations.
Local Open Scope N_scope.

(** A client that is subscribed to "a", where a message is retained. *)
Definition flow_f : string * subopts := ("a"%string, SubOpts L0 false false RH_send).
Definition flow_s0 : sess5 :=
  match session_connect5 unit config_default 1000 (RcNew 7) None (new_conn config_default "" 1000 ex_connect) with
  | Some (s, _) => s
  | None => sess5_new config_default 0
  end.
Definition flow_g0 : glob := Glob config_default (rt_run []) (fst (ret_insert ret_empty (RContent "x" L0 "a" "hello" None 10))) [7].
Definition flow_sub s g := match handle_subscribe5 1001 1 None [flow_f] s g with Done (s', g', _) => (s', g') | Panic => (s, g) end.
Definition flow_s : sess5 := Eval vm_compute in with_last 1001 (fst (flow_sub flow_s0 flow_g0)).
Definition flow_g : glob := Eval vm_compute in snd (flow_sub flow_s0 flow_g0).
Definition flow_one := Eval vm_compute in subscribe_one 1001 None (fst flow_f) (snd flow_f) flow_s flow_g.
Definition flow_k : pkt5 := Eval vm_compute in match flow_one with Done (_, _, _, k :: _) => k | _ => KPingresp end.
Lemma flow_again : subscribe_one 1001 None (fst flow_f) (snd flow_f) flow_s flow_g = Done (flow_s, flow_g, 0, [flow_k]).
Proof. vm_compute. reflexivity. Qed.
Lemma flow_all n : subscribe_all 1001 None (repeat flow_f n) flow_s flow_g = Done (flow_s, flow_g, repeat 0 n, repeat flow_k n).
Proof.
  induction n as [|n IH]; [reflexivity|]. change (repeat flow_f (Datatypes.S n)) with ((fst flow_f, snd flow_f) :: repeat flow_f n).
  cbn [subscribe_all]. rewrite flow_again, IH. reflexivity.
Qed.
Lemma flow_packet len n : len <= 268435460 -> i_packet exo_i 1001 (len, ISub 1 None (repeat flow_f n)) flow_s flow_g =
  HpOk flow_s flow_g (repeat flow_k n ++ [KSuback 1 (repeat 0 n)])%list None.
Proof.
  intros L. cbn [exo_i online5 i_packet]. unfold packet5. cbn [fst snd]. unfold handle_packet5.
  assert (C : cf_packet_server (g_cfg flow_g) <? len = false) by (apply N.ltb_ge; exact L).
  rewrite C. cbn [hk_subscribe]. unfold handle_subscribe5.
  change (negb (cf_subid (g_cfg flow_g)) && false) with false. cbv iota. rewrite flow_all. reflexivity.
Qed.
Definition flow_e (len : N) (n : nat) := (exo_env [RdPacket (len, ISub 1 None (repeat flow_f n)) HWait] [] [], flow_g).
Lemma flow_after : i_after exo_i 1001 flow_s = (flow_s, []).
Proof. vm_compute. reflexivity. Qed.
Lemma flow_read len n : len <= 268435460 -> exists l g t, read_phase exo_i 1001 (e_read (fst (flow_e len n))) (lst_new flow_s) flow_g =
  (l, g, Took :: map Queued (repeat flow_k n ++ [KSuback 1 (repeat 0 n)]) ++ t, None)%list.
Proof.
  intros L. unfold flow_e, exo_env. cbn [fst e_read]. cbn [read_phase].
  change (i_disc exo_i (l_s (lst_new flow_s))) with (@None disc). cbv iota.
  change (too_much (l_wp (lst_new flow_s)) || (i_max exo_i (l_s (lst_new flow_s)) <=? i_cnt exo_i (l_s (lst_new flow_s)))) with false. cbv iota.
  change (l_s (set_ru false (lst_new flow_s))) with flow_s. rewrite (flow_packet len n L).
  change (asked exo_i flow_s flow_s) with (@nil (ev pkt5 nmsg req5)). cbn [app next]. set (out := (repeat flow_k n ++ [KSuback 1 (repeat 0 n)])%list). clearbody out.
  unfold after. change (l_s (push out (set_s flow_s (set_ru false (lst_new flow_s))))) with flow_s. rewrite flow_after. cbn [next].
  match goal with |- context [match i_disc exo_i ?s with _ => _ end] => change (i_disc exo_i s) with (@None disc) end. cbv iota.
  destruct (_ || _); cbn [took]; do 3 eexists; reflexivity.
Qed.
Lemma next_nil (l : lst pkt5 nmsg req5 sess5) (g : glob) k : next (l, g, @nil (ev pkt5 nmsg req5), None) k = k l g.
Proof. cbn [next]. destruct (k l g) as (((l', g'), t'), r'). reflexivity. Qed.
Lemma flow_poll len n l g t r : len <= 268435460 -> poll exo_i (fst (flow_e len n)) (lst_new flow_s) flow_g = (l, g, t, r) ->
  exists t', (t = Took :: map Queued (repeat flow_k n ++ [KSuback 1 (repeat 0 n)]) ++ t')%list.
Proof.
  intros L E. apply poll_cases in E.
  assert (A : forall l1 g1 t1 r1, prod exo_i (fst (flow_e len n)) (lst_new flow_s) flow_g = (l1, g1, t1, r1) ->
    exists t', (t1 = Took :: map Queued (repeat flow_k n ++ [KSuback 1 (repeat 0 n)]) ++ t')%list).
  { intros l1 g1 t1 r1. unfold prod.
    change (hook_phase exo_i (fst (flow_e len n)) (lst_new flow_s) flow_g) with (lst_new (P := pkt5) (Msg := nmsg) (Req := req5) flow_s, flow_g, @nil (ev pkt5 nmsg req5), @None res).
    rewrite next_nil.
    change (take_phase exo_i (fst (flow_e len n)) (lst_new flow_s) flow_g) with (lst_new (P := pkt5) (Msg := nmsg) (Req := req5) flow_s, flow_g, @nil (ev pkt5 nmsg req5), @None res).
    rewrite next_nil.
    change (e_now (fst (flow_e len n))) with 1001. destruct (flow_read len n L) as (l2 & g2 & t2 & ->). unfold next at 1. cbn [app].
    match goal with |- (match ?x with _ => _ end) = _ -> _ => destruct x as (((l3, g3), t3), r3) end.
    intros E1. injection E1 as <- <- <- <-. exists (t2 ++ t3)%list. now rewrite <- app_assoc. }
  destruct E as [l1 g1 t1 r E1|l1 g1 t1 l2 g2 t2 r E1 E2|l1 g1 t1 l2 g2 t2 l3 g3 t3 r sent E1 E2 E3
      |l1 g1 t1 l2 g2 t2 l3 g3 t3 sent l4 g4 t4 r E1 E2 E3 E4|l1 g1 t1 l2 g2 t2 l3 g3 t3 sent l4 g4 t4 w E1 E2 E3 E4 Ew];
    destruct (A _ _ _ _ E1) as (t' & ->); eexists; cbn [app]; rewrite <- ?app_assoc; reflexivity.
Qed.
Lemma flow_bytes n : size (stream exo_i (repeat flow_k n)) = 2 * N.of_nat n.
Proof.
  induction n as [|n IH]; [reflexivity|]. change (stream exo_i (repeat flow_k (Datatypes.S n))) with (enc exo_i flow_k ++ stream exo_i (repeat flow_k n))%list.
  rewrite size_app, IH. change (size (enc exo_i flow_k)) with 2. lia.
Qed.
Lemma one_packet n : 4 * n + 12 <= 268435455 -> exists fs es s l t r t1 t2, size fs = n /\ es = [(exo_env [RdPacket (4 * n + 12, ISub 1 None fs) HWait] [] [], flow_g)] /\ life exo_i es (lst_new s) = (l, t, r) /\ t = (t1 ++ t2)%list /\ takes t1 = 1 /\ up_to exo_i 2 t1 /\ 2 * n <= backlog exo_i t1.
Proof.
  intros L. set (k := N.to_nat n). exists (repeat flow_f k), [flow_e (4 * n + 12) k], flow_s.
  destruct (life exo_i [flow_e (4 * n + 12) k] (lst_new flow_s)) as ((l, t), r) eqn:EL.
  set (t1 := (Took :: map Queued (repeat flow_k k ++ [KSuback 1 (repeat 0 k)]))%list : list (ev pkt5 nmsg req5)).
  assert (T : exists t2, t = (t1 ++ t2)%list).
  { cbn [life] in EL. unfold flow_e at 1 in EL. destruct (poll exo_i _ (lst_new flow_s) flow_g) as (((l1, g1), u), x) eqn:EP.
    destruct (flow_poll (4 * n + 12) k l1 g1 u x ltac:(lia) EP) as (t' & ->).
    destruct x; injection EL as <- <- <-; exists t'; cbn [app t1]; try reflexivity. now rewrite app_nil_r. }
  destruct T as (t2 & ->). exists l, (t1 ++ t2)%list, r, t1, t2.
  assert (Q : queued t1 = (repeat flow_k k ++ [KSuback 1 (repeat 0 k)])%list).
  { unfold t1. change (queued (Took :: ?a)) with (queued a). apply queued_queued. }
  assert (W : written t1 = []) by (unfold t1; change (written (Took :: ?a)) with (written a); apply written_queued).
  split; [unfold size; rewrite repeat_length; unfold k; lia|]. split; [reflexivity|]. split; [reflexivity|]. split; [reflexivity|].
  split.
  { unfold takes, t1. cbn [filter]. set (f := filter _ (map Queued _)). replace f with (@nil (ev pkt5 nmsg req5)); [reflexivity|].
    unfold f. clear. induction (repeat flow_k k ++ [KSuback 1 (repeat 0 k)])%list as [|p ps IH]; [reflexivity|exact IH]. }
  split.
  - intros p. rewrite Q. intros H. apply in_app_iff in H as [H|[<-|[]]]; [apply repeat_spec in H as ->|]; vm_compute; discriminate.
  - unfold backlog, bytes. rewrite Q, W. unfold stream. rewrite flat_map_app, size_app. fold (stream exo_i (repeat flow_k k)). rewrite flow_bytes.
    unfold k. rewrite N2Nat.id. change (size (@nil N)) with 0. lia.
Qed.
