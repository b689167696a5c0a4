(** C20 - C23, C49 from the cases of one PUBLISH. *)
From Coq Require Import List Bool String NArith Lia.
From Verif Require Import Base BaseLemmas TopicModel TopicSpec MsgModel RouteModel RouteSpec RetainModel
  PendingModel AliasModel OutModel OutSpec GlobModel Sess5Model Sess3Model ConnModel DelivSpec
  DelivFacts InSpec InFacts RecvSpec RecvProofs SubFacts.
Import ListNotations.
Local Open Scope N_scope.

Section V5.
  Variable hash : wpub5 -> N.
  Variable pick : string -> string -> N.
  Variable cfg : config.

  Lemma c20 h l w s s' g out c xs y : published5 hash pick cfg h l w s s' g out ->
    handed (s_bcast s) (s_bcast s') c xs -> In y xs ->
    exists T sq, topic_for (cf_alias_max cfg) l w = Some T /\
      (exists f, through pick h s T c f sq) /\ (forall f q, through pick h s T c f q -> qos_leb q sq = true) /\
      (forall now r, exists r' o, passes5 now cfg y r r' o /\ forall p, o = Some p ->
         p5_topic p = T /\ p5_payload p = w5_payload w /\ p5_qos p = qos_min (qp_qos (w5_qp w)) sq) /\
      (forall now r, exists r' o, passes3 now y r r' o /\ forall p, o = Some p ->
         p3_topic p = T /\ p3_payload p = w5_payload w /\ p3_qos p = qos_min (qp_qos (w5_qp w)) sq).
  Proof.
    intros HP HH HY.
    destruct (published_cases hash pick cfg h l w s s' g out c xs HP HH) as [->|(T & n & fs & sq & HT & EL & -> & ND & HI & A1 & A2 & VT & HS)]; [destruct HY|].
    destruct HY as [<-|[]]. exists T, sq. split; [exact HT|]. split; [exact A1|]. split; [exact A2|]. split; intros now r.
    - match goal with |- context [NM5 ?m] => destruct (normal5_spec now cfg m r) as (r' & o & P & _ & S) end.
      exists r', o. split; [exact P|]. intros p Ep. destruct (S p Ep) as (S1 & S2 & S3 & _). auto.
    - match goal with |- context [NM5 ?m] => destruct (normal3_spec now (NM5 m) r) as (r' & o & P & _ & S) end.
      exists r', o. split; [exact P|]. intros p Ep. destruct (S p Ep) as (S1 & S2 & S3 & _). auto.
  Qed.

  Lemma c21 h l w s s' g out xs : published5 hash pick cfg h l w s s' g out ->
    handed (s_bcast s) (s_bcast s') (s_id s) xs -> xs <> [] ->
    exists T f q, topic_for (cf_alias_max cfg) l w = Some T /\
      ((plain_sub h T (s_id s) f q /\ exists sub, aget f (s_subs s) = Some sub /\ so_no_local (sd_opts sub) = false) \/
       shared_pick pick (rt_run h) T (s_id s) f q).
  Proof.
    intros HP HH HN.
    destruct (published_cases hash pick cfg h l w s s' g out (s_id s) xs HP HH) as [->|(T & n & fs & sq & HT & EL & -> & ND & HI & (f & A1) & A2 & VT & HS)]; [congruence|].
    exists T, f, sq. split; [exact HT|]. destruct A1 as [(A & W)|A]; [left; split; auto|right; exact A].
  Qed.

  Lemma c21_ids h l w s s' g out xs y : published5 hash pick cfg h l w s s' g out ->
    handed (s_bcast s) (s_bcast s') (s_id s) xs -> In y xs ->
    forall f, In f (nm_filters y) -> plain f ->
      exists sub, aget f (s_subs s) = Some sub /\ so_no_local (sd_opts sub) = false.
  Proof.
    intros HP HH HY f HF Hp.
    destruct (published_cases hash pick cfg h l w s s' g out (s_id s) xs HP HH) as [->|(T & n & fs & sq & HT & EL & -> & ND & HI & _ & A2 & VT & HS)]; [destruct HY|].
    destruct HY as [<-|[]]. cbn [nm_filters n5_filters] in HF. apply HI in HF. destruct HF as (q & [(A & W)|A]); [now apply W|].
    destruct A as (grp & inner & sh & -> & OG & _). exfalso. unfold plain in Hp.
    rewrite (offered_name h T inner grp sh VT OG) in Hp. discriminate.
  Qed.

  Lemma c22 h l w s s' g out c xs : published5 hash pick cfg h l w s s' g out ->
    handed (s_bcast s) (s_bcast s') c xs ->
    (List.length xs <= 1)%nat /\
    forall y, In y xs -> exists T, topic_for (cf_alias_max cfg) l w = Some T /\
      forall now r, exists r' o, passes5 now cfg y r r' o /\ forall p, o = Some p ->
        NoDup (pp_subids (p5_props p)) /\
        forall i, In i (pp_subids (p5_props p)) <->
          exists f q sub, through pick h s T c f q /\ aget f (s_subs r) = Some sub /\ sd_id sub = Some i.
  Proof.
    intros HP HH.
    destruct (published_cases hash pick cfg h l w s s' g out c xs HP HH) as [->|(T & n & fs & sq & HT & EL & -> & ND & HI & A1 & A2 & VT & HS)].
    { split; [cbn; lia|intros y []]. }
    split; [cbn; lia|]. intros y [<-|[]]. exists T. split; [exact HT|]. intros now r.
    match goal with |- context [NM5 ?m] => destruct (normal5_spec now cfg m r) as (r' & o & P & _ & S) end.
    exists r', o. split; [exact P|]. intros p Ep. destruct (S p Ep) as (_ & _ & _ & _ & ids & -> & N & I).
    cbn [pp_subids set_subids]. split; [exact N|]. intros i. rewrite (I i). cbn [n5_filters]. split.
    - intros (f & sub & F1 & F2 & F3). apply HI in F1. destruct F1 as (q & F1). eauto 6.
    - intros (f & q & sub & F1 & F2 & F3). exists f, sub. split; [|auto]. apply HI. eauto.
  Qed.

  Lemma c22_one h l w s s' g out T c f q : published5 hash pick cfg h l w s s' g out ->
    is_disconnected5 s' = false -> (forall p, w5_qp w = Q2 p -> opener l p = None /\ w5_dup w = false) ->
    topic_for (cf_alias_max cfg) l w = Some T -> through pick h s T c f q -> reachable g (s_bcast s) c ->
    exists y, handed (s_bcast s) (s_bcast s') c [y] /\ nm_topic y = T /\ nm_payload y = w5_payload w /\
      nm_qos y = qp_qos (w5_qp w) /\ In f (nm_filters y).
  Proof.
    intros HP HD HQ HT TH RE.
    destruct (published_forwarded hash pick cfg h l w s s' g out HP HD HQ) as (T' & n & g' & HT' & EL & FW & _).
    rewrite HT in HT'. injection HT' as <-. destruct (FW c) as (fs & ND & HI & _ & H2). cbn [pm_topic message5] in *.
    assert (Hf : In f fs) by (apply HI; eauto).
    destruct (H2 ltac:(intros ->; destruct Hf) RE) as (sq & _ & _ & A). eexists. split; [exact A|]. repeat split. exact Hf.
  Qed.

  Lemma c23_v5 h l w s s' g out c xs y : published5 hash pick cfg h l w s s' g out ->
    handed (s_bcast s) (s_bcast s') c xs -> In y xs ->
    exists T, topic_for (cf_alias_max cfg) l w = Some T /\
      forall now r, exists r' o, passes5 now cfg y r r' o /\ forall p, o = Some p ->
        (p5_retain p = true <-> w5_retain w = true /\ cf_retain cfg = true /\
           exists f q sub, through pick h s T c f q /\ aget f (s_subs r) = Some sub /\ so_rap (sd_opts sub) = true).
  Proof.
    intros HP HH HY.
    destruct (published_cases hash pick cfg h l w s s' g out c xs HP HH) as [->|(T & n & fs & sq & HT & EL & -> & ND & HI & A1 & A2 & VT & HS)]; [destruct HY|].
    destruct HY as [<-|[]]. exists T. split; [exact HT|]. intros now r.
    match goal with |- context [NM5 ?m] => destruct (normal5_spec now cfg m r) as (r' & o & P & _ & S) end.
    exists r', o. split; [exact P|]. intros p Ep. destruct (S p Ep) as (_ & _ & _ & R & _). rewrite R. cbn [n5_filters n5_retain].
    split; intros (X1 & X2 & X3); (split; [exact X1|]; split; [exact X2|]).
    - destruct X3 as (f & sub & F1 & F2 & F3). apply HI in F1. destruct F1 as (q & F1). eauto 6.
    - destruct X3 as (f & q & sub & F1 & F2 & F3). exists f, sub. split; [|auto]. apply HI. eauto.
  Qed.
End V5.

Section V3.
  Variable hash : wpub3 -> N.
  Variable cfg : config.

  Lemma c20_v3 h l w s s' g out c xs y : published3 hash cfg h l w s s' g out ->
    handed (z_bcast s) (z_bcast s') c xs -> In y xs ->
    exists f sq, plain_sub h (w3_topic w) c f sq /\ nm_filters y = [f] /\
      (forall now r, exists r' o, passes5 now cfg y r r' o /\ forall p, o = Some p ->
         p5_topic p = w3_topic w /\ p5_payload p = w3_payload w /\ p5_qos p = qos_min (qp_qos (w3_qp w)) sq) /\
      (forall now r, exists r' o, passes3 now y r r' o /\ forall p, o = Some p ->
         p3_topic p = w3_topic w /\ p3_payload p = w3_payload w /\ p3_qos p = qos_min (qp_qos (w3_qp w)) sq).
  Proof.
    intros HP HH HY.
    destruct (published3_cases hash cfg h l w s s' g out c xs HP HH) as [->|(n & es & EL & -> & ND & HI)]; [destruct HY|].
    apply in_map_iff in HY. destruct HY as ((f, sq) & <- & HE). apply HI in HE. exists f, sq. split; [exact HE|]. split; [reflexivity|].
    cbn [fst snd]. split; intros now r.
    - match goal with |- context [NM3 ?m] => destruct (normal5_spec3 now cfg m r) as (r' & o & P & _ & S) end.
      exists r', o. split; [exact P|]. intros p Ep. destruct (S p Ep) as (S1 & S2 & S3 & _). auto.
    - match goal with |- context [NM3 ?m] => destruct (normal3_spec now (NM3 m) r) as (r' & o & P & _ & S) end.
      exists r', o. split; [exact P|]. intros p Ep. destruct (S p Ep) as (S1 & S2 & S3 & _). auto.
  Qed.

  Lemma c23_v3 h l w s s' g out c xs y : published3 hash cfg h l w s s' g out ->
    handed (z_bcast s) (z_bcast s') c xs -> In y xs ->
    exists f q, plain_sub h (w3_topic w) c f q /\
      forall now r, exists r' o, passes5 now cfg y r r' o /\ forall p, o = Some p ->
        (p5_retain p = true <-> w3_retain w = true /\ cf_retain cfg = true /\
           exists sub, aget f (s_subs r) = Some sub /\ so_rap (sd_opts sub) = true).
  Proof.
    intros HP HH HY.
    destruct (published3_cases hash cfg h l w s s' g out c xs HP HH) as [->|(n & es & EL & -> & ND & HI)]; [destruct HY|].
    apply in_map_iff in HY. destruct HY as ((f, sq) & <- & HE). apply HI in HE. exists f, sq. split; [exact HE|].
    cbn [fst snd]. intros now r.
    match goal with |- context [NM3 ?m] => destruct (normal5_spec3 now cfg m r) as (r' & o & P & _ & S) end.
    exists r', o. split; [exact P|]. intros p Ep. destruct (S p Ep) as (_ & _ & _ & sub & S4 & S5 & _). rewrite S5.
    cbn [n3_filter] in S4. rewrite S4. split.
    - intros (A & B & C). eauto 6.
    - intros (A & B & (sub' & C & D)). injection C as <-. auto.
  Qed.

  Lemma c49_v3 h l w s s' g out c f q : published3 hash cfg h l w s s' g out ->
    (forall p, w3_qp w = Q2 p -> w3_dup w = false) -> plain_sub h (w3_topic w) c f q -> reachable g (z_bcast s) c ->
    exists xs y, handed (z_bcast s) (z_bcast s') c xs /\ In y xs /\
      nm_topic y = w3_topic w /\ nm_payload y = w3_payload w /\ nm_qos y = qp_qos (w3_qp w) /\
      nm_filters y = [f] /\ nm_sqos y = q.
  Proof.
    intros HP HQ HS RE. destruct (published3_forwarded hash cfg h l w s s' g out HP HQ) as (n & g' & FW & _).
    destruct (FW c) as (es & _ & HI & _ & H2). cbn [pm_topic message3] in *. eexists. eexists. split; [exact (H2 RE)|].
    split; [apply in_map, HI; exact HS|]. now repeat split.
  Qed.
End V3.

(** ** SUBSCRIBE, split by topic *)

Lemma c24 : forall hash pick cfg s l now len p id fs g h hr s' g' out, cf_max_qos cfg <= 2 ->
  srun5 hash cfg s l -> is_disconnected5 s = false -> g_cfg g = cfg -> g_route g = rt_run h -> g_retain g = ret_run hr ->
  len <= cf_packet_server cfg -> Forall (fun e => valid_filter (fst e)) fs -> id <> Some 0 ->
  packet_step5 hash pick now len (ISub p id fs) s g = Go s' g' out ->
  exists mq codes o k1 k2, max_allowed_qos cfg = Some mq /\ out = (k1 ++ KSuback p codes :: k2)%list /\
    serves5 cfg id hr (s_ident s) (s_maxpkt s) now mq (keys (s_subs s)) fs (s_out s) o k1 /\
    flushed5 now o (s_out s') k2.
Proof.
  intros hash pick cfg s l now len p id fs g h hr s' g' out Hq R D Ec Er Et Hl Hv Hid E.
  destruct (c25_subscribe hash pick cfg s l now len p id fs g h hr s' g' out Hq R D Ec Er Et Hl Hv E) as [(X & _)|(_ & X)].
  - contradiction.
  - destruct X as (codes & _ & _ & _ & _ & _ & mq & o & k1 & k2 & X). exists mq, codes, o, k1, k2. exact X.
Qed.

Lemma c24_v3 : forall hash cfg s l now len p fs g h hr s' g' out, cf_max_qos cfg <= 2 ->
  srun3 hash cfg s l -> z_disc s = false -> g_cfg g = cfg -> g_route g = rt_run h -> g_retain g = ret_run hr ->
  Forall (fun e => valid_filter (fst e)) fs ->
  packet_step3 hash now len (YSub p fs) s g = Go3 s' g' out ->
  exists mq codes o k1 k2, max_allowed_qos cfg = Some mq /\ out = (k1 ++ JSuback p codes :: k2)%list /\
    serves3 hr now mq fs (z_out s) o k1 /\ flushed3 now o (z_out s') k2.
Proof.
  intros hash cfg s l now len p fs g h hr s' g' out Hq R D Ec Er Et Hv E.
  destruct (c25_v3_subscribe hash cfg s l now len p fs g h hr s' g' out Hq R D Ec Er Et Hv E)
    as (codes & _ & _ & _ & _ & _ & _ & mq & o & k1 & k2 & X). exists mq, codes, o, k1, k2. exact X.
Qed.

Lemma c25 : forall hash pick cfg s l now len p id fs g h hr s' g' out, cf_max_qos cfg <= 2 ->
  srun5 hash cfg s l -> is_disconnected5 s = false -> g_cfg g = cfg -> g_route g = rt_run h -> g_retain g = ret_run hr ->
  len <= cf_packet_server cfg -> Forall (fun e => valid_filter (fst e)) fs ->
  packet_step5 hash pick now len (ISub p id fs) s g = Go s' g' out ->
  (id = Some 0 /\ refused5 RC_protocol_error s s' g g' (answers out) /\ s_subs s' = s_subs s) \/
  (id <> Some 0 /\ exists codes, answers out = [KSuback p codes] /\ Forall2 (answer5 cfg id) fs codes /\
     g_route g' = rt_run (h ++ granted_ops (s_id s) fs codes) /\ g' = set_route (g_route g') g /\
     (agree5 h s -> agree5 (h ++ granted_ops (s_id s) fs codes) s')).
Proof.
  intros hash pick cfg s l now len p id fs g h hr s' g' out Hq R D Ec Er Et Hl Hv E.
  destruct (c25_subscribe hash pick cfg s l now len p id fs g h hr s' g' out Hq R D Ec Er Et Hl Hv E) as [X|(Hid & X)]; [now left|right].
  split; [exact Hid|]. destruct X as (codes & X1 & X2 & X3 & X4 & X5 & _). exists codes. auto 6.
Qed.

Lemma c25_v3 : forall hash cfg s l now len p fs g h hr s' g' out, cf_max_qos cfg <= 2 ->
  srun3 hash cfg s l -> z_disc s = false -> g_cfg g = cfg -> g_route g = rt_run h -> g_retain g = ret_run hr ->
  Forall (fun e => valid_filter (fst e)) fs ->
  packet_step3 hash now len (YSub p fs) s g = Go3 s' g' out ->
  exists codes, answers3 out = [JSuback p codes] /\
    Forall (fun e => plain (fst e)) fs /\
    Forall2 (fun e q => qos_num q = N.min (qos_num (snd e)) (cf_max_qos cfg)) fs codes /\
    g_route g' = rt_run (h ++ granted_ops (z_id s) fs (map qos_num codes)) /\ g' = set_route (g_route g') g /\
    (agree3 h s -> agree3 (h ++ granted_ops (z_id s) fs (map qos_num codes)) s').
Proof.
  intros hash cfg s l now len p fs g h hr s' g' out Hq R D Ec Er Et Hv E.
  destruct (c25_v3_subscribe hash cfg s l now len p fs g h hr s' g' out Hq R D Ec Er Et Hv E)
    as (codes & X1 & X2 & X3 & X4 & X5 & X6 & _). exists codes. auto 7.
Qed.
