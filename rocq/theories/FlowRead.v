(** Proofs for C78: a client whose messages find no place is not read. *)
From Coq Require Import List Bool String Ascii NArith Lia.
From Verif Require Import Base BaseLemmas OnlineModel OnlineSpec OnlineProofs FlowSpec.
Import ListNotations.
Local Open Scope N_scope.

Section Read.
  Context {P Msg In Err Ctl Act Req Ans S G : Type}.
  Variable i : iface P Msg In Err Ctl Act Req Ans S G.
  Hypothesis WB : well_behaved i.
  Hypothesis MX : forall s, i_max i s = 10.

  Lemma total_concat (b : list (client_id * list Msg)) : total b = size (List.concat (map snd b)).
  Proof.
    induction b as [|(d, ms) b IH]; [reflexivity|]. cbn [total fold_right map snd List.concat]. fold (total b). rewrite IH. unfold size.
    rewrite app_length. lia.
  Qed.
  Lemma total_del (d : client_id) (b : list (client_id * list Msg)) : NoDup (keys b) -> total b = N.of_nat (List.length (queue_of b d)) + total (adel d b).
  Proof.
    induction b as [|(c, ms) b IH]; intros ND; [reflexivity|]. inversion_clear ND as [|? ? N1 N2]. cbn [total fold_right snd]. fold (total b).
    unfold queue_of. cbn [aget adel]. change (@eqb client_id _ d c) with (N.eqb d c). destruct (N.eqb_spec d c) as [->|X].
    - reflexivity.
    - cbn [total fold_right snd]. fold (total (adel d b)). rewrite (IH N2). unfold queue_of. lia.
  Qed.
  Lemma queue_del (d e : client_id) (b : list (client_id * list Msg)) : NoDup (keys b) -> queue_of (adel d b) e = if N.eqb e d then [] else queue_of b e.
  Proof. intros N. unfold queue_of. destruct (N.eqb_spec e d) as [->|X]; [now rewrite aget_adel_eq|now rewrite aget_adel_ne by congruence]. Qed.
  Lemma total_grows (b : list (client_id * list Msg)) : forall b', NoDup (keys b) -> NoDup (keys b') -> (forall d, exists ms, queue_of b' d = queue_of b d ++ ms) -> total b <= total b'.
  Proof.
    induction b as [|(c, ms) b IH]; intros b' N N' H; [cbn; lia|]. inversion_clear N as [|? ? N1 N2].
    rewrite (total_del c b' N'). cbn [total fold_right snd]. fold (total b). apply N.add_le_mono.
    - destruct (H c) as (m & ->). unfold queue_of. cbn [aget]. change (@eqb client_id _ c c) with (N.eqb c c). rewrite N.eqb_refl, app_length. lia.
    - apply IH; [exact N2|apply NoDup_adel; exact N'|]. intros d. rewrite queue_del by exact N'. destruct (N.eqb_spec d c) as [->|X].
      + exists []. unfold queue_of. now rewrite (proj2 (aget_None_notin c b) N1).
      + destruct (H d) as (m & E). exists m. rewrite E. unfold queue_of. cbn [aget]. change (@eqb client_id _ d c) with (N.eqb d c).
        destruct (N.eqb_spec d c); [contradiction|reflexivity].
  Qed.

  Lemma full_read now rs rs' l g : tidy i (l_s l) -> 10 <= undelivered i (l_s l) -> read_phase i now rs l g = read_phase i now rs' l g.
  Proof.
    intros (_ & C) H. unfold undelivered in H. rewrite <- total_concat, <- C in H.
    assert (K : forall x, read_phase i now x l g = match i_disc i (l_s l) with Some _ => (l, g, [], None) | None => (set_ru true l, g, [], None) end).
    { intros x. destruct x; cbn [read_phase]; rewrite MX, (proj2 (N.leb_le 10 _) H), orb_true_r; reflexivity. }
    now rewrite !K.
  Qed.
  Lemma serve_reading rs (e : env Msg In Err Ctl Ans) k b : serve_all (P := P) (Req := Req) (reading rs e) k b = serve_all e k b.
  Proof. induction b as [|(d, ms) b IH]; [reflexivity|]. cbn [serve_all]. rewrite IH. reflexivity. Qed.
  Lemma bcast_reading rs e l g : broadcast_phase i (reading rs e) l g = broadcast_phase i e l g.
  Proof. unfold broadcast_phase. rewrite serve_reading. reflexivity. Qed.
  Lemma full_poll e rs l g : tidy i (l_s l) -> 10 <= undelivered i (l_s l) -> poll i (reading rs e) l g = poll i e l g.
  Proof.
    intros T H. unfold poll.
    change (hook_phase i (reading rs e) l g) with (hook_phase i e l g).
    pose proof (hook_preB i WB e l g) as HB. destruct (hook_phase i e l g) as (((l1, g1), t1), [r1|]); [reflexivity|]. cbn [next].
    destruct (HB T) as (T1 & _ & _ & _ & _ & Q1).
    assert (H1 : 10 <= undelivered i (l_s l1)).
    { unfold undelivered in *. rewrite <- total_concat in *. etransitivity; [exact H|]. apply total_grows; [apply T|apply T1|]. intros d. eexists. apply Q1. }
    change (take_phase i (reading rs e) l1 g1) with (take_phase i e l1 g1).
    assert (K : forall l2 g2 t2, take_phase i e l1 g1 = (l2, g2, t2, None) -> l2 = l1).
    { intros l2 g2 t2. unfold take_phase. destruct (l_take l1) as [[]|].
      - destruct (e_tflush e) as [[]|]; discriminate.
      - destruct (e_ready e) as [[]|]; [destruct (e_start e); [destruct (e_tflush e) as [[]|]|]| |]; discriminate.
      - intros E. now injection E as <- _ _. }
    destruct (take_phase i e l1 g1) as (((l2, g2), t2), [r2|]); [reflexivity|]. cbn [next]. rewrite (K _ _ _ eq_refl) in *.
    change (e_now (reading rs e)) with (e_now e). rewrite (full_read (e_now e) (e_read (reading rs e)) (e_read e) l1 g2 T1 H1).
    change (e_ctl (reading rs e)) with (e_ctl e). change (e_norm (reading rs e)) with (e_norm e).
    destruct (next (read_phase _ _ _ _ _) _) as (((l3, g3), t3), [r3|]); [reflexivity|].
    change (write_phase i (reading rs e) l3 g3) with (write_phase i e l3 g3). destruct (write_phase i e l3 g3) as (((l4, g4), t4), [r4|]); [reflexivity|].
    rewrite bcast_reading. reflexivity.
  Qed.
  (** Otherwise the next packet is taken at once. *)
  Lemma room_poll e l g l' g' t r x rs : tidy i (l_s l) -> l_hook l = None -> l_take l = None -> i_disc i (l_s l) = None -> too_much (l_wp l) = false ->
    undelivered i (l_s l) < 10 -> e_read e = x :: rs -> poll i e l g = (l', g', t, r) -> exists u, t = Took :: u.
  Proof.
    intros (_ & C) HK TK DC TM H RD. unfold undelivered in H. rewrite <- total_concat, <- C in H. unfold poll, hook_phase. rewrite HK. cbn [next]. unfold take_phase. rewrite TK. cbn [next]. rewrite RD.
    assert (B : exists l1 g1 u1 r1, read_phase i (e_now e) (x :: rs) l g = (l1, g1, Took :: u1, r1)).
    { cbn [read_phase]. rewrite DC, TM, MX, (proj2 (N.leb_gt 10 _) H). cbn [orb].
      destruct x; (match goal with |- context [took ?x] => destruct x as (((?, ?), ?), ?) end); do 4 eexists; reflexivity. }
    destruct B as (l1 & g1 & u1 & r1 & ->). destruct r1 as [r1|]; cbn [next app].
    { intros E. injection E as <- <- <- <-. eexists. reflexivity. }
    destruct (next (control_phase _ _ _ _ _) _) as (((l2, g2), u2), [r2|]); cbn [app].
    { intros E. injection E as <- <- <- <-. eexists. reflexivity. }
    destruct (write_phase i e l2 g2) as (((l3, g3), u3), [r3|]).
    { intros E. injection E as <- <- <- <-. eexists. reflexivity. }
    destruct (broadcast_phase i e l3 g3) as ((((l4, g4), u4), [r4|]), sent).
    { intros E. injection E as <- <- <- <-. eexists. reflexivity. }
    destruct (drain_phase i e l4 g4) as (((l5, g5), u5), [r5|]); intros E; injection E as <- <- <- <-; eexists; reflexivity.
  Qed.
End Read.
