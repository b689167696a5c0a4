(** Proofs about the way from a socket to the MQTT handler. *)
From Coq Require Import List Bool Arith NArith Lia.
From Verif Require Import Base ProxyModel ProxySpec ProxyProofs AcceptModel AcceptSpec.
Import ListNotations.
Local Open Scope list_scope.
Local Open Scope N_scope.

(** ** Reading *)

Lemma bytes_eqb_eq a : forall b, bytes_eqb a b = true <-> a = b.
Proof.
  induction a as [|x a IH]; intros [|y b]; cbn; try (split; discriminate); try tauto.
  rewrite andb_true_iff, N.eqb_eq, IH. split; [intros [-> ->]; reflexivity|intros E; injection E; auto].
Qed.

Lemma one_byte r b r' : read_exact 1 r = Some (b, r') -> exists x, b = [x].
Proof. intros E. destruct (read_exact_sound _ _ _ _ E) as (L & _). destruct b as [|x [|]]; try discriminate. eauto. Qed.

Lemma read_get n r b rest : flowing r -> length b = n -> concat r = b ++ rest ->
  exists r', read_exact n r = Some (b, r') /\ concat r' = rest /\ flowing r'.
Proof. intros F <-. exact (read_exact_get r b rest F). Qed.

Lemma var_sound fuel : forall shift acc r n r', (fuel <= 4)%nat -> read_var fuel shift acc r = Some (n, r') ->
  exists v front last, v = front ++ [last] /\ (length front < fuel)%nat /\ Forall (fun b => 128 <= b) front /\ last < 128 /\
    n = acc + shift * var_value v /\ concat r = v ++ concat r'.
Proof.
  induction fuel as [|f IH]; intros shift acc r n r' L E; [discriminate|]. cbn [read_var] in E.
  destruct (read_exact 1 r) as [(b, r1)|] eqn:R; [|discriminate].
  destruct (one_byte _ _ _ R) as (x & ->). destruct (read_exact_sound _ _ _ _ R) as (_ & C & _).
  destruct (N.ltb_spec x 128) as [X|X].
  - injection E as <- <-. exists [x], [], x. cbn [var_value app length]. repeat split; auto; try lia; try constructor.
  - destruct (IH _ _ _ _ _ ltac:(lia) E) as (v & fr & la & -> & F1 & F2 & F3 & F4 & F5).
    exists (x :: fr ++ [la]), (x :: fr), la. cbn [var_value app length]. repeat split; auto; try lia.
    rewrite C, F5. reflexivity.
Qed.

Lemma var_complete front : forall fuel shift acc r last rest, flowing r -> (length front < fuel)%nat ->
  Forall (fun b => 128 <= b) front -> last < 128 -> concat r = (front ++ [last]) ++ rest ->
  exists r', read_var fuel shift acc r = Some (acc + shift * var_value (front ++ [last]), r') /\ concat r' = rest /\ flowing r'.
Proof.
  induction front as [|x fr IH]; intros [|fuel] shift acc r last rest F L A B C; try (cbn in L; lia).
  - destruct (read_get 1 r [last] rest F eq_refl C) as (r' & R & C' & F'). exists r'. cbn [read_var app var_value].
    rewrite R. destruct (N.ltb_spec last 128); [|lia]. rewrite N.mul_0_r, N.add_0_r. repeat split; auto. f_equal. f_equal. lia.
  - inversion_clear A as [|? ? A1 A2].
    destruct (read_get 1 r [x] _ F eq_refl C) as (r' & R & C' & F').
    destruct (IH fuel (shift * 128) (acc + x mod 128 * shift) r' last rest F' ltac:(cbn in L; lia) A2 B C') as (r2 & E2 & C2 & F2).
    exists r2. cbn [read_var app var_value]. rewrite R. destruct (N.ltb_spec x 128); [lia|]. rewrite E2. repeat split; auto.
    f_equal. f_equal. lia.
Qed.

Lemma proto_sound r p r' : read_protocol r = Some (p, r') -> concat r = name_and_level p ++ concat r'.
Proof.
  unfold read_protocol. intros E.
  destruct (read_exact 2 r) as [(hl, r1)|] eqn:R1; [|discriminate].
  destruct (read_exact_sound _ _ _ _ R1) as (L1 & C1 & _). destruct hl as [|h [|l [|]]]; try discriminate.
  destruct (read_exact (N.to_nat (be16 h l)) r1) as [(nm, r2)|] eqn:R2; [|discriminate].
  destruct (read_exact_sound _ _ _ _ R2) as (L2 & C2 & _).
  destruct (read_exact 1 r2) as [(lv, r3)|] eqn:R3; [|discriminate].
  destruct (read_exact_sound _ _ _ _ R3) as (_ & C3 & _). destruct (one_byte _ _ _ R3) as (x & ->).
  assert (Z : forall k, length nm = k -> (0 < k < 256)%nat -> h = 0 /\ l = N.of_nat k).
  { intros k K B. unfold be16 in L2. rewrite K in L2. nia. }
  destruct (bytes_eqb nm [77; 81; 73; 115; 100; 112] && (x =? 3)) eqn:A1.
  { apply andb_true_iff in A1 as [A1 A2]. apply bytes_eqb_eq in A1. apply N.eqb_eq in A2. subst nm x. injection E as <- <-.
    destruct (Z 6%nat eq_refl ltac:(lia)) as [-> ->]. rewrite C1, C2, C3. reflexivity. }
  destruct (bytes_eqb nm [77; 81; 84; 84] && (x =? 4)) eqn:A2.
  { apply andb_true_iff in A2 as [A2 A3]. apply bytes_eqb_eq in A2. apply N.eqb_eq in A3. subst nm x. injection E as <- <-.
    destruct (Z 4%nat eq_refl ltac:(lia)) as [-> ->]. rewrite C1, C2, C3. reflexivity. }
  destruct (bytes_eqb nm [77; 81; 84; 84] && (x =? 5)) eqn:A3; [|discriminate].
  apply andb_true_iff in A3 as [A3 A4]. apply bytes_eqb_eq in A3. apply N.eqb_eq in A4. subst nm x. injection E as <- <-.
  destruct (Z 4%nat eq_refl ltac:(lia)) as [-> ->]. rewrite C1, C2, C3. reflexivity.
Qed.

Lemma proto_complete r p rest : flowing r -> concat r = name_and_level p ++ rest ->
  exists r', read_protocol r = Some (p, r') /\ concat r' = rest.
Proof.
  intros F C.
  assert (exists h l nm lv, name_and_level p = [h; l] ++ nm ++ [lv] /\ length nm = N.to_nat (be16 h l) /\
    forall r3, (if bytes_eqb nm [77; 81; 73; 115; 100; 112] && (lv =? 3) then Some (V310, r3)
              else if bytes_eqb nm [77; 81; 84; 84] && (lv =? 4) then Some (V311, r3)
              else if bytes_eqb nm [77; 81; 84; 84] && (lv =? 5) then Some (V500, r3)
              else None) = Some (p, r3 : reader)) as (h & l & nm & lv & E & L & D).
  { destruct p.
    - exists 0, 6, [77; 81; 73; 115; 100; 112], 3. repeat split.
    - exists 0, 4, [77; 81; 84; 84], 4. repeat split.
    - exists 0, 4, [77; 81; 84; 84], 5. repeat split. }
  rewrite E, <- !app_assoc in C.
  destruct (read_get 2 r [h; l] _ F eq_refl C) as (r1 & R1 & C1 & F1).
  destruct (read_get _ r1 nm _ F1 L C1) as (r2 & R2 & C2 & F2).
  destruct (read_get 1 r2 [lv] _ F2 eq_refl C2) as (r3 & R3 & C3 & F3).
  exists r3. split; [|exact C3]. unfold read_protocol. rewrite R1, R2, R3. apply D.
Qed.

Lemma head_sound r ty n r' : read_head r = Some (ty, n, r') ->
  exists v, var_bytes v /\ var_value v = n /\ concat r = [ty] ++ v ++ concat r'.
Proof.
  unfold read_head. intros E. destruct (read_exact 1 r) as [(b, r1)|] eqn:R; [|discriminate].
  destruct (one_byte _ _ _ R) as (x & ->). destruct (read_exact_sound _ _ _ _ R) as (_ & C & _).
  destruct (read_var 4 1 0 r1) as [(m, r2)|] eqn:V; [|discriminate]. injection E as <- <- <-.
  destruct (var_sound 4 1 0 r1 m r2 ltac:(lia) V) as (v & fr & la & -> & F1 & F2 & F3 & F4 & F5).
  exists (fr ++ [la]). split; [exists fr, la; repeat split; auto; lia|]. split; [lia|]. rewrite C, F5. reflexivity.
Qed.

Lemma head_complete r ty v rest : flowing r -> var_bytes v -> concat r = [ty] ++ v ++ rest ->
  exists r', read_head r = Some (ty, var_value v, r') /\ concat r' = rest /\ flowing r'.
Proof.
  intros F (fr & la & -> & F1 & F2 & F3) C.
  destruct (read_get 1 r [ty] _ F eq_refl C) as (r1 & R1 & C1 & Fl1).
  destruct (var_complete fr 4 1 0 r1 la rest Fl1 ltac:(lia) F2 F3 C1) as (r2 & R2 & C2 & Fl2).
  exists r2. unfold read_head. rewrite R1, R2. repeat split; auto. f_equal. f_equal. f_equal. lia.
Qed.

(** ** Waiting *)

Lemma timed_done g now : now <= 5000 -> match wait_timed g now with Reached t | TimedOut t => t <= 5000 | Never => False end.
Proof. intros H. unfold wait_timed, connect_timeout. destruct g as [t|]; [|lia]. destruct (N.leb_spec t (N.max now 5000)); lia. Qed.

Lemma timed_prompt (ready : stage -> option N) g now : (exists t, ready g = Some t /\ t <= 5000) -> now <= 5000 ->
  exists t, wait_timed (ready g) now = Reached t /\ t <= 5000.
Proof.
  intros (t & -> & L) H. unfold wait_timed, connect_timeout. destruct (N.leb_spec t (N.max now 5000)); [|lia].
  eexists. split; [reflexivity|lia].
Qed.

Lemma plain_prompt (ready : stage -> option N) g now : (exists t, ready g = Some t /\ t <= 5000) -> now <= 5000 ->
  exists t, wait_plain (ready g) now = Reached t /\ t <= 5000.
Proof. intros (t & -> & L) H. eexists. split; [reflexivity|lia]. Qed.

Lemma timed_ready (ready : stage -> option N) g now t : wait_timed (ready g) now = Reached t -> now <= 5000 ->
  exists t0, ready g = Some t0 /\ t0 <= 5000 /\ t <= 5000.
Proof.
  unfold wait_timed, connect_timeout. destruct (ready g) as [x|]; [|discriminate].
  destruct (N.leb_spec x (N.max now 5000)); [|discriminate]. intros E H0. injection E as <-. exists x. repeat split; lia.
Qed.

Lemma timed_run ready g now k t : wait_timed (ready g) now = Reached t -> timed ready g now k = k t.
Proof. unfold timed. intros ->. reflexivity. Qed.
Lemma untimed_run ready g now k t : wait_plain (ready g) now = Reached t -> untimed ready g now k = k t.
Proof. unfold untimed. intros ->. reflexivity. Qed.

(** ** The steps *)

Lemma parse_keeps crc utf8 r term h r' : parse_header crc utf8 r term = PHeader h r' ->
  (all_bytes r -> all_bytes r') /\ (flowing r -> flowing r').
Proof.
  unfold parse_header. intros E.
  destruct (read_exact 16 r) as [(b, r1)|] eqn:R1; [|discriminate].
  destruct (read_exact_sound _ _ _ _ R1) as (_ & _ & A1 & F1).
  destruct (negb _); [discriminate|]. destruct (negb _); [discriminate|].
  destruct (_ =? 0); [destruct (_ && _); discriminate|]. destruct (negb _); [discriminate|].
  destruct (_ =? 0); [discriminate|].
  destruct (if _ =? 16 then _ else _) as [f|]; [|discriminate].
  destruct (Nat.ltb _ _); [discriminate|]. destruct (_ =? 0); [discriminate|].
  destruct (if _ =? 1 then _ else _) as [tr|]; [|discriminate].
  destruct (read_exact (addr_len f) r1) as [(a, r2)|] eqn:R2; [|discriminate].
  destruct (read_exact_sound _ _ _ _ R2) as (_ & _ & A2 & F2).
  destruct (parse_tlvs _ _ _ _ _ _) as [(sni, r3)|] eqn:PT; [|discriminate]. injection E as _ <-.
  unfold parse_tlvs in PT. destruct (Nat.ltb _ _); [discriminate|].
  destruct (read_exact _ r2) as [(tb, r4)|] eqn:R3; [|discriminate].
  destruct (read_exact_sound _ _ _ _ R3) as (_ & _ & A3 & F3).
  destruct (tlv_loop _ _ _ _ _ _ _) as [((sni', ssl), auth)|]; [|discriminate].
  assert (r4 = r3) as <- by (destruct term; [destruct (ssl && auth)|destruct (ssl || auth)]; try discriminate; injection PT; auto).
  split; intros H; [apply A3, A2, A1, H|apply F3, F2, F1, H].
Qed.

Section Accept.
  Variable crc : bytes -> N.
  Variable utf8 : bytes -> bool.
  Variable tls : client_auth -> bytes -> option (option bytes * reader).
  Variable ws : bytes -> option (option bytes * reader).

  (** The streams a listener opens, one after the other. *)
  Definition opened (a : conn_args) (peer : bytes * N) (r : reader) (peer' : bytes * N) (r' : reader) : Prop :=
    exists r1 r2,
      (if a_proxy a then exists sni, accept_proxy (parse_header crc utf8 r (a_term a)) = Peer (fst peer') (snd peer') sni r1
       else r1 = r /\ peer' = peer) /\
      match a_tls a with Some ca => exists name, tls ca (concat r1) = Some (name, r2) | None => r2 = r1 end /\
      (if a_ws a then exists sub, ws (concat r2) = Some (sub, r') /\ (sub = None \/ sub = Some [109; 113; 116; 116]) else r' = r2).

  Lemma opened_inside a peer r peer' r' : all_bytes r -> opened a peer r peer' r' ->
    inside crc utf8 tls ws a peer (concat r) peer' (concat r').
  Proof.
    intros AB (r1 & r2 & P & T & W). exists (concat r1), (concat r2). split; [|split].
    - destruct (a_proxy a).
      + destruct P as (sni & P). unfold accept_proxy in P.
        destruct (parse_header crc utf8 r (a_term a)) as [[tr ad s] q|q| |] eqn:H; try discriminate.
        destruct (sound _ _ _ _ _ _ AB H) as (tr' & ad' & l & A & E & C). injection E as -> -> ->.
        exists tr', ad', l. split; [exact A|]. destruct peer' as [ip port]. destruct ad'; try discriminate;
          cbn [fst snd] in P; injection P as -> -> _ ->; split; [exact C|reflexivity|exact C|reflexivity].
      + destruct P as [-> ->]. auto.
    - destruct (a_tls a); [destruct T as (nm & T); exists nm, r2; auto|subst; reflexivity].
    - destruct (a_ws a); [destruct W as (sub & W & S); exists sub, r'; auto|subst; reflexivity].
  Qed.

  Lemma inside_opened a peer r peer' b' : proper_handshakes tls ws -> flowing r -> all_bytes r ->
    inside crc utf8 tls ws a peer (concat r) peer' b' ->
    exists r', opened a peer r peer' r' /\ concat r' = b' /\ flowing r'.
  Proof.
    intros (PT & PW) F AB (b1 & b2 & P & T & W).
    assert (exists r1, (if a_proxy a then exists sni, accept_proxy (parse_header crc utf8 r (a_term a)) = Peer (fst peer') (snd peer') sni r1
       else r1 = r /\ peer' = peer) /\ concat r1 = b1 /\ flowing r1) as (r1 & P1 & C1 & F1).
    { destruct (a_proxy a).
      - destruct P as (tr & ad & l & A & E & S). destruct (complete _ _ _ _ _ _ _ _ A F E) as (q & H & C).
        destruct (parse_keeps _ _ _ _ _ _ H) as (_ & Fl). exists q. split; [|auto].
        exists (sni_of l). rewrite H. unfold accept_proxy. destruct ad; cbn [source] in S; try discriminate; injection S as <-; reflexivity.
      - destruct P as [-> ->]. exists r. auto. }
    assert (exists r2, match a_tls a with Some ca => exists name, tls ca (concat r1) = Some (name, r2) | None => r2 = r1 end /\
      concat r2 = b2 /\ flowing r2) as (r2 & T2 & C2 & F2).
    { destruct (a_tls a) as [ca|].
      - destruct T as (nm & q & T & C). exists q. split; [exists nm; rewrite C1; exact T|]. split; [exact C|]. exact (proj1 (PT _ _ _ _ T)).
      - subst b2. exists r1. auto. }
    assert (exists r3, (if a_ws a then exists sub, ws (concat r2) = Some (sub, r3) /\ (sub = None \/ sub = Some [109; 113; 116; 116]) else r3 = r2) /\
      concat r3 = b' /\ flowing r3) as (r3 & W3 & C3 & F3).
    { destruct (a_ws a).
      - destruct W as (sub & q & W & C & S). exists q. split; [exists sub; rewrite C2; auto|]. split; [exact C|]. exact (proj1 (PW _ _ _ W)).
      - subst b'. exists r2. auto. }
    exists r3. split; [exists r1, r2; auto|auto].
  Qed.

  Variable ready : stage -> option N.
  Let accept := handle_accept crc utf8 tls ws ready.

  Lemma first_served peer r now o : first_packet ready peer r now = o -> served o ->
    exists p n rest r2, connect_begins p n (concat r) rest /\ concat r2 = rest /\
      exists t, o = match p with V500 => Serve5 t peer n r2 | _ => Serve3 t p peer r2 end.
  Proof.
    intros <- S. unfold first_packet in *. unfold timed at 1 in S. unfold timed at 1.
    destruct (wait_timed (ready GHeader) now) as [t| |]; try contradiction.
    destruct (read_head r) as [((ty, n), r1)|] eqn:H; [|contradiction].
    destruct (N.eqb_spec ty 16) as [->|]; [|contradiction]. cbn [negb] in *.
    unfold timed in *. destruct (wait_timed (ready GProto) t) as [t1| |]; try contradiction.
    destruct (read_protocol r1) as [(p, r2)|] eqn:P; [|contradiction].
    destruct (head_sound _ _ _ _ H) as (v & V & E & C). apply proto_sound in P.
    exists p, n, (concat r2), r2. split; [exists v; rewrite C, P; auto|]. split; [reflexivity|]. exists t1. destruct p; reflexivity.
  Qed.

  Lemma first_complete peer r now p n rest : flowing r -> connect_begins p n (concat r) rest -> now <= 5000 ->
    (exists t, ready GHeader = Some t /\ t <= 5000) -> (exists t, ready GProto = Some t /\ t <= 5000) ->
    exists t r2, t <= 5000 /\ concat r2 = rest /\
      first_packet ready peer r now = match p with V500 => Serve5 t peer n r2 | _ => Serve3 t p peer r2 end.
  Proof.
    intros F (v & V & E & C) L H1 H2.
    destruct (head_complete _ _ _ _ F V C) as (r1 & R1 & C1 & F1).
    destruct (proto_complete _ _ _ F1 C1) as (r2 & R2 & C2).
    destruct (timed_prompt _ _ _ H1 L) as (t1 & T1 & L1). destruct (timed_prompt _ _ _ H2 L1) as (t2 & T2 & L2).
    exists t2, r2. split; [exact L2|]. split; [exact C2|]. unfold first_packet.
    rewrite (timed_run _ _ _ _ _ T1), R1. cbn [N.eqb negb]. rewrite (timed_run _ _ _ _ _ T2), R2, E. destruct p; reflexivity.
  Qed.

  (** Running through the steps of a listener. *)
  Lemma accept_served a peer r o : accept a peer r = o -> served o ->
    exists peer' r' now, opened a peer r peer' r' /\ first_packet ready peer' r' now = o.
  Proof.
    intros <- S. unfold accept, handle_accept in *.
    assert (exists peer1 r1 t1,
      (if a_proxy a then exists sni, accept_proxy (parse_header crc utf8 r (a_term a)) = Peer (fst peer1) (snd peer1) sni r1
       else r1 = r /\ peer1 = peer) /\
      (proxy_step crc utf8 ready a peer r 0 (fun peer r t => tls_step tls ready a r t (fun r t => ws_step ws ready a r t (fun r t => first_packet ready peer r t))) =
       tls_step tls ready a r1 t1 (fun r t => ws_step ws ready a r t (fun r t => first_packet ready peer1 r t)))) as (peer1 & r1 & t1 & P & E1).
    { unfold proxy_step, timed in *. destruct (a_proxy a).
      - destruct (wait_timed (ready GProxy) 0) as [t| |]; try contradiction.
        destruct (accept_proxy _) as [ip port sni q| |]; try contradiction.
        exists (ip, port), q, t. split; [exists sni; reflexivity|reflexivity].
      - exists peer, r, 0. auto. }
    rewrite E1 in *. clear E1.
    assert (exists r2 t2, match a_tls a with Some ca => exists name, tls ca (concat r1) = Some (name, r2) | None => r2 = r1 end /\
      tls_step tls ready a r1 t1 (fun r t => ws_step ws ready a r t (fun r t => first_packet ready peer1 r t)) =
      ws_step ws ready a r2 t2 (fun r t => first_packet ready peer1 r t)) as (r2 & t2 & T & E2).
    { unfold tls_step, timed in *. destruct (a_tls a) as [ca|].
      - destruct (wait_timed (ready GTls) t1) as [t| |]; try contradiction.
        destruct (tls ca (concat r1)) as [(nm, q)|]; [|contradiction]. exists q, t. split; [exists nm; reflexivity|reflexivity].
      - exists r1, t1. auto. }
    rewrite E2 in *. clear E2.
    assert (exists r3 t3, (if a_ws a then exists sub, ws (concat r2) = Some (sub, r3) /\ (sub = None \/ sub = Some [109; 113; 116; 116]) else r3 = r2) /\
      ws_step ws ready a r2 t2 (fun r t => first_packet ready peer1 r t) = first_packet ready peer1 r3 t3) as (r3 & t3 & W & E3).
    { unfold ws_step, untimed in *. destruct (a_ws a).
      - destruct (wait_plain (ready GWs) t2) as [t| |]; try contradiction.
        destruct (ws (concat r2)) as [([sub|], q)|]; [| |contradiction].
        + destruct (bytes_eqb sub [109; 113; 116; 116]) eqn:B; [|contradiction]. apply bytes_eqb_eq in B. subst sub.
          exists q, t. split; [|reflexivity]. eauto.
        + exists q, t. split; [|reflexivity]. eauto.
      - exists r2, t2. auto. }
    exists peer1, r3, t3. split; [exists r1, r2; auto|auto].
  Qed.

  Lemma accept_opened a peer r peer' r' : prompt a ready -> opened a peer r peer' r' ->
    exists now, now <= 5000 /\ accept a peer r = first_packet ready peer' r' now.
  Proof.
    intros Pr (r1 & r2 & P & T & W). unfold accept, handle_accept.
    assert (exists t1, t1 <= 5000 /\ forall k, proxy_step crc utf8 ready a peer r 0 k = k peer' r1 t1) as (t1 & L1 & E1).
    { unfold proxy_step. pose proof (Pr GProxy) as Q. cbn [step_of] in Q. destruct (a_proxy a).
      - destruct P as (sni & P). destruct (timed_prompt _ _ 0 (Q eq_refl) ltac:(lia)) as (t & R & L). exists t. split; [exact L|].
        intros k. rewrite (timed_run _ _ _ _ _ R), P. destruct peer'; reflexivity.
      - destruct P as [-> ->]. exists 0. split; [lia|reflexivity]. }
    rewrite E1.
    assert (exists t2, t2 <= 5000 /\ forall k, tls_step tls ready a r1 t1 k = k r2 t2) as (t2 & L2 & E2).
    { unfold tls_step. pose proof (Pr GTls) as Q. cbn [step_of] in Q. destruct (a_tls a) as [ca|].
      - destruct T as (nm & T). destruct (timed_prompt _ _ t1 (Q ltac:(discriminate)) L1) as (t & R & L). exists t. split; [exact L|].
        intros k. rewrite (timed_run _ _ _ _ _ R), T. reflexivity.
      - subst r2. exists t1. split; [exact L1|reflexivity]. }
    rewrite E2.
    assert (exists t3, t3 <= 5000 /\ forall k, ws_step ws ready a r2 t2 k = k r' t3) as (t3 & L3 & E3).
    { unfold ws_step. pose proof (Pr GWs) as Q. cbn [step_of] in Q. destruct (a_ws a).
      - destruct W as (sub & W & S). destruct (plain_prompt _ _ t2 (Q eq_refl) L2) as (t & R & L). exists t. split; [exact L|].
        intros k. rewrite (untimed_run _ _ _ _ _ R), W. destruct S as [-> | ->]; reflexivity.
      - subst r'. exists t2. split; [exact L2|reflexivity]. }
    rewrite E3. exists t3. auto.
  Qed.

  (** ** Who is served *)

  Theorem served_only a peer r o : all_bytes r -> accept a peer r = o -> served o ->
    exists peer' b' p n t r2, inside crc utf8 tls ws a peer (concat r) peer' b' /\ connect_begins p n b' (concat r2) /\
      o = match p with V500 => Serve5 t peer' n r2 | _ => Serve3 t p peer' r2 end.
  Proof.
    intros AB E S. destruct (accept_served _ _ _ _ E S) as (peer' & r' & now & O & E').
    destruct (first_served _ _ _ _ E' S) as (p & n & rest & r2 & C & <- & t & ->).
    exists peer', (concat r'), p, n, t, r2. split; [apply opened_inside; auto|]. auto.
  Qed.

  Theorem served_all a peer r peer' b' p n rest : proper_handshakes tls ws -> flowing r -> all_bytes r -> prompt a ready ->
    inside crc utf8 tls ws a peer (concat r) peer' b' -> connect_begins p n b' rest ->
    exists t r2, t <= 5000 /\ concat r2 = rest /\
      accept a peer r = match p with V500 => Serve5 t peer' n r2 | _ => Serve3 t p peer' r2 end.
  Proof.
    intros PH F AB Pr I C. destruct (inside_opened _ _ _ _ _ PH F AB I) as (r' & O & <- & F').
    destruct (accept_opened _ _ _ _ _ Pr O) as (now & L & E). rewrite E.
    apply first_complete; auto; apply Pr; exact Logic.I.
  Qed.

  (** ** The deadline *)

  Lemma timed_ends g now k : now <= 5000 -> (forall t, t <= 5000 -> exists t', ended (k t) = Some t' /\ t' <= 5000) ->
    exists t, ended (timed ready g now k) = Some t /\ t <= 5000.
  Proof.
    intros L K. unfold timed. pose proof (timed_done (ready g) now L) as D.
    destruct (wait_timed (ready g) now) as [t|t|]; [apply K, D|exists t; auto|contradiction].
  Qed.

  Lemma close_ends t : t <= 5000 -> exists t', ended (Close t) = Some t' /\ t' <= 5000.
  Proof. intros L. exists t. auto. Qed.

  Lemma first_ends peer r now : now <= 5000 -> exists t, ended (first_packet ready peer r now) = Some t /\ t <= 5000.
  Proof.
    intros L. unfold first_packet. apply timed_ends; [exact L|]. intros t T.
    destruct (read_head r) as [((ty, n), r1)|]; [|apply close_ends, T].
    destruct (negb _); [apply close_ends, T|]. apply timed_ends; [exact T|]. intros t1 T1.
    destruct (read_protocol r1) as [(p, r2)|]; [|apply close_ends, T1]. destruct p; exists t1; auto.
  Qed.

  Theorem deadline a peer r : a_ws a = false -> exists t, ended (accept a peer r) = Some t /\ t <= 5000.
  Proof.
    intros W. unfold accept, handle_accept.
    assert (Q : forall peer r t, t <= 5000 -> exists t', ended (tls_step tls ready a r t (fun r t => ws_step ws ready a r t (fun r t => first_packet ready peer r t))) = Some t' /\ t' <= 5000).
    { intros pe q t L. assert (V : forall q t, t <= 5000 -> exists t', ended (ws_step ws ready a q t (fun r t => first_packet ready pe r t)) = Some t' /\ t' <= 5000).
      { intros q1 t1 L1. unfold ws_step. rewrite W. apply first_ends, L1. }
      unfold tls_step. destruct (a_tls a) as [ca|]; [|apply V, L]. apply timed_ends; [exact L|]. intros t1 T1.
      destruct (tls ca (concat q)) as [(nm, q1)|]; [apply V, T1|apply close_ends, T1]. }
    unfold proxy_step. destruct (a_proxy a); [|apply Q; lia]. apply timed_ends; [lia|]. intros t T.
    destruct (accept_proxy _) as [ip port sni q| |]; [apply Q, T|apply close_ends, T|]. exists t. auto.
  Qed.

  Lemma auth_ends n : forall now, now <= 5000 -> (forall m, (m < n)%nat -> ready (GWrite m) = Some 0) ->
    match auth5_wait ready n now with Reached t | TimedOut t => t <= 5000 | Never => False end.
  Proof.
    induction n as [|n IH]; intros now L W; cbn [auth5_wait]; [apply timed_done, L|].
    assert (H : match auth5_wait ready n now with Reached t | TimedOut t => t <= 5000 | Never => False end) by (apply IH; auto).
    destruct (auth5_wait ready n now) as [t|t|]; [|exact H|exact H]. rewrite W by lia. cbn [wait_plain]. rewrite N.max_0_r.
    apply timed_done, H.
  Qed.

  Theorem not_prompt a peer r : a_ws a = false -> served (accept a peer r) -> prompt a ready.
  Proof.
    intros W S. unfold accept, handle_accept in S.
    assert (F : forall peer r t, t <= 5000 -> served (first_packet ready peer r t) ->
      (exists t, ready GHeader = Some t /\ t <= 5000) /\ (exists t, ready GProto = Some t /\ t <= 5000)).
    { intros pe q t L Sv. unfold first_packet in Sv. unfold timed at 1 in Sv.
      destruct (wait_timed (ready GHeader) t) as [t1| |] eqn:E1; try contradiction.
      destruct (timed_ready _ _ _ _ E1 L) as (x & X1 & X2 & X3).
      destruct (read_head q) as [((ty, n), r1)|]; [|contradiction]. destruct (negb _); [contradiction|].
      unfold timed in Sv. destruct (wait_timed (ready GProto) t1) as [t2| |] eqn:E2; try contradiction.
      destruct (timed_ready _ _ _ _ E2 X3) as (y & Y1 & Y2 & Y3). split; eauto. }
    assert (T : forall peer r t, t <= 5000 -> served (tls_step tls ready a r t (fun r t => ws_step ws ready a r t (fun r t => first_packet ready peer r t))) ->
      (a_tls a <> None -> exists t, ready GTls = Some t /\ t <= 5000) /\
      (exists t, ready GHeader = Some t /\ t <= 5000) /\ (exists t, ready GProto = Some t /\ t <= 5000)).
    { intros pe q t L Sv. unfold tls_step, ws_step in Sv. rewrite W in Sv. destruct (a_tls a) as [ca|].
      - unfold timed at 1 in Sv. destruct (wait_timed (ready GTls) t) as [t1| |] eqn:E1; try contradiction.
        destruct (timed_ready _ _ _ _ E1 L) as (x & X1 & X2 & X3).
        destruct (tls ca (concat q)) as [(nm, q1)|]; [|contradiction]. split; [eauto|]. apply (F _ _ _ X3 Sv).
      - split; [congruence|]. apply (F _ _ _ L Sv). }
    assert (P : (a_proxy a = true -> exists t, ready GProxy = Some t /\ t <= 5000) /\
      (a_tls a <> None -> exists t, ready GTls = Some t /\ t <= 5000) /\
      (exists t, ready GHeader = Some t /\ t <= 5000) /\ (exists t, ready GProto = Some t /\ t <= 5000)).
    { unfold proxy_step in S. destruct (a_proxy a).
      - unfold timed at 1 in S. destruct (wait_timed (ready GProxy) 0) as [t1| |] eqn:E1; try contradiction.
        destruct (timed_ready _ _ _ _ E1 ltac:(lia)) as (x & X1 & X2 & X3).
        destruct (accept_proxy _) as [ip port sni q| |]; try contradiction. split; [eauto|]. apply (T _ _ _ X3 S).
      - split; [discriminate|]. apply (T _ _ 0 ltac:(lia) S). }
    destruct P as (P1 & P2 & P3 & P4). intros g G. destruct g; cbn [step_of] in G; auto; try contradiction. congruence.
  Qed.
End Accept.

(** ** Listeners *)

Lemma build_demands l : usable l -> build_tls l = Some (demands l).
Proof.
  intros (F & V). unfold build_tls, demands. rewrite F. destruct (t_verify l); cbn; [|reflexivity].
  rewrite V by reflexivity. cbn. destruct (t_fail l); reflexivity.
Qed.
Lemma build_usable l a : build_tls l = Some a -> usable l /\ a = demands l.
Proof.
  unfold build_tls, usable, demands. intros E.
  destruct (t_verify l) eqn:V, (t_ca l) as [[|]|] eqn:C, (t_files l) eqn:F, (t_fail l); cbn in E; try discriminate; injection E as <-;
    repeat split; congruence.
Qed.

Lemma tls_of_some l x : tls_of l = Some x -> match l with None => x = None | Some l => usable l /\ x = Some (demands l) end.
Proof.
  unfold tls_of. destruct l as [l|]; [|intros E; injection E; auto].
  destruct (build_tls l) as [a|] eqn:B; [|discriminate]. intros E. injection E as <-. destruct (build_usable _ _ B) as (U & ->). auto.
Qed.

Theorem start_iff reuse ls : (exists l, start reuse ls = Some l) <->
  (forall l, ls_mqtts ls = Some l -> usable l) /\ (forall l, ls_wss ls = Some l -> usable l).
Proof.
  unfold start. split.
  - intros (l & E). destruct (tls_of (ls_mqtts ls)) as [x|] eqn:A; [|discriminate].
    destruct (tls_of (ls_wss ls)) as [y|] eqn:B; [|discriminate]. apply tls_of_some in A, B.
    split; intros q Q; [rewrite Q in A; tauto|rewrite Q in B; tauto].
  - intros (A & B). unfold tls_of. destruct (ls_mqtts ls) as [m|]; [rewrite (build_demands m (A m eq_refl))|];
      (destruct (ls_wss ls) as [w|]; [rewrite (build_demands w (B w eq_refl))|]); eauto.
Qed.

Lemma plain_serves w l : serves_plain (plain_args w l) l.
Proof.
  unfold serves_plain, plain_args; cbn. split; [reflexivity|].
  destruct (l_mode l) as [[|]|]; split; split; congruence.
Qed.

Lemma in_repeat {A} (x y : A) n : In x (repeat y (S n)) <-> x = y.
Proof.
  split; [intros H; apply repeat_spec in H; exact H|intros ->; left; reflexivity].
Qed.

Theorem start_args reuse ls l a : start reuse ls = Some l -> In a l -> listener_of ls a.
Proof.
  unfold start. intros E I. destruct (tls_of (ls_mqtts ls)) as [x|] eqn:A; [|discriminate].
  destruct (tls_of (ls_wss ls)) as [y|] eqn:B; [|discriminate]. injection E as <-. apply tls_of_some in A, B.
  apply in_flat_map in I as (a' & I & R).
  assert (a = a') as -> by (apply repeat_spec in R; exact R). clear R.
  rewrite !in_app_iff in I. unfold listener_of. destruct I as [I|[I|[I|I]]].
  - destruct (ls_mqtt ls) as [q|]; [|contradiction]. destruct I as [<-|[]]. cbn. left. exists q. split; [reflexivity|apply plain_serves].
  - destruct (ls_mqtts ls) as [q|]; [|contradiction]. destruct I as [<-|[]]. destruct A as (_ & ->). cbn. right. exists q. repeat split.
  - destruct (ls_ws ls) as [q|]; [|contradiction]. destruct I as [<-|[]]. cbn. left. exists q. split; [reflexivity|apply plain_serves].
  - destruct (ls_wss ls) as [q|]; [|contradiction]. destruct I as [<-|[]]. destruct B as (_ & ->). cbn. right. exists q. repeat split.
Qed.

(** Every configured listener is there. *)
Theorem start_all reuse ls l : start reuse ls = Some l ->
  (forall q, ls_mqtt ls = Some q -> exists a, In a l /\ a_ws a = false /\ serves_plain a q) /\
  (forall q, ls_mqtts ls = Some q -> exists a, In a l /\ a_ws a = false /\ serves_tls a q) /\
  (forall q, ls_ws ls = Some q -> exists a, In a l /\ a_ws a = true /\ serves_plain a q) /\
  (forall q, ls_wss ls = Some q -> exists a, In a l /\ a_ws a = true /\ serves_tls a q).
Proof.
  unfold start. intros E. destruct (tls_of (ls_mqtts ls)) as [x|] eqn:A; [|discriminate].
  destruct (tls_of (ls_wss ls)) as [y|] eqn:B; [|discriminate]. injection E as <-. apply tls_of_some in A, B.
  assert (R : forall a, In a (repeat a (if reuse && a_reuse a then 4 else 1)%nat)) by (intros a; destruct (reuse && a_reuse a); left; reflexivity).
  split; [|split; [|split]]; intros q Q; rewrite Q in *.
  - exists (plain_args false q). split; [|split; [reflexivity|apply plain_serves]]. apply in_flat_map. eexists. split; [|apply R].
    rewrite !in_app_iff. cbn [opt_list]. left. left. reflexivity.
  - destruct A as (_ & ->). exists (secure_args false (Some (demands q)) q). split; [|repeat split]. apply in_flat_map. eexists. split; [|apply R].
    rewrite !in_app_iff. cbn [opt_list]. right. left. left. reflexivity.
  - exists (plain_args true q). split; [|split; [reflexivity|apply plain_serves]]. apply in_flat_map. eexists. split; [|apply R].
    rewrite !in_app_iff. cbn [opt_list]. right. right. left. left. reflexivity.
  - destruct B as (_ & ->). exists (secure_args true (Some (demands q)) q). split; [|repeat split]. apply in_flat_map. eexists. split; [|apply R].
    rewrite !in_app_iff. cbn [opt_list]. right. right. right. left. reflexivity.
Qed.

(** ** What goes wrong *)

Section Wrong.
  Variable crc : bytes -> N.
  Variable utf8 : bytes -> bool.
  Variable tls : client_auth -> bytes -> option (option bytes * reader).
  Variable ws : bytes -> option (option bytes * reader).

  Theorem websocket_hangs a peer r : a_proxy a = false -> a_tls a = None -> a_ws a = true ->
    handle_accept crc utf8 tls ws (fun _ => None) a peer r = Hang GWs.
  Proof. intros P T W. unfold handle_accept, proxy_step, tls_step, ws_step. rewrite P, T, W. reflexivity. Qed.

  Theorem late_served t peer r n r' : 5000 <= t -> ws (concat r) = Some (None, r') -> flowing r' -> connect_begins V500 n (concat r') [] ->
    exists r2, handle_accept crc utf8 tls ws (fun g => match g with GWs => Some t | _ => Some 0 end) (ConnArgs false false false true None) peer r = Serve5 t peer n r2.
  Proof.
    intros L W F (v & V & E & C). destruct (head_complete _ _ _ _ F V C) as (r1 & R1 & C1 & F1).
    destruct (proto_complete _ V500 _ F1 C1) as (r2 & R2 & C2). exists r2.
    unfold handle_accept, proxy_step, tls_step, ws_step, untimed. cbn [a_proxy a_tls a_ws wait_plain]. rewrite W.
    unfold first_packet, timed, wait_timed, connect_timeout. rewrite N.max_0_l, N.max_0_r.
    destruct (N.leb_spec 0 (N.max t 5000)) as [_|]; [|lia]. rewrite R1. cbn [N.eqb negb Pos.eqb].
    rewrite N.max_0_r. destruct (N.leb_spec 0 (N.max t 5000)) as [_|]; [|lia]. rewrite R2, E. reflexivity.
  Qed.

  Definition chunk (b : bytes) : reader := match b with [] => [] | _ => [b] end.

  Lemma chunk_read b rest : b <> [] -> read_exact (length b) (chunk (b ++ rest)) = Some (b, chunk rest).
  Proof.
    intros B. assert (b ++ rest <> []) by (destruct b; [contradiction|discriminate]).
    replace (chunk (b ++ rest)) with [b ++ rest] by (destruct (b ++ rest); [contradiction|reflexivity]).
    destruct (length b) as [|n] eqn:L; [destruct b; [contradiction|discriminate]|].
    rewrite read_exact_cons by assumption.
    destruct (Nat.leb_spec (S n) (length (b ++ rest))) as [_|Q]; [|rewrite app_length in Q; lia].
    rewrite <- L, firstn_app, Nat.sub_diag, firstn_all, firstn_O, app_nil_r, skipn_app, skipn_all, Nat.sub_diag.
    cbn [app skipn]. destruct rest; reflexivity.
  Qed.

  Lemma chunk_one x rest : read_exact 1 (chunk (x :: rest)) = Some ([x], chunk rest).
  Proof. exact (chunk_read [x] rest ltac:(discriminate)). Qed.

  Lemma chunk_var front : forall fuel shift acc last rest, (length front < fuel)%nat -> Forall (fun b => 128 <= b) front -> last < 128 ->
    exists n, read_var fuel shift acc (chunk ((front ++ [last]) ++ rest)) = Some (n, chunk rest).
  Proof.
    induction front as [|x fr IH]; intros [|fuel] shift acc last rest L A B; try (cbn in L; lia); cbn [app read_var].
    - rewrite chunk_one. destruct (N.ltb_spec last 128); [|lia]. eauto.
    - inversion_clear A as [|? ? A1 A2]. rewrite chunk_one. destruct (N.ltb_spec x 128); [lia|]. apply IH; auto. cbn in L. lia.
  Qed.

  Theorem length_ignored ready peer p v1 v2 rest : p <> V500 -> var_bytes v1 -> var_bytes v2 ->
    prompt (ConnArgs false false false false None) ready ->
    handle_accept crc utf8 tls ws ready (ConnArgs false false false false None) peer [16 :: v1 ++ name_and_level p ++ rest] =
    handle_accept crc utf8 tls ws ready (ConnArgs false false false false None) peer [16 :: v2 ++ name_and_level p ++ rest].
  Proof.
    intros NP V1 V2 _. unfold handle_accept, proxy_step, tls_step, ws_step. cbn [a_proxy a_tls a_ws].
    assert (H : forall v, var_bytes v -> exists n, read_head [16 :: v ++ name_and_level p ++ rest] = Some (16, n, chunk (name_and_level p ++ rest))).
    { intros v (fr & la & -> & F1 & F2 & F3). unfold read_head.
      change [16 :: (fr ++ [la]) ++ name_and_level p ++ rest] with (chunk (16 :: (fr ++ [la]) ++ name_and_level p ++ rest)).
      rewrite chunk_one. destruct (chunk_var fr 4 1 0 la (name_and_level p ++ rest) ltac:(lia) F2 F3) as (n & ->). eauto. }
    destruct (H v1 V1) as (n1 & H1). destruct (H v2 V2) as (n2 & H2). unfold first_packet. rewrite H1, H2.
    unfold timed. destruct (wait_timed (ready GHeader) 0) as [t| |]; try reflexivity. cbn [N.eqb negb Pos.eqb].
    destruct (wait_timed (ready GProto) t) as [t1| |]; try reflexivity.
    destruct (read_protocol _) as [(q, r2)|] eqn:R; [|reflexivity]. destruct q; try reflexivity.
    exfalso. apply proto_sound in R. rewrite <- (app_nil_r (concat _)) in R. destruct p; cbn in R; try congruence; destruct rest; discriminate.
  Qed.
End Wrong.
