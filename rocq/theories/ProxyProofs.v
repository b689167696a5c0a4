(** Proofs about the PROXY header parser. *)
From Coq Require Import List Bool Arith NArith ZArith Lia.
From Coq Require Import ZifyBool ZifyNat ZifyN.
From Verif Require Import Base BaseLemmas ProxyModel ProxySpec.
Import ListNotations.
Local Open Scope N_scope.

Ltac Zify.zify_post_hook ::= Z.div_mod_to_equations.

(** ** Reading *)

Lemma some_pair {A B} (a c : A) (b d : B) : Some (a, b) = Some (c, d) -> c = a /\ d = b.
Proof. intros E. injection E; auto. Qed.

Definition push (c : bytes) (r : reader) : reader := match c with [] => r | x :: t => (x :: t) :: r end.
Lemma read_exact_cons n (c : bytes) (r : reader) : c <> [] -> read_exact (S n) (c :: r) =
  if Nat.leb (S n) (length c) then Some (firstn (S n) c, push (skipn (S n) c) r)
  else match read_exact (S n - length c) r with Some (b, r'') => Some (c ++ b, r'') | None => None end.
Proof. destruct c as [|x c]; [contradiction|]. intros _. set (d := x :: c). unfold push. cbn [read_exact]. unfold d at 1. reflexivity. Qed.

Lemma read_exact_sound r : forall n b r', read_exact n r = Some (b, r') ->
  length b = n /\ concat r = b ++ concat r' /\ (all_bytes r -> Forall byte b /\ all_bytes r') /\ (flowing r -> flowing r').
Proof.
  induction r as [|c r IH]; intros n b r' E.
  - destruct n; [|discriminate]. injection E as <- <-. repeat split; auto; constructor.
  - destruct n as [|n]; [injection E as <- <-; repeat split; auto; constructor|].
    assert (Hc : c <> []) by (intros ->; discriminate). rewrite (read_exact_cons n c r Hc) in E.
    destruct (Nat.leb_spec (S n) (length c)) as [L|L].
    + apply some_pair in E as [-> ->]. split; [rewrite firstn_length; lia|].
      assert (S1 : concat (push (skipn (S n) c) r) = skipn (S n) c ++ concat r)
        by (destruct (skipn (S n) c); reflexivity).
      split; [rewrite S1, app_assoc, firstn_skipn; reflexivity|]. split.
      * intros A. inversion_clear A as [|? ? A1 A2]. pose proof (firstn_skipn (S n) c) as F. rewrite <- F in A1.
        apply Forall_app in A1 as [A1 A3]. split; [exact A1|].
        destruct (skipn (S n) c) eqn:Es; [exact A2|constructor; auto].
      * intros A. inversion_clear A. destruct (skipn (S n) c); auto. constructor; auto. discriminate.
    + destruct (read_exact (S n - length c) r) as [(b1, r1)|] eqn:E1; [|discriminate]. injection E as <- <-.
      destruct (IH _ _ _ E1) as (I1 & I2 & I3 & I4). split; [rewrite app_length; lia|].
      split; [cbn [concat]; rewrite I2, app_assoc; reflexivity|]. split.
      * intros A. inversion_clear A as [|? ? A1 A2]. destruct (I3 A2). split; [apply Forall_app; auto|auto].
      * intros A. inversion_clear A. auto.
Qed.

Lemma read_exact_enough r : flowing r -> forall n, (n <= length (concat r))%nat -> exists b r', read_exact n r = Some (b, r').
Proof.
  intros F. induction r as [|c r IH]; intros n Hn; (destruct n as [|n]; [do 2 eexists; reflexivity|]).
  - cbn in Hn. lia.
  - inversion_clear F as [|? ? Hc Hr]. specialize (IH Hr). rewrite (read_exact_cons n c r Hc).
    destruct (Nat.leb_spec (S n) (length c)) as [L|L]; [do 2 eexists; reflexivity|].
    cbn [concat] in Hn. rewrite app_length in Hn. destruct (IH (S n - length c)%nat ltac:(lia)) as (b & r' & ->).
    do 2 eexists. reflexivity.
Qed.

Lemma app_inv_length {A} (a b c d : list A) : a ++ b = c ++ d -> length a = length c -> a = c /\ b = d.
Proof.
  revert c. induction a as [|x a IH]; intros [|y c] E L; try discriminate; [auto|].
  injection E as -> E. destruct (IH c E ltac:(cbn in L; lia)) as [-> ->]. auto.
Qed.

Lemma read_exact_get r b rest : flowing r -> concat r = b ++ rest ->
  exists r', read_exact (length b) r = Some (b, r') /\ concat r' = rest /\ flowing r'.
Proof.
  intros F E. destruct (read_exact_enough r F (length b)) as (b' & r' & R); [rewrite E, app_length; lia|].
  destruct (read_exact_sound _ _ _ _ R) as (L & C & _ & Fl). rewrite E in C.
  destruct (app_inv_length _ _ _ _ C (eq_sym L)) as [<- ->]. exists r'. auto.
Qed.

(** ** Bytes *)

Lemma be16_u16 a b : byte a -> byte b -> u16 (be16 a b) = [a; b].
Proof. unfold byte, u16, be16. intros. repeat f_equal; lia. Qed.
Lemma u16_be16 n : n < 65536 -> be16 (n / 256) (n mod 256) = n.
Proof. unfold be16. lia. Qed.
Lemma u16_bytes n : n < 65536 -> Forall byte (u16 n).
Proof. intros. repeat constructor; unfold byte; lia. Qed.

Lemma bytes_eqb_eq a b : bytes_eqb a b = true <-> a = b.
Proof.
  revert b. induction a as [|x a IH]; intros [|y b]; cbn; try (split; [reflexivity || discriminate|reflexivity || discriminate]).
  rewrite andb_true_iff, N.eqb_eq, IH. split; [intros [-> ->]; reflexivity|intros E; injection E; auto].
Qed.

Lemma byte_split b : byte b -> b = N.land b 0xF0 + N.land b 0x0F.
Proof.
  intros H. assert (X : forallb (fun n => N.of_nat n =? N.land (N.of_nat n) 0xF0 + N.land (N.of_nat n) 0x0F) (seq 0 256) = true)
    by (vm_compute; reflexivity).
  rewrite forallb_forall in X. specialize (X (N.to_nat b)). rewrite N2Nat.id in X. apply N.eqb_eq, X.
  apply in_seq. unfold byte in H. lia.
Qed.

(** ** TLVs *)
Section Tlv.
  Variable crc : bytes -> N.
  Variable utf8 : bytes -> bool.

  Definition tlv_step (st : option bytes * bool * bool) (t : tlv) : option bytes * bool * bool :=
    let '(sni, ssl, auth) := st in
    if fst t =? 2 then (Some (snd t), ssl, true) else if fst t =? 0x20 then (sni, true, auth) else st.

  Definition crc_rel (pre : bytes) (l : list tlv) : Prop :=
    forall l1 v l2, l = l1 ++ (3, v) :: l2 ->
      length v = 4%nat /\ be32 v = crc (pre ++ enc_tlvs (map zero_crc (l1 ++ [(3, v)]) ++ l2)).

  Lemma enc_tlvs_app a b : enc_tlvs (a ++ b) = enc_tlvs a ++ enc_tlvs b.
  Proof. apply flat_map_app. Qed.
  Lemma zero_other t : fst t <> 3 -> zero_crc t = t.
  Proof. unfold zero_crc. destruct (N.eqb_spec (fst t) 3); congruence. Qed.

  Lemma crc_rel_cons pre t l : crc_rel pre (t :: l) ->
    crc_rel (pre ++ enc_tlv (zero_crc t)) l.
  Proof.
    intros H l1 v l2 ->. destruct (H (t :: l1) v l2 eq_refl) as (A & B). split; [exact A|].
    rewrite B. cbn [app map enc_tlvs flat_map]. rewrite <- app_assoc. reflexivity.
  Qed.
  Lemma crc_rel_other pre t l : fst t <> 3 -> crc_rel (pre ++ enc_tlv t) l -> crc_rel pre (t :: l).
  Proof.
    intros Ht H [|t' l1] v l2 E; injection E as -> E.
    - cbn in Ht. contradiction.
    - destruct (H l1 v l2 E) as (A & B). split; [exact A|]. rewrite B. cbn [app map enc_tlvs flat_map].
      rewrite (zero_other t' Ht), <- app_assoc. reflexivity.
  Qed.
  Lemma crc_rel_crc pre v l : length v = 4%nat ->
    be32 v = crc (pre ++ enc_tlv (3, [0; 0; 0; 0]) ++ enc_tlvs l) ->
    crc_rel (pre ++ enc_tlv (3, [0; 0; 0; 0])) l -> crc_rel pre ((3, v) :: l).
  Proof.
    intros Hv Hc H [|t' l1] w l2 E.
    - injection E as -> ->. auto.
    - injection E as <- E. destruct (H l1 w l2 E) as (A & B). split; [exact A|]. rewrite B. cbn [app map enc_tlvs flat_map].
      unfold zero_crc at 2. cbn [fst]. change (3 =? 3) with true. cbn match. rewrite <- app_assoc. reflexivity.
  Qed.

  Lemma slice_verify v : (5 <= length v)%nat -> Forall byte v -> forallb (N.eqb 0) (slice 1 5 v) = true ->
    exists c sub, v = c :: 0 :: 0 :: 0 :: 0 :: sub.
  Proof.
    intros L _ F. destruct v as [|c [|b1 [|b2 [|b3 [|b4 sub]]]]]; try (cbn in L; lia).
    cbn in F. rewrite !andb_true_iff in F. destruct F as (F1 & F2 & F3 & F4 & _).
    destruct b1, b2, b3, b4; try discriminate. eauto.
  Qed.

  Lemma tlv_loop_sound fuel : forall head done rest st st', Forall byte rest ->
    tlv_loop crc utf8 fuel head done rest st = Some st' ->
    exists l, rest = enc_tlvs l /\ Forall wf_tlv l /\ Forall (tlv_ok utf8) l /\ crc_rel (head ++ done) l /\
      st' = fold_left tlv_step l st.
  Proof.
    induction fuel as [|fuel IH]; intros head done rest ((sni, ssl), auth) st' HB E; [discriminate|].
    destruct rest as [|t [|a [|b r]]]; cbn [tlv_loop] in E; try discriminate.
    - injection E as <-. exists []. repeat split; try constructor; destruct l1; discriminate.
    - inversion HB as [|? ? B1 HB1]; subst. inversion HB1 as [|? ? B2 HB2]; subst. inversion HB2 as [|? ? B3 HB3]; subst.
      set (len := N.to_nat (be16 a b)) in *. destruct (Nat.ltb_spec (length r) len) as [L|L]; [discriminate|].
      set (v := firstn len r) in *. set (r' := skipn len r) in *.
      assert (Lv : length v = len) by (unfold v; rewrite firstn_length; lia).
      assert (Er : r = v ++ r') by (unfold v, r'; symmetry; apply firstn_skipn).
      assert (HBv : Forall byte v /\ Forall byte r') by (rewrite Er in HB3; now apply Forall_app in HB3).
      destruct HBv as [HBv HBr].
      assert (Hlen : N.of_nat (length v) = be16 a b) by (rewrite Lv; unfold len; lia).
      assert (Henc : enc_tlv (t, v) = t :: a :: b :: v).
      { unfold enc_tlv. cbn [fst snd]. rewrite Hlen, be16_u16 by assumption. reflexivity. }
      assert (Hwf : wf_tlv (t, v)).
      { split; [exact B1|]. split; [exact HBv|]. cbn [snd]. rewrite Hlen. unfold be16, byte in *. lia. }
      assert (K : forall done' st2, done' = done ++ enc_tlv (zero_crc (t, v)) ->
        tlv_loop crc utf8 fuel head done' r' st2 = Some st' -> st2 = tlv_step (sni, ssl, auth) (t, v) ->
        tlv_ok utf8 (t, v) ->
        (t = 3 -> length v = 4%nat /\ be32 v = crc (head ++ done ++ enc_tlv (3, [0;0;0;0]) ++ r')) ->
        exists l, t :: a :: b :: r = enc_tlvs l /\ Forall wf_tlv l /\ Forall (tlv_ok utf8) l /\ crc_rel (head ++ done) l /\
          st' = fold_left tlv_step l (sni, ssl, auth)).
      { intros done' st2 -> E2 -> Hok H3. destruct (IH _ _ _ _ _ HBr E2) as (l & R1 & R2 & R3 & R4 & R5).
        exists ((t, v) :: l). split; [cbn [enc_tlvs flat_map]; rewrite Henc, Er; cbn [app]; do 3 f_equal; fold (enc_tlvs l); now rewrite <- R1|].
        split; [constructor; auto|]. split; [constructor; auto|]. split; [|exact R5].
        rewrite app_assoc in R4. destruct (N.eq_dec t 3) as [->|N3].
        - destruct (H3 eq_refl) as (H4 & H5). apply crc_rel_crc; auto. rewrite H5, R1, <- app_assoc. reflexivity.
        - apply crc_rel_other; [exact N3|]. rewrite (zero_other (t, v)) in R4 by exact N3. exact R4. }
      destruct (N.eqb_spec t 2) as [->|N2].
      { destruct (Nat.eqb_spec len 0) as [L0|L0]; [discriminate|]. destruct (utf8 v) eqn:U; [|discriminate]. cbn [negb] in E.
        eapply K; [|exact E| | |discriminate]; [|reflexivity|].
        - rewrite zero_other by discriminate. now rewrite Henc.
        - split; [intros _; split; [|exact U]|discriminate]. cbn [snd]. intros X. rewrite X in Lv. cbn in Lv. lia. }
      destruct (N.eqb_spec t 3) as [->|N3].
      { destruct (Nat.eqb_spec len 4) as [L4|L4]; [|discriminate]. cbn [negb] in E.
        assert (Z : 3 :: a :: b :: [0; 0; 0; 0] = enc_tlv (zero_crc (3, v))).
        { unfold zero_crc. cbn [fst]. change (3 =? 3) with true. cbn match. unfold enc_tlv. cbn [fst snd].
          replace (N.of_nat (length [0;0;0;0])) with (be16 a b) by (rewrite <- Hlen, Lv, L4; reflexivity).
          rewrite be16_u16 by assumption. reflexivity. }
        destruct (N.eqb_spec (be32 v) (crc (head ++ (done ++ [3; a; b; 0; 0; 0; 0]) ++ r'))) as [Ec|]; [|discriminate].
        eapply K; [|exact E|reflexivity| |].
        - now rewrite <- Z.
        - split; discriminate.
        - intros _. split; [lia|]. rewrite Ec. change ([3; a; b; 0; 0; 0; 0]) with (3 :: a :: b :: [0;0;0;0]). rewrite Z.
          unfold zero_crc. cbn [fst]. change (3 =? 3) with true. cbn match. now rewrite <- app_assoc. }
      destruct (N.eqb_spec t 32) as [->|N32].
      { destruct (Nat.ltb_spec len 5) as [L5|L5]; [discriminate|].
        destruct (forallb (N.eqb 0) (slice 1 5 v)) eqn:F; [|discriminate].
        eapply K; [|exact E|reflexivity| |discriminate].
        - rewrite zero_other by discriminate. now rewrite Henc.
        - split; [discriminate|]. intros _. cbn [snd]. apply slice_verify; auto. lia. }
      eapply K; [|exact E| | |congruence].
      + rewrite zero_other by exact N3. now rewrite Henc.
      + unfold tlv_step. cbn [fst]. destruct (N.eqb_spec t 2); [contradiction|]. destruct (N.eqb_spec t 32); [contradiction|reflexivity].
      + split; cbn [fst]; contradiction.
  Qed.

  Lemma tlv_loop_complete l : forall fuel head done st, Forall wf_tlv l -> Forall (tlv_ok utf8) l -> crc_rel (head ++ done) l ->
    (length (enc_tlvs l) < fuel)%nat ->
    tlv_loop crc utf8 fuel head done (enc_tlvs l) st = Some (fold_left tlv_step l st).
  Proof.
    induction l as [|(t, v) l IH]; intros fuel head done ((sni, ssl), auth) W O C L; (destruct fuel as [|fuel]; [lia|]); [reflexivity|].
    inversion_clear W as [|? ? W1 W2]. inversion_clear O as [|? ? O1 O2]. destruct W1 as (Wb & Wv & Wl). cbn [fst snd] in *.
    cbn [enc_tlvs flat_map] in L |- *. fold (enc_tlvs l) in L |- *.
    assert (Lv : N.to_nat (be16 (N.of_nat (length v) / 256) (N.of_nat (length v) mod 256)) = length v) by (rewrite u16_be16 by exact Wl; lia).
    unfold enc_tlv in L |- *. cbn [fst snd u16 app] in L |- *. cbn [tlv_loop]. rewrite Lv.
    destruct (Nat.ltb_spec (length (v ++ enc_tlvs l)) (length v)) as [X|_]; [rewrite app_length in X; lia|].
    rewrite firstn_app, firstn_all, Nat.sub_diag. cbn [firstn]. rewrite app_nil_r.
    rewrite skipn_app, skipn_all, Nat.sub_diag. cbn [skipn app].
    cbn [length] in L. rewrite app_length in L.
    assert (Cn := crc_rel_cons _ _ _ C).
    assert (Step : forall done' st', done' = done ++ enc_tlv (zero_crc (t, v)) -> st' = tlv_step (sni, ssl, auth) (t, v) ->
      tlv_loop crc utf8 fuel head done' (enc_tlvs l) st' = Some (fold_left tlv_step ((t, v) :: l) (sni, ssl, auth))).
    { intros done' st' -> ->. cbn [fold_left]. apply IH; auto; [|lia]. now rewrite app_assoc. }
    assert (Z : t <> 3 -> done ++ t :: N.of_nat (length v) / 256 :: N.of_nat (length v) mod 256 :: v = done ++ enc_tlv (zero_crc (t, v)))
      by (intros; rewrite zero_other by assumption; reflexivity).
    destruct O1 as (O1 & O3). cbn [fst snd] in O1, O3.
    destruct (N.eqb_spec t 2) as [->|N2].
    { destruct (O1 eq_refl) as (V1 & V2). destruct (Nat.eqb_spec (length v) 0) as [V0|_]; [destruct v; [contradiction|discriminate]|].
      rewrite V2. cbn [negb]. apply Step; [apply Z; discriminate|reflexivity]. }
    destruct (N.eqb_spec t 3) as [->|N3].
    { destruct (C [] v l eq_refl) as (V4 & V5). rewrite V4. cbn [Nat.eqb negb].
      change (done ++ [3; N.of_nat 4 / 256; N.of_nat 4 mod 256; 0; 0; 0; 0]) with (done ++ enc_tlv (zero_crc (3, v))).
      cbn [app map] in V5. cbn [enc_tlvs flat_map] in V5. fold (enc_tlvs l) in V5.
      rewrite V5. replace ((head ++ done) ++ enc_tlv (zero_crc (3, v)) ++ enc_tlvs l)
        with (head ++ (done ++ enc_tlv (zero_crc (3, v))) ++ enc_tlvs l) by (now rewrite !app_assoc).
      rewrite N.eqb_refl. apply Step; reflexivity. }
    destruct (N.eqb_spec t 32) as [->|N32].
    { destruct (O3 eq_refl) as (c & sub & ->). cbn [length Nat.ltb Nat.leb slice skipn firstn Nat.sub forallb].
      change (forallb (N.eqb 0) (slice 1 5 (c :: 0 :: 0 :: 0 :: 0 :: sub))) with true. cbn match.
      apply Step; [apply Z; discriminate|reflexivity]. }
    apply Step; [now apply Z|]. unfold tlv_step. cbn [fst].
    destruct (N.eqb_spec t 2); [contradiction|]. destruct (N.eqb_spec t 32); [contradiction|reflexivity].
  Qed.

  Lemma fold_tlvs l : exists ssl auth, fold_left tlv_step l (None, false, false) = (sni_of l, ssl, auth) /\
    (ssl = true <-> has_type 0x20 l) /\ (auth = true <-> has_type 2 l).
  Proof.
    clear crc utf8. induction l as [|x l IH] using rev_ind.
    - exists false, false. split; [reflexivity|]. split; (split; [discriminate|intros (v & [])]).
    - destruct IH as (ssl & auth & E & H1 & H2). rewrite fold_left_app, E. cbn [fold_left].
      assert (HT : forall n, has_type n (l ++ [x]) <-> has_type n l \/ n = fst x).
      { intros n. split.
        - intros (v & Hv). apply in_app_iff in Hv as [Hv|[->|[]]]; [left; exists v; exact Hv|right; reflexivity].
        - intros [(v & Hv)| ->]; [exists v; apply in_app_iff; now left|]. exists (snd x). apply in_app_iff. right. left. now destruct x. }
      setoid_rewrite HT. unfold sni_of. rewrite rev_app_distr. cbn [rev app filter]. unfold tlv_step. destruct x as (t, v). cbn [fst snd].
      destruct (N.eqb_spec t 2) as [->|N2]; [|destruct (N.eqb_spec t 32) as [->|N32]]; do 2 eexists; (split; [reflexivity|]).
      + split; [rewrite H1; intuition discriminate|intuition].
      + split; [intuition|rewrite H2; intuition discriminate].
      + split; [rewrite H1|rewrite H2]; intuition; try congruence.
  Qed.
End Tlv.

(** ** Addresses *)

Lemma list12 (a : bytes) : length a = 12%nat -> exists x0 x1 x2 x3 x4 x5 x6 x7 x8 x9 x10 x11,
  a = [x0;x1;x2;x3;x4;x5;x6;x7;x8;x9;x10;x11].
Proof.
  intros H. do 12 (destruct a as [|? a]; [discriminate|]). destruct a; [|discriminate]. repeat eexists.
Qed.

Definition fam_of (a : addresses) : family := match a with A4 _ _ _ _ => F4 | A6 _ _ _ _ => F6 | AUnix _ _ => FUnix end.

Lemma enc_addr_len a : wf_addr a -> length (enc_addr a) = addr_len (fam_of a).
Proof.
  destruct a as [s sp d dp|s sp d dp|s d]; intros W; cbn [enc_addr fam_of addr_len];
    [destruct W as ((H1 & _) & (H2 & _) & _)|destruct W as ((H1 & _) & (H2 & _) & _)|destruct W as ((H1 & _) & (H2 & _))];
    rewrite !app_length, H1, H2; reflexivity.
Qed.

Lemma nth_app_drop (a b : bytes) i : (length a <= i)%nat -> nth i (a ++ b) 0 = nth (i - length a) b 0.
Proof. intros. now rewrite app_nth2 by lia. Qed.

Lemma slice_first n a (b : bytes) : length a = n -> slice 0 n (a ++ b) = a.
Proof. intros <-. unfold slice. cbn [skipn]. rewrite Nat.sub_0_r, firstn_app, firstn_all, Nat.sub_diag. apply app_nil_r. Qed.
Lemma slice_second n m k a b (c : bytes) : length a = n -> length b = m -> k = (n + m)%nat -> slice n k (a ++ b ++ c) = b.
Proof.
  intros <- <- ->. unfold slice. rewrite skipn_app, skipn_all, Nat.sub_diag. cbn [skipn app].
  replace (length a + length b - length a)%nat with (length b) by lia. rewrite firstn_app, firstn_all, Nat.sub_diag. apply app_nil_r.
Qed.

Lemma parse_enc_addr a : wf_addr a -> parse_addresses (enc_addr a) (fam_of a) = a.
Proof.
  destruct a as [s sp d dp|s sp d dp|s d]; intros W; cbn [enc_addr fam_of parse_addresses].
  - destruct W as ((H1 & _) & (H2 & _) & P1 & P2).
    rewrite slice_first by assumption. rewrite (slice_second 4 4 8) by (assumption || reflexivity).
    assert (L : length (s ++ d) = 8%nat) by (rewrite app_length; lia). rewrite (app_assoc s d).
    rewrite (nth_app_drop (s ++ d) _ 8), (nth_app_drop (s ++ d) _ 9), (nth_app_drop (s ++ d) _ 10), (nth_app_drop (s ++ d) _ 11) by lia. rewrite !L. unfold u16. cbn [app nth Nat.sub]. rewrite !u16_be16 by assumption. reflexivity.
  - destruct W as ((H1 & _) & (H2 & _) & P1 & P2).
    rewrite slice_first by assumption. rewrite (slice_second 16 16 32) by (assumption || reflexivity).
    assert (L : length (s ++ d) = 32%nat) by (rewrite app_length; lia). rewrite (app_assoc s d).
    rewrite (nth_app_drop (s ++ d) _ 32), (nth_app_drop (s ++ d) _ 33), (nth_app_drop (s ++ d) _ 34), (nth_app_drop (s ++ d) _ 35) by lia. rewrite !L. unfold u16. cbn [app nth Nat.sub]. rewrite !u16_be16 by assumption. reflexivity.
  - destruct W as ((H1 & _) & (H2 & _)). rewrite slice_first by assumption. 
    rewrite <- (app_nil_r d) at 1. rewrite (slice_second 108 108 216) by (assumption || reflexivity). reflexivity.
Qed.

Lemma cut (a : bytes) n : (n <= length a)%nat -> exists x y, a = x ++ y /\ length x = n.
Proof. intros L. exists (firstn n a), (skipn n a). split; [symmetry; apply firstn_skipn|rewrite firstn_length; lia]. Qed.

Lemma enc_parse_addr a f : length a = addr_len f -> Forall byte a ->
  exists ad, parse_addresses a f = ad /\ wf_addr ad /\ fam_of ad = f /\ enc_addr ad = a.
Proof.
  intros L B.
  assert (IP : forall n, length a = (n + n + 4)%nat -> exists s d sp dp, blob n s /\ blob n d /\ sp < 65536 /\ dp < 65536 /\
    a = s ++ d ++ u16 sp ++ u16 dp).
  { intros n Ln. destruct (cut a n ltac:(lia)) as (s & r & -> & Ls). rewrite app_length in Ln.
    destruct (cut r n ltac:(lia)) as (d & p & -> & Ld). rewrite app_length in Ln.
    apply Forall_app in B as (B1 & B2). apply Forall_app in B2 as (B2 & B3).
    assert (Lp : length p = 4%nat) by lia. destruct p as [|p1 [|p2 [|p3 [|p4 [|]]]]]; try discriminate.
    inversion_clear B3 as [|? ? Q1 B4]. inversion_clear B4 as [|? ? Q2 B5]. inversion_clear B5 as [|? ? Q3 B6]. inversion_clear B6 as [|? ? Q4 _].
    exists s, d, (be16 p1 p2), (be16 p3 p4). rewrite !be16_u16 by assumption. unfold byte in *.
    repeat split; auto; unfold be16; lia. }
  destruct f; cbn [addr_len] in L.
  - destruct (IP 4%nat L) as (s & d & sp & dp & H1 & H2 & H3 & H4 & ->). exists (A4 s sp d dp).
    assert (W : wf_addr (A4 s sp d dp)) by (cbn; auto). repeat split; try assumption; try apply H1; try apply H2. apply (parse_enc_addr _ W).
  - destruct (IP 16%nat L) as (s & d & sp & dp & H1 & H2 & H3 & H4 & ->). exists (A6 s sp d dp).
    assert (W : wf_addr (A6 s sp d dp)) by (cbn; auto). repeat split; try assumption; try apply H1; try apply H2. apply (parse_enc_addr _ W).
  - destruct (cut a 108 ltac:(lia)) as (s & d & -> & Ls). rewrite app_length in L. apply Forall_app in B as (B1 & B2).
    exists (AUnix s d). assert (W : wf_addr (AUnix s d)) by (repeat split; auto; lia).
    repeat split; auto; try apply W. apply (parse_enc_addr _ W).
Qed.

(** ** The whole header *)

Lemma fixed16 (b : bytes) : length b = 16%nat -> firstn 12 b = prefix ->
  exists x y u v, b = prefix ++ [x; y; u; v] /\ nth 12 b 0 = x /\ nth 13 b 0 = y /\ nth 14 b 0 = u /\ nth 15 b 0 = v.
Proof.
  intros L P. destruct (cut b 12 ltac:(lia)) as (p & r & -> & Lp).
  rewrite <- Lp, firstn_app, firstn_all, Nat.sub_diag in P. cbn [firstn] in P. rewrite app_nil_r in P. subst p.
  rewrite app_length in L. destruct r as [|x [|y [|u [|v [|]]]]]; cbn in L; try lia. exists x, y, u, v. repeat split.
Qed.

Section Header.
  Variable crc : bytes -> N.
  Variable utf8 : bytes -> bool.

  Lemma fixed_eq tr a n : length (enc_addr a ++ []) = length (enc_addr a) ->
    enc_fixed tr a n = (prefix ++ [0x21; family_byte tr a; N.of_nat (length (enc_addr a) + n) / 256; N.of_nat (length (enc_addr a) + n) mod 256]) ++ enc_addr a.
  Proof. intros _. unfold enc_fixed, u16. rewrite <- !app_assoc. reflexivity. Qed.

  Lemma family_bits tr a :
    N.land (family_byte tr a) 0xF0 = match fam_of a with F4 => 0x10 | F6 => 0x20 | FUnix => 0x30 end /\
    N.land (family_byte tr a) 0x0F = match tr with Stream => 1 | Datagram => 2 end.
  Proof. destruct tr, a; split; reflexivity. Qed.

  Lemma complete term tr a l rest r : acceptable crc utf8 term tr a l -> flowing r ->
    concat r = enc_header tr a l ++ rest ->
    exists r', parse_header crc utf8 r term = PHeader (Header tr a (sni_of l)) r' /\ concat r' = rest.
  Proof.
    intros (Wa & Wl & Ol & Cl & Tl & Ll) F E. set (n := length (enc_tlvs l)) in *.
    assert (La := enc_addr_len a Wa).
    assert (Hs : N.of_nat (length (enc_addr a) + n) < 65536) by (rewrite La; destruct a; cbn; lia).
    set (h16 := prefix ++ [0x21; family_byte tr a; N.of_nat (length (enc_addr a) + n) / 256; N.of_nat (length (enc_addr a) + n) mod 256]) in *.
    assert (Ef : enc_fixed tr a n = h16 ++ enc_addr a) by (apply fixed_eq; now rewrite app_nil_r).
    unfold enc_header in E. fold n in E. rewrite Ef, <- !app_assoc in E.
    destruct (read_exact_get r _ _ F E) as (r1 & R1 & C1 & F1). change (length h16) with 16%nat in R1.
    destruct (read_exact_get r1 _ _ F1 C1) as (r2 & R2 & C2 & F2).
    destruct (read_exact_get r2 _ _ F2 C2) as (r3 & R3 & C3 & F3).
    exists r3. split; [|exact C3]. unfold parse_header. rewrite R1.
    change (firstn 12 h16) with prefix. change (negb (bytes_eqb prefix prefix)) with false. cbn match.
    change (nth 12 h16 0) with 0x21. change (nth 13 h16 0) with (family_byte tr a).
    change (nth 14 h16 0) with (N.of_nat (length (enc_addr a) + n) / 256). change (nth 15 h16 0) with (N.of_nat (length (enc_addr a) + n) mod 256).
    change (negb (N.land 33 240 =? 32)) with false. change (N.land 33 15 =? 0) with false. change (negb (N.land 33 15 =? 1)) with false. cbn match.
    destruct (family_bits tr a) as (B1 & B2). rewrite B1, B2, u16_be16 by exact Hs. rewrite Nat2N.id.
    assert (Hx : (length (enc_addr a) + n - addr_len (fam_of a))%nat = n) by lia.
    assert (Hlt : Nat.ltb (length (enc_addr a) + n) (addr_len (fam_of a)) = false) by (apply Nat.ltb_ge; lia).
    assert (PT : parse_tlvs crc utf8 r2 term (h16 ++ enc_addr a) n = Some (sni_of l, r3)).
    { unfold parse_tlvs. destruct (Nat.ltb_spec 256 n) as [X|_]; [lia|]. unfold n at 1. rewrite R3.
      rewrite (tlv_loop_complete crc utf8 l); [|assumption|assumption|rewrite app_nil_r, <- Ef; exact Cl|unfold n; lia].
      destruct (fold_tlvs l) as (ssl & auth & -> & H1 & H2). unfold tls_ok in Tl. destruct term.
      - destruct Tl as (T1 & T2). rewrite (proj2 H1 T2), (proj2 H2 T1). reflexivity.
      - destruct Tl as (T1 & T2). destruct ssl; [destruct T2; now apply H1|]. destruct auth; [destruct T1; now apply H2|]. reflexivity. }
    assert (G : match fam_of a with F4 => 16 | F6 => 32 | FUnix => 48 end =? 0 = false) by (destruct (fam_of a); reflexivity). rewrite G.
    assert (G2 : (if match fam_of a with F4 => 16 | F6 => 32 | FUnix => 48 end =? 16 then Some F4
                  else if match fam_of a with F4 => 16 | F6 => 32 | FUnix => 48 end =? 32 then Some F6
                  else if match fam_of a with F4 => 16 | F6 => 32 | FUnix => 48 end =? 48 then Some FUnix else None) = Some (fam_of a))
      by (destruct (fam_of a); reflexivity). rewrite G2, Hlt.
    assert (G3 : match tr with Stream => 1 | Datagram => 2 end =? 0 = false) by (destruct tr; reflexivity). rewrite G3.
    assert (G4 : (if match tr with Stream => 1 | Datagram => 2 end =? 1 then Some Stream
                  else if match tr with Stream => 1 | Datagram => 2 end =? 2 then Some Datagram else None) = Some tr)
      by (destruct tr; reflexivity). rewrite G4.
    rewrite <- La at 1. rewrite R2, Hx, PT. rewrite parse_enc_addr by exact Wa. reflexivity.
  Qed.

  Lemma sound term r h r' : all_bytes r -> parse_header crc utf8 r term = PHeader h r' ->
    exists tr a l, acceptable crc utf8 term tr a l /\ h = Header tr a (sni_of l) /\ concat r = enc_header tr a l ++ concat r'.
  Proof.
    intros AB E. unfold parse_header in E. destruct (read_exact 16 r) as [(b, r1)|] eqn:R1; [|discriminate].
    destruct (read_exact_sound _ _ _ _ R1) as (Lb & Cb & Bb & _). destruct (Bb AB) as (Bb1 & AB1).
    destruct (bytes_eqb (firstn 12 b) prefix) eqn:P; [|discriminate]. apply bytes_eqb_eq in P. cbn [negb] in E.
    destruct (fixed16 b Lb P) as (x & y & u & v & Eb & N12 & N13 & N14 & N15). rewrite N12, N13, N14, N15 in E.
    assert (Bxy : byte x /\ byte y /\ byte u /\ byte v).
    { rewrite Eb in Bb1. apply Forall_app in Bb1 as (_ & Q). inversion_clear Q as [|? ? Q1 Q']. inversion_clear Q' as [|? ? Q2 Q''].
      inversion_clear Q'' as [|? ? Q3 Q3']. inversion_clear Q3' as [|? ? Q4 _]. auto. }
    destruct Bxy as (Bx & By & Bu & Bv).
    destruct (N.eqb_spec (N.land x 240) 32) as [X1|]; [|discriminate]. cbn [negb] in E.
    destruct (N.eqb_spec (N.land x 15) 0) as [X0|]; [destruct ((y =? 0) && _); discriminate|].
    destruct (N.eqb_spec (N.land x 15) 1) as [X2|]; [|discriminate]. cbn [negb] in E.
    assert (Ex : x = 0x21) by (rewrite (byte_split x Bx), X1, X2; reflexivity).
    destruct (N.eqb_spec (N.land y 240) 0) as [|Y0]; [discriminate|].
    destruct (if N.land y 240 =? 16 then Some F4 else if N.land y 240 =? 32 then Some F6 else if N.land y 240 =? 48 then Some FUnix else None) as [f|] eqn:Ef; [|discriminate].
    destruct (Nat.ltb_spec (N.to_nat (be16 u v)) (addr_len f)) as [|Hl]; [discriminate|].
    destruct (N.eqb_spec (N.land y 15) 0) as [|Y1]; [discriminate|].
    destruct (if N.land y 15 =? 1 then Some Stream else if N.land y 15 =? 2 then Some Datagram else None) as [tr|] eqn:Et; [|discriminate].
    destruct (read_exact (addr_len f) r1) as [(a, r2)|] eqn:R2; [|discriminate].
    destruct (read_exact_sound _ _ _ _ R2) as (La & Ca & Ba & _). destruct (Ba AB1) as (Ba1 & AB2).
    destruct (enc_parse_addr a f La Ba1) as (ad & Ead & Wad & Fad & Eenc).
    destruct (parse_tlvs crc utf8 r2 term (b ++ a) (N.to_nat (be16 u v) - addr_len f)) as [(sni, r3)|] eqn:PT; [|discriminate].
    injection E as <- <-. unfold parse_tlvs in PT. set (nt := (N.to_nat (be16 u v) - addr_len f)%nat) in *.
    destruct (Nat.ltb_spec 256 nt) as [|Hn]; [discriminate|].
    destruct (read_exact nt r2) as [(tb, r4)|] eqn:R3; [|discriminate].
    destruct (read_exact_sound _ _ _ _ R3) as (Ltb & Ctb & Btb & _). destruct (Btb AB2) as (Btb1 & _).
    destruct (tlv_loop crc utf8 (S nt) (b ++ a) [] tb (None, false, false)) as [((sni', ssl), auth)|] eqn:TL; [|discriminate].
    destruct (tlv_loop_sound crc utf8 _ _ _ _ _ _ Btb1 TL) as (l & El & Wl & Ol & Cl & St).
    destruct (fold_tlvs l) as (ssl' & auth' & Fo & H1 & H2). rewrite Fo in St. injection St as -> -> ->.
    exists tr, ad, l.
    assert (Ey : y = family_byte tr ad).
    { rewrite (byte_split y By). unfold family_byte.
      destruct (N.eqb_spec (N.land y 240) 16) as [E1|]; [injection Ef as <-; rewrite E1|
        destruct (N.eqb_spec (N.land y 240) 32) as [E1|]; [injection Ef as <-; rewrite E1|
        destruct (N.eqb_spec (N.land y 240) 48) as [E1|]; [injection Ef as <-; rewrite E1|discriminate]]];
      (destruct (N.eqb_spec (N.land y 15) 1) as [E2|]; [injection Et as <-; rewrite E2|
        destruct (N.eqb_spec (N.land y 15) 2) as [E2|]; [injection Et as <-; rewrite E2|discriminate]]);
      destruct ad; try discriminate Fad; reflexivity. }
    assert (Hlen : N.of_nat (length (enc_addr ad) + length (enc_tlvs l)) = be16 u v).
    { rewrite Eenc, La, <- El, Ltb. unfold nt. lia. }
    assert (Efix : enc_fixed tr ad (length (enc_tlvs l)) = b ++ a).
    { unfold enc_fixed. rewrite Hlen, be16_u16 by assumption. rewrite Eb, Ex, <- Ey, Eenc, <- !app_assoc. reflexivity. }
    assert (Rest : r3 = r4 /\ sni = sni_of l /\ tls_ok term l).
    { destruct term.
      - destruct ssl', auth'; try discriminate. injection PT as <- <-. repeat split; [apply H2; reflexivity|apply H1; reflexivity].
      - destruct ssl', auth'; try discriminate. injection PT as <- <-. repeat split; intros X; [apply H2 in X|apply H1 in X]; discriminate. }
    destruct Rest as (-> & -> & T). split; [|split].
    - refine (conj Wad (conj Wl (conj Ol (conj _ (conj T _))))).
      + rewrite app_nil_r, <- Efix in Cl. exact Cl.
      + rewrite <- El, Ltb. lia.
    - now rewrite Ead.
    - unfold enc_header. rewrite Efix, Cb, Ca, Ctb, El, <- !app_assoc. reflexivity.
  Qed.

  (** When exactly the parser panics. *)
  Lemma panics term r : all_bytes r -> flowing r ->
    (parse_header crc utf8 r term = PPanic <->
     exists y u v rest, concat r = prefix ++ [0x21; y; u; v] ++ rest /\
       (N.land y 0xF0 = 0 \/
        N.land y 0x0F = 0 /\
        ((N.land y 0xF0 = 0x10 /\ 12 <= be16 u v) \/ (N.land y 0xF0 = 0x20 /\ 36 <= be16 u v) \/
         (N.land y 0xF0 = 0x30 /\ 216 <= be16 u v)))).
  Proof.
    intros AB F. split.
    - intros E. unfold parse_header in E. destruct (read_exact 16 r) as [(b, r1)|] eqn:R1; [|discriminate].
      destruct (read_exact_sound _ _ _ _ R1) as (Lb & Cb & Bb & _). destruct (Bb AB) as (Bb1 & AB1).
      destruct (bytes_eqb (firstn 12 b) prefix) eqn:P; [|discriminate]. apply bytes_eqb_eq in P. cbn [negb] in E.
      destruct (fixed16 b Lb P) as (x & y & u & v & Eb & N12 & N13 & N14 & N15). rewrite N12, N13, N14, N15 in E.
      assert (Bx : byte x).
      { rewrite Eb in Bb1. apply Forall_app in Bb1 as (_ & Q). now inversion_clear Q. }
      destruct (N.eqb_spec (N.land x 240) 32) as [X1|]; [|discriminate]. cbn [negb] in E.
      destruct (N.eqb_spec (N.land x 15) 0) as [X0|]; [destruct ((y =? 0) && _); discriminate|].
      destruct (N.eqb_spec (N.land x 15) 1) as [X2|]; [|discriminate]. cbn [negb] in E.
      assert (Ex : x = 0x21) by (rewrite (byte_split x Bx), X1, X2; reflexivity).
      exists y, u, v, (concat r1). split; [rewrite Cb, Eb, Ex, <- app_assoc; reflexivity|].
      destruct (N.eqb_spec (N.land y 240) 0) as [|Y0]; [now left|right].
      assert (K : forall f, (if Nat.ltb (N.to_nat (be16 u v)) (addr_len f) then PErr else
          if N.land y 15 =? 0 then PPanic else
          match (if N.land y 15 =? 1 then Some Stream else if N.land y 15 =? 2 then Some Datagram else None) with
          | Some tr => match read_exact (addr_len f) r1 with
                       | Some (a, r2) => match parse_tlvs crc utf8 r2 term (b ++ a) (N.to_nat (be16 u v) - addr_len f) with
                                         | Some (sni, r3) => PHeader (Header tr (parse_addresses a f) sni) r3
                                         | None => PErr end
                       | None => PErr end
          | None => PErr end) = PPanic -> N.land y 15 = 0 /\ N.of_nat (addr_len f) <= be16 u v).
      { intros f. destruct (Nat.ltb_spec (N.to_nat (be16 u v)) (addr_len f)) as [|H]; [discriminate|].
        destruct (N.eqb_spec (N.land y 15) 0) as [->|]; [intros _; split; [reflexivity|lia]|].
        destruct (if N.land y 15 =? 1 then _ else _); [|discriminate]. destruct (read_exact (addr_len f) r1) as [(a, r2)|]; [|discriminate].
        destruct (parse_tlvs _ _ _ _ _ _) as [(s3, r3)|]; discriminate. }
      destruct (N.eqb_spec (N.land y 240) 16) as [Y|]; [destruct (K F4 E); split; [assumption|left; auto]|].
      destruct (N.eqb_spec (N.land y 240) 32) as [Y|]; [destruct (K F6 E); split; [assumption|right; left; auto]|].
      destruct (N.eqb_spec (N.land y 240) 48) as [Y|]; [destruct (K FUnix E); split; [assumption|right; right; auto]|]. discriminate.
    - intros (y & u & v & rest & E & H). unfold parse_header. cbn [app] in E.
      change (prefix ++ 33 :: y :: u :: v :: rest) with ((prefix ++ [33; y; u; v]) ++ rest) in E.
      destruct (read_exact_get r _ _ F E) as (r1 & R1 & _). change (length (prefix ++ [33; y; u; v])) with 16%nat in R1. rewrite R1.
      change (firstn 12 (prefix ++ [33; y; u; v])) with prefix. change (negb (bytes_eqb prefix prefix)) with false. cbn match.
      change (nth 12 (prefix ++ [33; y; u; v]) 0) with 0x21. change (nth 13 (prefix ++ [33; y; u; v]) 0) with y.
      change (nth 14 (prefix ++ [33; y; u; v]) 0) with u. change (nth 15 (prefix ++ [33; y; u; v]) 0) with v.
      change (negb (N.land 33 240 =? 32)) with false. change (N.land 33 15 =? 0) with false. change (negb (N.land 33 15 =? 1)) with false. cbn match.
      destruct H as [->|(H0 & H)]; [reflexivity|]. rewrite H0. change (0 =? 0) with true. cbn match.
      destruct H as [(-> & L)|[(-> & L)|(-> & L)]].
      + change (16 =? 0) with false. change (16 =? 16) with true. cbn match. cbn [addr_len].
        destruct (Nat.ltb_spec (N.to_nat (be16 u v)) 12); [lia|reflexivity].
      + change (32 =? 0) with false. change (32 =? 16) with false. change (32 =? 32) with true. cbn match. cbn [addr_len].
        destruct (Nat.ltb_spec (N.to_nat (be16 u v)) 36); [lia|reflexivity].
      + change (48 =? 0) with false. change (48 =? 16) with false. change (48 =? 32) with false. change (48 =? 48) with true. cbn match.
        cbn [addr_len]. destruct (Nat.ltb_spec (N.to_nat (be16 u v)) 216); [lia|reflexivity].
  Qed.
End Header.

Lemma local crc utf8 term r r' : all_bytes r ->
  (parse_header crc utf8 r term = PLocal r' -> concat r = prefix ++ [0x20; 0; 0; 0] ++ concat r') /\
  (flowing r -> forall rest, concat r = prefix ++ [0x20; 0; 0; 0] ++ rest ->
     exists r1, parse_header crc utf8 r term = PLocal r1 /\ concat r1 = rest).
Proof.
  intros AB. split.
  - intros E. unfold parse_header in E. destruct (read_exact 16 r) as [(b, r1)|] eqn:R1; [|discriminate].
    destruct (read_exact_sound _ _ _ _ R1) as (Lb & Cb & Bb & _). destruct (Bb AB) as (Bb1 & AB1).
    destruct (bytes_eqb (firstn 12 b) prefix) eqn:P; [|discriminate]. apply bytes_eqb_eq in P. cbn [negb] in E.
    destruct (fixed16 b Lb P) as (x & y & u & v & Eb & N12 & N13 & N14 & N15). rewrite N12, N13, N14, N15 in E.
    assert (Bx : byte x /\ byte u /\ byte v).
    { rewrite Eb in Bb1. apply Forall_app in Bb1 as (_ & Q). inversion_clear Q as [|? ? Q1 Q']. inversion_clear Q' as [|? ? Q2 Q''].
      inversion_clear Q'' as [|? ? Q3 Q3']. inversion_clear Q3' as [|? ? Q4 _]. auto. }
    destruct Bx as (Bx & Bu & Bv).
    destruct (N.eqb_spec (N.land x 240) 32) as [X1|]; [|discriminate]. cbn [negb] in E.
    destruct (N.eqb_spec (N.land x 15) 0) as [X0|].
    + destruct (N.eqb_spec y 0) as [->|]; [|discriminate]. destruct (Nat.eqb_spec (N.to_nat (be16 u v)) 0) as [Z|]; [|discriminate].
      cbn [andb] in E. injection E as <-. unfold be16 in Z. rewrite Cb, Eb, (byte_split x Bx), X1, X0, <- app_assoc.
      assert (u = 0) by lia. assert (v = 0) by lia. subst. reflexivity.
    + destruct (negb _); [discriminate|]. destruct (_ =? 0); [discriminate|].
      destruct (if _ =? 16 then _ else _); [|discriminate]. destruct (Nat.ltb _ _); [discriminate|].
      destruct (_ =? 0); [discriminate|]. destruct (if _ =? 1 then _ else _); [|discriminate].
      destruct (read_exact _ r1) as [(a, r2)|]; [|discriminate]. destruct (parse_tlvs _ _ _ _ _ _) as [(s3, r3)|]; discriminate.
  - intros F rest E. cbn [app] in E.
    change (prefix ++ 32 :: 0 :: 0 :: 0 :: rest) with ((prefix ++ [32; 0; 0; 0]) ++ rest) in E.
    destruct (read_exact_get r _ _ F E) as (r1 & R1 & C1 & _). change (length (prefix ++ [32; 0; 0; 0])) with 16%nat in R1.
    exists r1. split; [|exact C1]. unfold parse_header. rewrite R1. reflexivity.
Qed.

Lemma repeat_byte n : Forall byte (repeat 0 n).
Proof. induction n; constructor; auto. reflexivity. Qed.

Lemma long_refuted crc utf8 : exists a l,
  wf_addr a /\ Forall wf_tlv l /\ Forall (tlv_ok utf8) l /\ crc_ok crc Stream a l /\ tls_ok false l /\
  parse_header crc utf8 [enc_header Stream a l] false = PErr.
Proof.
  exists (A4 [127;0;0;1] 1 [127;0;0;1] 2), [(4, repeat 0 254)]. split; [|split; [|split; [|split; [|split]]]].
  - repeat split; repeat constructor.
  - constructor; [|constructor]. split; [reflexivity|]. split; [apply repeat_byte|reflexivity].
  - constructor; [|constructor]. split; discriminate.
  - intros [|t l1] v l2 E; [discriminate|]. injection E as _ E. destruct l1; discriminate.
  - split; intros (v & [E|[]]); discriminate.
  - vm_compute. reflexivity.
Qed.

Lemma local_refuted crc utf8 term :
  parse_header crc utf8 [prefix ++ [0x20; 0x11; 0; 12; 127; 0; 0; 1; 127; 0; 0; 1; 234; 229; 31; 144]] term = PErr.
Proof. vm_compute. reflexivity. Qed.

Lemma panic_refuted : exists r, all_bytes r /\ flowing r /\
  forall crc utf8 term, parse_header crc utf8 r term = PPanic.
Proof.
  exists [prefix ++ [0x21; 0; 0; 0]]. split; [|split].
  - constructor; [|constructor]. repeat constructor.
  - repeat constructor. discriminate.
  - intros. vm_compute. reflexivity.
Qed.
