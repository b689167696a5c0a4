(** PROXY protocol v2: the properties C44 and C45.  [crc] and [utf8] stand for
    CRC-32C and UTF-8 validation and are arbitrary functions in the theorems. *)
From Coq Require Import List Bool Arith NArith Lia.
From Verif Require Import Base ProxyModel ProxySpec ProxyProofs.
Import ListNotations.
Local Open Scope N_scope.

(** CRC-32C, for the examples. *)
Definition crc_byte (c b : N) : N :=
  Nat.iter 8 (fun x => if N.odd x then N.lxor (N.shiftr x 1) 0x82F63B78 else N.shiftr x 1) (N.lxor c b).
Definition crc32c (l : bytes) : N := N.lxor (fold_left crc_byte l 0xFFFFFFFF) 0xFFFFFFFF.
Definition ascii_only (l : bytes) : bool := forallb (fun b => b <? 128) l.
Example crc32c_check : crc32c [49;50;51;52;53;54;55;56;57] = 0xE3069283.
Proof. vm_compute. reflexivity. Qed.

(** The test vector of proxy.rs:420-440. *)
Definition ex_addr := A4 [127;0;0;1] 65355 [127;0;0;1] 8080.
Definition ex_tlvs : list tlv :=
  [(3, [59;142;226;148]); (2, [109;121;109;97;99;112;114;111]); (32, [1;0;0;0;0;33;0;7;84;76;83;118;49;46;51])].
Definition ex_bytes : bytes :=
  [13;10;13;10;0;13;10;81;85;73;84;10;33;17;0;48;127;0;0;1;127;0;0;1;255;75;31;144;3;0;4;59;142;226;148;
   2;0;8;109;121;109;97;99;112;114;111;32;0;15;1;0;0;0;0;33;0;7;84;76;83;118;49;46;51].

(** C44, first half: every acceptable header is decoded, whatever way its bytes
    arrive, and exactly its bytes are consumed.  Not covered (see the refutations
    below): more than 256 bytes of TLVs, and LOCAL headers with a body. *)
Theorem C44_decodes_partial : forall crc utf8 term tr a l rest r,
  acceptable crc utf8 term tr a l -> flowing r -> concat r = enc_header tr a l ++ rest ->
  exists r', parse_header crc utf8 r term = PHeader (Header tr a (sni_of l)) r' /\ concat r' = rest.
Proof. exact complete. Qed.
Print Assumptions C44_decodes_partial.

Example C44_decodes_example : acceptable crc32c ascii_only true Stream ex_addr ex_tlvs /\ enc_header Stream ex_addr ex_tlvs = ex_bytes.
Proof.
  split; [|vm_compute; reflexivity].
  assert (B : forall l, forallb (fun b => b <? 256) l = true -> Forall byte l).
  { intros l H. apply Forall_forall. intros x Hx. rewrite forallb_forall in H. apply N.ltb_lt, H, Hx. }
  refine (conj _ (conj _ (conj _ (conj _ (conj _ _))))).
  - repeat split; try (apply B; reflexivity); reflexivity.
  - repeat constructor; cbn [fst snd]; try (apply B; reflexivity); reflexivity.
  - unfold ex_tlvs. apply Forall_cons; [split; discriminate|]. apply Forall_cons; [split; [split; [discriminate|reflexivity]|discriminate]|].
    apply Forall_cons; [split; [discriminate|]|constructor]. intros _. cbn [snd]. eauto.
  - intros l1 v l2 E. destruct l1 as [|t1 [|t2 [|t3 l1]]]; try discriminate.
    + injection E as <- <-. split; [reflexivity|vm_compute; reflexivity].
    + injection E as _ _ _ E. destruct l1; discriminate.
  - split; [exists [109;121;109;97;99;112;114;111]|exists [1;0;0;0;0;33;0;7;84;76;83;118;49;46;51]]; cbn; auto.
  - vm_compute. lia.
Qed.

(** C44, second half: whatever is accepted is an acceptable header followed by the
    unread bytes; anything else is an error (or, C45, a panic). *)
Theorem C44_accepts_only : forall crc utf8 term r h r', all_bytes r -> parse_header crc utf8 r term = PHeader h r' ->
  exists tr a l, acceptable crc utf8 term tr a l /\ h = Header tr a (sni_of l) /\ concat r = enc_header tr a l ++ concat r'.
Proof. exact sound. Qed.
Print Assumptions C44_accepts_only.

(** The server takes the peer address from the header. *)
Example C44_accepts_only_example :
  parse_header crc32c ascii_only [firstn 5 ex_bytes; skipn 5 ex_bytes ++ [16; 0]] true =
    PHeader (Header Stream ex_addr (Some [109;121;109;97;99;112;114;111])) [[16; 0]] /\
  accept_proxy (parse_header crc32c ascii_only [ex_bytes] true) = Peer [127;0;0;1] 65355 (Some [109;121;109;97;99;112;114;111]) [] /\
  parse_header crc32c ascii_only [ex_bytes] false = PErr /\
  parse_header crc32c ascii_only [firstn 33 ex_bytes ++ [225] ++ skipn 34 ex_bytes] true = PErr.
Proof. vm_compute. repeat split. Qed.

(** C44, local connections: exactly the 16-byte LOCAL header without a body. *)
Theorem C44_local : forall crc utf8 term r r', all_bytes r ->
  (parse_header crc utf8 r term = PLocal r' -> concat r = prefix ++ [0x20; 0; 0; 0] ++ concat r') /\
  (flowing r -> forall rest, concat r = prefix ++ [0x20; 0; 0; 0] ++ rest ->
     exists r1, parse_header crc utf8 r term = PLocal r1 /\ concat r1 = rest).
Proof. exact local. Qed.
Print Assumptions C44_local.
Example C44_local_example : parse_header crc32c ascii_only [[13;10;13;10;0;13;10;81]; [85;73;84;10;32;0;0;0;1]] false = PLocal [[1]].
Proof. reflexivity. Qed.

(** C44 as stated fails: the protocol allows more than 256 bytes of TLVs, here one
    TLV of type 4 (padding), and the parser rejects them. *)
Theorem C44_long_tlvs_refuted : forall crc utf8, exists a l,
  wf_addr a /\ Forall wf_tlv l /\ Forall (tlv_ok utf8) l /\ crc_ok crc Stream a l /\ tls_ok false l /\
  parse_header crc utf8 [enc_header Stream a l] false = PErr.
Proof. exact long_refuted. Qed.
Print Assumptions C44_long_tlvs_refuted.

(** And a LOCAL header must be accepted whatever its family and length bytes are,
    with the body skipped; the parser rejects it. *)
Theorem C44_local_body_refuted : forall crc utf8 term,
  parse_header crc utf8 [prefix ++ [0x20; 0x11; 0; 12; 127; 0; 0; 1; 127; 0; 0; 1; 234; 229; 31; 144]] term = PErr.
Proof. exact local_refuted. Qed.
Print Assumptions C44_local_body_refuted.

(** C45 as stated fails: a PROXY header of the unspecified family, which the
    protocol allows, panics. *)
Theorem C45_no_panic_refuted : exists r, all_bytes r /\ flowing r /\
  forall crc utf8 term, parse_header crc utf8 r term = PPanic.
Proof. exact panic_refuted. Qed.
Print Assumptions C45_no_panic_refuted.

(** C45, exactly: the parser panics on those headers whose family is unspecified,
    or whose family is known, length sufficient and transport unspecified, and on
    no other bytes. *)
Theorem C45_no_other_panic_partial : forall crc utf8 term r, all_bytes r -> flowing r ->
  (parse_header crc utf8 r term = PPanic <->
   exists y u v rest, concat r = prefix ++ [0x21; y; u; v] ++ rest /\
     (N.land y 0xF0 = 0 \/
      N.land y 0x0F = 0 /\
      ((N.land y 0xF0 = 0x10 /\ 12 <= be16 u v) \/ (N.land y 0xF0 = 0x20 /\ 36 <= be16 u v) \/
       (N.land y 0xF0 = 0x30 /\ 216 <= be16 u v)))).
Proof. exact panics. Qed.
Print Assumptions C45_no_other_panic_partial.
Example C45_example :
  parse_header crc32c ascii_only [prefix ++ [0x21; 0x10; 0; 12]] false = PPanic /\
  parse_header crc32c ascii_only [prefix ++ [0x21; 0x10; 0; 11]] false = PErr.
Proof. vm_compute. split; reflexivity. Qed.
