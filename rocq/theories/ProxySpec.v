(** The PROXY protocol v2 wire format (haproxy proxy-protocol.txt, section 2.2),
    as an encoder, and which headers the listener is meant to accept. *)
From Coq Require Import List Bool Arith NArith.
From Verif Require Import Base ProxyModel.
Import ListNotations.
Local Open Scope N_scope.

Definition byte (b : N) : Prop := b < 256.
Definition blob (n : nat) (l : bytes) : Prop := length l = n /\ Forall byte l.
Definition u16 (n : N) : bytes := [n / 256; n mod 256].

(** A type-length-value field. *)
Definition tlv : Type := N * bytes.
Definition wf_tlv (t : tlv) : Prop := byte (fst t) /\ Forall byte (snd t) /\ N.of_nat (length (snd t)) < 65536.
Definition enc_tlv (t : tlv) : bytes := fst t :: u16 (N.of_nat (length (snd t))) ++ snd t.
Definition enc_tlvs (l : list tlv) : bytes := flat_map enc_tlv l.

(** Addresses: source address, destination address, source port, destination port. *)
Definition wf_addr (a : addresses) : Prop :=
  match a with
  | A4 s sp d dp => blob 4 s /\ blob 4 d /\ sp < 65536 /\ dp < 65536
  | A6 s sp d dp => blob 16 s /\ blob 16 d /\ sp < 65536 /\ dp < 65536
  | AUnix s d => blob 108 s /\ blob 108 d
  end.
Definition enc_addr (a : addresses) : bytes :=
  match a with
  | A4 s sp d dp | A6 s sp d dp => s ++ d ++ u16 sp ++ u16 dp
  | AUnix s d => s ++ d
  end.

(** Version 2, command PROXY; family in the high and transport in the low four bits. *)
Definition family_byte (tr : transport) (a : addresses) : N :=
  (match a with A4 _ _ _ _ => 0x10 | A6 _ _ _ _ => 0x20 | AUnix _ _ => 0x30 end) +
  (match tr with Stream => 1 | Datagram => 2 end).
Definition enc_fixed (tr : transport) (a : addresses) (n : nat) : bytes :=
  prefix ++ [0x21; family_byte tr a] ++ u16 (N.of_nat (length (enc_addr a) + n)) ++ enc_addr a.
Definition enc_header (tr : transport) (a : addresses) (l : list tlv) : bytes :=
  enc_fixed tr a (length (enc_tlvs l)) ++ enc_tlvs l.

(** Fields the server looks at: 2 = authority (host name), 3 = checksum over the
    header with the checksum set to 0, 0x20 = TLS (client byte, four verify bytes
    that are 0 for a verified or absent certificate, sub-fields). *)
Section Rules.
  Variable crc : bytes -> N.
  Variable utf8 : bytes -> bool.

  Definition zero_crc (t : tlv) : tlv := if fst t =? 3 then (3, [0; 0; 0; 0]) else t.

  Definition tlv_ok (t : tlv) : Prop :=
    (fst t = 2 -> snd t <> [] /\ utf8 (snd t) = true) /\
    (fst t = 0x20 -> exists c sub, snd t = c :: 0 :: 0 :: 0 :: 0 :: sub).

  (** Every checksum is right; were there several, each is computed with itself
      and the earlier ones set to 0. *)
  Definition crc_ok (tr : transport) (a : addresses) (l : list tlv) : Prop :=
    forall l1 v l2, l = l1 ++ (3, v) :: l2 ->
      length v = 4%nat /\
      be32 v = crc (enc_fixed tr a (length (enc_tlvs l)) ++ enc_tlvs (map zero_crc (l1 ++ [(3, v)]) ++ l2)).

  Definition sni_of (l : list tlv) : option bytes :=
    match filter (fun t => fst t =? 2) (rev l) with t :: _ => Some (snd t) | [] => None end.
  Definition has_type (n : N) (l : list tlv) : Prop := exists v, In (n, v) l.

  (** TLS information is present exactly on listeners with TLS termination. *)
  Definition tls_ok (term : bool) (l : list tlv) : Prop :=
    if term then has_type 2 l /\ has_type 0x20 l else ~ has_type 2 l /\ ~ has_type 0x20 l.

  Definition acceptable (term : bool) (tr : transport) (a : addresses) (l : list tlv) : Prop :=
    wf_addr a /\ Forall wf_tlv l /\ Forall tlv_ok l /\ crc_ok tr a l /\ tls_ok term l /\
    (length (enc_tlvs l) <= 256)%nat.
End Rules.

(** A connection that delivers data: no read returns 0 bytes before the end. *)
Definition flowing (r : reader) : Prop := Forall (fun c => c <> []) r.
Definition all_bytes (r : reader) : Prop := Forall (Forall byte) r.
