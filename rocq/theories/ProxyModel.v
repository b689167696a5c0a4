(** PROXY protocol v2 header parser.  Models server/proxy.rs:14-361 and the use
    of its result in server/mod.rs:60-96.

    A byte is an [N] below 256.  [crc32c] and UTF-8 validation (crate crc32c,
    [String::from_utf8]) are parameters; [crc32c_append(crc32c(a), b)] is the
    checksum of [a ++ b]. *)
From Coq Require Import List Bool Arith NArith.
From Verif Require Import Base.
Import ListNotations.
Local Open Scope N_scope.

Definition bytes := list N.

(** The connection as [AsyncRead]: the results of the successive reads, each cut
    to the room in the reader's buffer with the remainder read next.  An empty
    result is the end of the stream.  tokio [read_exact]; [None] is UnexpectedEof. *)
Definition reader := list bytes.
Fixpoint read_exact (n : nat) (r : reader) {struct r} : option (bytes * reader) :=
  match n with
  | O => Some ([], r)
  | S _ =>
      match r with
      | [] => None
      | c :: r' =>
          match c with
          | [] => None
          | _ =>
              if Nat.leb n (length c) then Some (firstn n c, match skipn n c with [] => r' | t => t :: r' end)
              else match read_exact (n - length c) r' with
                   | Some (b, r'') => Some (c ++ b, r'')
                   | None => None
                   end
          end
      end
  end.

Fixpoint bytes_eqb (a b : bytes) : bool :=
  match a, b with
  | [], [] => true
  | x :: a', y :: b' => (x =? y) && bytes_eqb a' b'
  | _, _ => false
  end.

(** proxy.rs:17 PROTOCOL_PREFIX *)
Definition prefix : bytes := [13; 10; 13; 10; 0; 13; 10; 81; 85; 73; 84; 10].

(** proxy.rs:42-57 *)
Inductive family := F4 | F6 | FUnix.
Inductive transport := Stream | Datagram.

(** proxy.rs:59-78 [Addresses] *)
Inductive addresses :=
| A4 (src : bytes) (sport : N) (dst : bytes) (dport : N)
| A6 (src : bytes) (sport : N) (dst : bytes) (dport : N)
| AUnix (src dst : bytes).

(** proxy.rs:33-40 [Header] *)
Record header := Header { h_proto : transport; h_addr : addresses; h_sni : option bytes }.

(** Outcome of [parse_header]: a header, [None] for a local connection, an
    io::Error, or a panic. *)
Inductive presult := PHeader (h : header) (r : reader) | PLocal (r : reader) | PErr | PPanic.

(** proxy.rs:19-24 *)
Definition addr_len (f : family) : nat := match f with F4 => 12 | F6 => 36 | FUnix => 216 end.

Definition be16 (a b : N) : N := a * 256 + b.
Definition be32 (v : bytes) : N := fold_left (fun n b => n * 256 + b) v 0.
Definition slice (i j : nat) (l : bytes) : bytes := firstn (j - i) (skipn i l).

(** proxy.rs:184-231 [parse_addresses] *)
Definition parse_addresses (b : bytes) (f : family) : addresses :=
  let at_ i := nth i b 0 in
  match f with
  | F4 => A4 (slice 0 4 b) (be16 (at_ 8%nat) (at_ 9%nat)) (slice 4 8 b) (be16 (at_ 10%nat) (at_ 11%nat))
  | F6 => A6 (slice 0 16 b) (be16 (at_ 32%nat) (at_ 33%nat)) (slice 16 32 b) (be16 (at_ 34%nat) (at_ 35%nat))
  | FUnix => AUnix (slice 0 108 b) (slice 108 216 b)
  end.

Section Parse.
  Variable crc : bytes -> N.
  Variable utf8 : bytes -> bool.

  (** proxy.rs:255-337: the TLV loop.  [tlv_bytes] is [done ++ rest] and [offset]
      is the length of [done].  The state is (tls_sni, pp2_type_ssl,
      pp2_type_authority); [None] is an error.  Each turn consumes at least three
      bytes, so the fuel (the number of bytes) suffices. *)
  Fixpoint tlv_loop (fuel : nat) (head done rest : bytes) (st : option bytes * bool * bool)
      : option (option bytes * bool * bool) :=
    match fuel with
    | O => None
    | S fuel' =>
        let '(sni, ssl, auth) := st in
        match rest with
        | [] => Some st
        | t :: l1 :: l2 :: r =>
            let len := N.to_nat (be16 l1 l2) in
            if Nat.ltb (length r) len then None
            else
              let v := firstn len r in
              let r' := skipn len r in
              if t =? 0x02 then
                if Nat.eqb len 0 then None
                else if negb (utf8 v) then None
                else tlv_loop fuel' head (done ++ t :: l1 :: l2 :: v) r' (Some v, ssl, true)
              else if t =? 0x03 then
                if negb (Nat.eqb len 4) then None
                else
                  let done' := done ++ t :: l1 :: l2 :: [0; 0; 0; 0] in
                  if be32 v =? crc (head ++ done' ++ r')
                  then tlv_loop fuel' head done' r' st
                  else None
              else if t =? 0x20 then
                if Nat.ltb len 5 then None
                else if forallb (N.eqb 0) (slice 1 5 v)
                then tlv_loop fuel' head (done ++ t :: l1 :: l2 :: v) r' (sni, true, auth)
                else None
              else tlv_loop fuel' head (done ++ t :: l1 :: l2 :: v) r' st
        | _ => None
        end
    end.

  (** proxy.rs:233-361 [parse_tlvs]; [head] is [buffer[..16 + address_length]]. *)
  Definition parse_tlvs (r : reader) (term : bool) (head : bytes) (n : nat) : option (option bytes * reader) :=
    if Nat.ltb 256 n then None
    else
      match read_exact n r with
      | None => None
      | Some (b, r') =>
          match tlv_loop (S n) head [] b (None, false, false) with
          | None => None
          | Some (sni, ssl, auth) =>
              if term then if ssl && auth then Some (sni, r') else None
              else if ssl || auth then None else Some (sni, r')
          end
      end.

  (** proxy.rs:82-182 [parse_header] *)
  Definition parse_header (r : reader) (term : bool) : presult :=
    match read_exact 16 r with
    | None => PErr
    | Some (b, r1) =>
        if negb (bytes_eqb (firstn 12 b) prefix) then PErr
        else
          let b13 := nth 12 b 0 in
          let b14 := nth 13 b 0 in
          let extra := N.to_nat (be16 (nth 14 b 0) (nth 15 b 0)) in
          if negb (N.land b13 0xF0 =? 0x20) then PErr
          else if N.land b13 0x0F =? 0x00 then
            if (b14 =? 0) && Nat.eqb extra 0 then PLocal r1 else PErr
          else if negb (N.land b13 0x0F =? 0x01) then PErr
          else
            let fam := N.land b14 0xF0 in
            if fam =? 0 then PPanic                                  (* unreachable!() *)
            else
              match (if fam =? 0x10 then Some F4 else if fam =? 0x20 then Some F6
                     else if fam =? 0x30 then Some FUnix else None) with
              | None => PErr
              | Some f =>
                  if Nat.ltb extra (addr_len f) then PErr
                  else
                    let pr := N.land b14 0x0F in
                    if pr =? 0 then PPanic                           (* unreachable!() *)
                    else
                      match (if pr =? 1 then Some Stream else if pr =? 2 then Some Datagram else None) with
                      | None => PErr
                      | Some tr =>
                          match read_exact (addr_len f) r1 with
                          | None => PErr
                          | Some (a, r2) =>
                              match parse_tlvs r2 term (b ++ a) (extra - addr_len f) with
                              | None => PErr
                              | Some (sni, r3) => PHeader (Header tr (parse_addresses a f) sni) r3
                              end
                          end
                      end
              end
    end.
End Parse.

(** server/mod.rs:60-96: the client address used afterwards: (address, port), or
    the connection is refused (Unix) or ends (health check). *)
Inductive accepted := Peer (addr : bytes) (port : N) (sni : option bytes) (r : reader) | Closed | Panicked.
Definition accept_proxy (p : presult) : accepted :=
  match p with
  | PHeader (Header _ (A4 s sp _ _) sni) r => Peer s sp sni r
  | PHeader (Header _ (A6 s sp _ _) sni) r => Peer s sp sni r
  | PHeader (Header _ (AUnix _ _) _) _ => Closed
  | PLocal _ => Closed
  | PErr => Closed
  | PPanic => Panicked
  end.
