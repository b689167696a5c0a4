(** What it means that a reason string is wanted and fits: the bytes of CONNACK and
    DISCONNECT packets as the MQTT 5 standard lays them out. *)
From Coq Require Import List Bool NArith String Ascii.
From Verif Require Import Base MsgModel GlobModel Sess5Model ConnModel.
Import ListNotations.
Local Open Scope N_scope.
Local Open Scope list_scope.

(** MQTT 5, 1.5.5: variable byte integer; 128^4 needs no more than four bytes. *)
Fixpoint varint_bytes (fuel : nat) (x : N) : list N :=
  match fuel with
  | O => []
  | S f => if x / 128 =? 0 then [x mod 128] else (x mod 128 + 128) :: varint_bytes f (x / 128)
  end.
Definition varint (x : N) : list N := varint_bytes 4 x.
(** The largest number a variable byte integer can carry. *)
Definition varint_max : N := 268435455.

Definition size (l : list N) : N := N.of_nat (List.length l).
(** 1.5.2, 1.5.3: big-endian integers. *)
Definition u16 (x : N) : list N := [x / 256 mod 256; x mod 256].
Definition u32 (x : N) : list N := u16 (x / 65536) ++ u16 (x mod 65536).
Definition chars (s : string) : list N := map N_of_ascii (list_ascii_of_string s).
(** 1.5.4, 1.5.6: a string or binary data after its length. *)
Definition counted (s : string) : list N := u16 (size (chars s)) ++ chars s.
Definition flag (b : bool) : list N := [if b then 1 else 0].

Definition field {A} (id : N) (enc : A -> list N) (v : option A) : list N :=
  match v with Some x => id :: enc x | None => [] end.
(** A control packet: type and flags, length of the rest, the rest. *)
Definition packet (head : N) (body : list N) : list N := head :: varint (size body) ++ body.
(** Properties after their length. *)
Definition properties (p : list N) : list N := varint (size p) ++ p.

(** 3.14: DISCONNECT with a reason string (property 31). *)
Definition disconnect_bytes (code : N) (r : string) : list N :=
  packet 0xE0 (code :: properties (31 :: counted r)).

(** 3.2: CONNACK. *)
Definition connack_props (k : connack5) : list N :=
  field 17 u32 (ka_expiry k) ++ field 33 u16 (ka_rmax k) ++
  field 36 (fun q => [match q with L0 => 0 | L1 => 1 | L2 => 2 end]) (ka_maxqos k) ++
  field 37 flag (ka_retain k) ++ field 39 u32 (ka_maxpkt k) ++ field 18 counted (ka_assigned k) ++
  field 34 u16 (ka_alias k) ++ field 31 counted (ka_reason k) ++ field 40 flag (ka_wild k) ++
  field 41 flag (ka_subid k) ++ field 42 flag (ka_shared k) ++ field 19 u16 (ka_keep k) ++
  field 21 counted (ka_method k) ++ field 22 counted (ka_data k).
Definition connack_bytes (k : connack5) : list N :=
  packet 0x20 (flag (ka_present k) ++ [ka_code k] ++ properties (connack_props k)).

(** The largest packet a client accepts: what its CONNECT says, else the server's setting. *)
Definition client_limit (c : config) (p : connect5) : N :=
  match co_maxpkt p with Some n => n | None => cf_packet_client c end.
(** Request Problem Information (3.1.2.11.7): 1 if the client says nothing. *)
Definition wants_reasons (p : connect5) : Prop := co_problem p <> Some false.
