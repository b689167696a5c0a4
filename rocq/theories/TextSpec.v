(** What text and exclusive or are, independently of how the code checks and computes them. *)
From Coq Require Import List Bool NArith Ascii.
From Verif Require Import TextModel.
Import ListNotations.
Local Open Scope N_scope.

(** Unicode scalar values: the code points without the surrogates. *)
Definition scalar (n : N) : Prop := n < 0xD800 \/ 0xE000 <= n <= 0x10FFFF.
(** RFC 3629 section 3: the bytes of a code point. *)
Definition utf8_of (n : N) : text :=
  if n <? 0x80 then [byte n]
  else if n <? 0x800 then [byte (0xC0 + n / 64); byte (0x80 + n mod 64)]
  else if n <? 0x10000 then [byte (0xE0 + n / 4096); byte (0x80 + n / 64 mod 64); byte (0x80 + n mod 64)]
  else [byte (0xF0 + n / 262144); byte (0x80 + n / 4096 mod 64); byte (0x80 + n / 64 mod 64); byte (0x80 + n mod 64)].
Definition unicode (s : text) : Prop := exists l, Forall scalar l /\ s = flat_map utf8_of l.

(** Bit by bit. *)
Definition xor_byte (a b : ascii) : ascii :=
  match a, b with
  | Ascii a0 a1 a2 a3 a4 a5 a6 a7, Ascii b0 b1 b2 b3 b4 b5 b6 b7 =>
      Ascii (xorb a0 b0) (xorb a1 b1) (xorb a2 b2) (xorb a3 b3) (xorb a4 b4) (xorb a5 b5) (xorb a6 b6) (xorb a7 b7)
  end.
Definition xor_text (a b : text) : text := map (fun x => xor_byte (fst x) (snd x)) (combine a b).
