(** Bytes, UTF-8 text and base64: the operations of the Rust standard library and of
    the crate base64 used by auth.rs and scram.  A byte is an [ascii], a [&str] the
    list of its bytes. *)
From Coq Require Import List Bool Arith NArith Ascii String.
From Verif Require Import Base.
Import ListNotations.
Local Open Scope char_scope.

Definition text := list ascii.
Notation lit := list_ascii_of_string.
Definition code (a : ascii) : N := N_of_ascii a.
Definition byte (n : N) : ascii := ascii_of_N n.

Fixpoint text_eqb (a b : text) : bool :=
  match a, b with
  | [], [] => true
  | x :: a', y :: b' => Ascii.eqb x y && text_eqb a' b'
  | _, _ => false
  end.

Lemma text_eqb_spec a b : reflect (a = b) (text_eqb a b).
Proof.
  revert b. induction a as [|x a IH]; intros [|y b]; cbn; try (constructor; congruence).
  destruct (Ascii.eqb_spec x y) as [->|D]; cbn; [|constructor; congruence].
  destruct (IH b) as [->|D]; constructor; congruence.
Qed.
#[global] Instance Eqb_text : Eqb text := { eqb := text_eqb; eqb_spec := text_eqb_spec }.

(** str::starts_with: what follows the prefix. *)
Fixpoint after_prefix (p s : text) : option text :=
  match p, s with
  | [], _ => Some s
  | x :: p', y :: s' => if Ascii.eqb x y then after_prefix p' s' else None
  | _, _ => None
  end.

(** str::split with a one-byte separator. *)
Fixpoint split (c : ascii) (s : text) : list text :=
  match s with
  | [] => [[]]
  | x :: r =>
      if Ascii.eqb x c then [] :: split c r
      else match split c r with
           | h :: t => (x :: h) :: t
           | [] => [[x]]
           end
  end.

(** str::split_once at the first separator, and rsplit_once at the last. *)
Fixpoint split_once (c : ascii) (s : text) : option (text * text) :=
  match s with
  | [] => None
  | x :: r => if Ascii.eqb x c then Some ([], r)
              else match split_once c r with Some (a, b) => Some (x :: a, b) | None => None end
  end.
Definition rsplit_once (c : ascii) (s : text) : option (text * text) :=
  match split_once c (rev s) with Some (a, b) => Some (rev b, rev a) | None => None end.

(** BufRead::lines: the pieces between line feeds; nothing after the last one.  The
    carriage return before a line feed is left in place (every line is trimmed). *)
Fixpoint lines (s : text) : list text :=
  match s with
  | [] => []
  | x :: r =>
      if Ascii.eqb x "010" then [] :: lines r
      else match lines r with
           | h :: t => (x :: h) :: t
           | [] => [[x]]
           end
  end.
(** [lines] joins the first piece with what follows: a line feed directly after [x]
    gives the piece [x]. *)

(** Unicode White_Space in UTF-8 (char::is_whitespace, used by str::trim). *)
Definition bs (l : list N) : text := map byte l.
Definition spaces : list text := map bs
  [[9]; [10]; [11]; [12]; [13]; [32]; [0xC2; 0x85]; [0xC2; 0xA0]; [0xE1; 0x9A; 0x80];
   [0xE2; 0x80; 0x80]; [0xE2; 0x80; 0x81]; [0xE2; 0x80; 0x82]; [0xE2; 0x80; 0x83]; [0xE2; 0x80; 0x84];
   [0xE2; 0x80; 0x85]; [0xE2; 0x80; 0x86]; [0xE2; 0x80; 0x87]; [0xE2; 0x80; 0x88]; [0xE2; 0x80; 0x89];
   [0xE2; 0x80; 0x8A]; [0xE2; 0x80; 0xA8]; [0xE2; 0x80; 0xA9]; [0xE2; 0x80; 0xAF]; [0xE2; 0x81; 0x9F];
   [0xE3; 0x80; 0x80]]%N.
Fixpoint first_of (ps : list text) (s : text) : option text :=
  match ps with
  | [] => None
  | p :: r => match after_prefix p s with Some t => Some t | None => first_of r s end
  end.
Fixpoint strip (fuel : nat) (ps : list text) (s : text) : text :=
  match fuel with
  | O => s
  | S f => match first_of ps s with Some t => strip f ps t | None => s end
  end.
Definition trim_start (s : text) : text := strip (List.length s) spaces s.
Definition trim_end (s : text) : text := rev (strip (List.length s) (map (@rev ascii) spaces) (rev s)).
(** str::trim *)
Definition trim (s : text) : text := trim_end (trim_start s).

(** str::from_utf8: well-formed UTF-8 (Unicode table 3-7). *)
Definition between (lo hi : N) (b : ascii) : bool := ((lo <=? code b) && (code b <=? hi))%N.
Definition cont (b : ascii) : bool := between 0x80 0xBF b.
Fixpoint utf8 (s : text) : bool :=
  match s with
  | [] => true
  | a :: r =>
      if (code a <? 0x80)%N then utf8 r
      else
        match r with
        | b :: r1 =>
            if between 0xC2 0xDF a then cont b && utf8 r1
            else
              match r1 with
              | c :: r2 =>
                  if between 0xE0 0xEF a then
                    (if (code a =? 0xE0)%N then between 0xA0 0xBF b
                     else if (code a =? 0xED)%N then between 0x80 0x9F b else cont b) && cont c && utf8 r2
                  else
                    match r2 with
                    | d :: r3 =>
                        if between 0xF0 0xF4 a then
                          (if (code a =? 0xF0)%N then between 0x90 0xBF b
                           else if (code a =? 0xF4)%N then between 0x80 0x8F b else cont b) && cont c && cont d && utf8 r3
                        else false
                    | [] => false
                    end
              | [] => false
              end
        | [] => false
        end
  end.

(** u32/u16 Display and [str::parse::<u32>]: an optional plus sign and digits, without
    overflow. *)
Definition digit (n : N) : ascii := byte (48 + n).
Fixpoint show_fuel (fuel : nat) (n : N) (acc : text) : text :=
  match fuel with
  | O => acc
  | S f => let acc' := digit (n mod 10) :: acc in if (n / 10 =? 0)%N then acc' else show_fuel f (n / 10)%N acc'
  end.
Definition show (n : N) : text := show_fuel (S (N.to_nat (N.size n))) n [].
Definition digit_val (a : ascii) : option N := if between 48 57 a then Some (code a - 48)%N else None.
Fixpoint digits (bound : N) (acc : N) (s : text) : option N :=
  match s with
  | [] => Some acc
  | a :: r =>
      match digit_val a with
      | None => None
      | Some d => let v := (acc * 10 + d)%N in if (bound <? v)%N then None else digits bound v r
      end
  end.
Definition parse_u32 (s : text) : option N :=
  match (match s with "+" :: r => r | _ => s end) with
  | [] => None
  | d => digits 4294967295 0 d
  end.

(** ** Base64 (crate base64, engine general_purpose, standard alphabet) *)
Definition b64_char (n : N) : ascii :=
  (if n <? 26 then byte (65 + n) else if n <? 52 then byte (97 + (n - 26))
   else if n <? 62 then byte (48 + (n - 52)) else if n =? 62 then "+"%char else "/"%char)%N.
Definition b64_val (a : ascii) : option N :=
  (if between 65 90 a then Some (code a - 65) else if between 97 122 a then Some (code a - 97 + 26)
   else if between 48 57 a then Some (code a - 48 + 52)
   else if Ascii.eqb a "+" then Some 62 else if Ascii.eqb a "/" then Some 63 else None)%N.

(** [pad]: STANDARD pads with '=', STANDARD_NO_PAD does not. *)
Fixpoint b64_encode (pad : bool) (s : text) : text :=
  match s with
  | a :: b :: c :: r =>
      b64_char (code a / 4) :: b64_char (code a mod 4 * 16 + code b / 16)
        :: b64_char (code b mod 16 * 4 + code c / 64) :: b64_char (code c mod 64) :: b64_encode pad r
  | [a; b] =>
      b64_char (code a / 4) :: b64_char (code a mod 4 * 16 + code b / 16)
        :: b64_char (code b mod 16 * 4) :: if pad then ["="] else []
  | [a] => b64_char (code a / 4) :: b64_char (code a mod 4 * 16) :: if pad then ["="; "="] else []
  | [] => []
  end%N.

(** Decoding: canonical padding required (STANDARD) or no padding allowed
    (STANDARD_NO_PAD); unused bits of the last symbol must be zero. *)
Definition last1 (w x : ascii) : option text :=
  match b64_val w, b64_val x with
  | Some w, Some x => if (x mod 16 =? 0)%N then Some [byte (w * 4 + x / 16)] else None
  | _, _ => None
  end.
Definition last2 (w x y : ascii) : option text :=
  match b64_val w, b64_val x, b64_val y with
  | Some w, Some x, Some y =>
      if (y mod 4 =? 0)%N then Some [byte (w * 4 + x / 16); byte (x mod 16 * 16 + y / 4)] else None
  | _, _, _ => None
  end.
Fixpoint b64_decode (pad : bool) (s : text) : option text :=
  match s with
  | [] => Some []
  | w :: x :: y :: z :: r =>
      match b64_val w, b64_val x, b64_val y, b64_val z with
      | Some w, Some x, Some y, Some z =>
          match b64_decode pad r with
          | Some t => Some (byte (w * 4 + x / 16) :: byte (x mod 16 * 16 + y / 4) :: byte (y mod 4 * 64 + z) :: t)
          | None => None
          end
      | _, _, _, _ =>
          if pad then
            match r with
            | [] => if Ascii.eqb z "=" then if Ascii.eqb y "=" then last1 w x else last2 w x y else None
            | _ => None
            end
          else None
      end
  | [w; x; y] => if pad then None else last2 w x y
  | [w; x] => if pad then None else last1 w x
  | [_] => None
  end%N.
