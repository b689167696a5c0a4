(** The password file and the password check.  Models auth.rs:15-236 and the
    insert-password / remove-password commands (akasa/src/main.rs:135-191).

    [DashMap] is an association list; the order of its iteration is the order of the
    list.  The digests of the crate ring are parameters: [sha256] and [sha512] of the
    concatenated input, and [pbkdf2 alg iterations salt password len] ([pbkdf2::derive]
    into a buffer of that length).  [pbkdf2::verify] derives as many bytes as the
    stored hash has and compares; an empty stored hash is refused. *)
From Coq Require Import List Bool Arith NArith Ascii String.
From Verif Require Import Base TextModel.
Import ListNotations.
Local Open Scope char_scope.

(** state.rs [HashAlgorithm]; iterations are non-zero ([NonZeroU32]). *)
Inductive halg := Sha256 | Sha512 | Sha256Pk (iterations : N) | Sha512Pk (iterations : N).
(** state.rs [AuthPassword] *)
Record entry := Entry { en_alg : halg; en_hash : text; en_salt : text }.
Definition table := list (text * entry).

(** auth.rs:13 *)
Definition min_salt : nat := 12.

(** auth.rs:21-43 *)
Definition parse_iterations (s : text) : option N :=
  match parse_u32 s with Some n => if (n =? 0)%N then None else Some n | None => None end.
(** auth.rs:44-59 *)
Definition parse_salt (s : text) : option text :=
  match b64_decode false s with
  | Some b => if Nat.ltb (List.length b) min_salt then None else Some b
  | None => None
  end.

(** auth.rs:72-122: one line that is not blank; [None] is InvalidData. *)
Definition parse_line (line : text) : option (text * entry) :=
  match rsplit_once ":" line with
  | None => None
  | Some (user, password) =>
      match split "," password with
      | p0 :: p1 :: p2 :: rest =>
          let plain alg :=
            match rest with
            | [] => match parse_salt p1, b64_decode false p2 with
                    | Some salt, Some h => Some (user, Entry alg h salt)
                    | _, _ => None
                    end
            | _ => None
            end in
          let iterated (alg : N -> halg) :=
            match parse_iterations p1 with
            | None => None
            | Some n =>
                match rest with
                | [p3] => match parse_salt p2, b64_decode false p3 with
                          | Some salt, Some h => Some (user, Entry (alg n) h salt)
                          | _, _ => None
                          end
                | _ => None
                end
            end in
          if text_eqb p0 (lit "sha256") then plain Sha256
          else if text_eqb p0 (lit "sha512") then plain Sha512
          else if text_eqb p0 (lit "sha256-pkbdf2") then iterated Sha256Pk
          else if text_eqb p0 (lit "sha512-pkbdf2") then iterated Sha512Pk
          else None
      | _ => None
      end
  end.

(** auth.rs:15-131 [load_passwords]; [None] is an error. *)
Fixpoint load_lines (ls : list text) (t : table) : option table :=
  match ls with
  | [] => Some t
  | line :: r =>
      if negb (utf8 line) then None
      else
        match trim line with
        | [] => load_lines r t
        | s => match parse_line s with
               | None => None
               | Some (user, e) => load_lines r (aset user e t)
               end
        end
  end.
Definition load_passwords (file : text) : option table := load_lines (lines file) [].

(** auth.rs:133-167 [dump_passwords] *)
Definition dump_line (user : text) (e : entry) : text :=
  (user ++ ":" ::
   match en_alg e with
   | Sha256 => lit "sha256,"
   | Sha512 => lit "sha512,"
   | Sha256Pk n => lit "sha256-pkbdf2," ++ show n ++ [","]
   | Sha512Pk n => lit "sha512-pkbdf2," ++ show n ++ [","]
   end ++ b64_encode false (en_salt e) ++ "," :: b64_encode false (en_hash e))%list.
Definition dump_passwords (t : table) : text :=
  flat_map (fun x => dump_line (fst x) (snd x) ++ ["010"])%list t.

Section Hash.
  Variable sha256 sha512 : text -> text.
  Variable pbkdf2 : bool -> N -> text -> text -> nat -> text.   (* false: HMAC-SHA-256, true: HMAC-SHA-512 *)

  (** auth.rs:208-236 [hash_password] *)
  Definition hash_password (alg : halg) (salt password : text) : text :=
    match alg with
    | Sha256 => sha256 (password ++ salt)%list
    | Sha512 => sha512 (password ++ salt)%list
    | Sha256Pk n => pbkdf2 false n salt password 32
    | Sha512Pk n => pbkdf2 true n salt password 64
    end.

  (** ring [pbkdf2::verify] *)
  Definition verify (alg : bool) (n : N) (salt password stored : text) : bool :=
    match stored with [] => false | _ => text_eqb (pbkdf2 alg n salt password (List.length stored)) stored end.

  (** auth.rs:169-206 [check_password] *)
  Definition check_password (t : table) (user password : text) : bool :=
    match aget user t with
    | None => false
    | Some e =>
        match en_alg e with
        | Sha256 => text_eqb (sha256 (password ++ en_salt e)%list) (en_hash e)
        | Sha512 => text_eqb (sha512 (password ++ en_salt e)%list) (en_hash e)
        | Sha256Pk n => verify false n (en_salt e) password (en_hash e)
        | Sha512Pk n => verify true n (en_salt e) password (en_hash e)
        end
    end.

  (** main.rs:135-182: [salt] is random, of length MIN_SALT_LEN; [None] for the file:
      create a new one.  Result: the new contents of the file. *)
  Definition insert_password (file : option text) (alg : halg) (salt user password : text) : option text :=
    match (match file with None => Some [] | Some f => load_passwords f end) with
    | None => None
    | Some t => Some (dump_passwords (aset user (Entry alg (hash_password alg salt password) salt) t))
    end.
  (** main.rs:183-191 *)
  Definition remove_password (file user : text) : option text :=
    match load_passwords file with
    | None => None
    | Some t => match aget user t with
                | Some _ => Some (dump_passwords (adel user t))
                | None => Some file
                end
    end.
End Hash.

(** main.rs:179-181, 186-188: [File::create] empties the file; [dump_passwords] then writes
    the new text from its beginning, through a [BufWriter].  If the command is stopped
    (crash, full disk) the file holds the old text or a beginning of the new one.
    Simplified: the text may end at any byte, not only where the buffer was written. *)
Definition interrupted (old new c : text) : Prop := c = old \/ exists k, c = firstn k new.
