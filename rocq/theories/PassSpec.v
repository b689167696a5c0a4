(** What the password file means, independently of how it is parsed. *)
From Coq Require Import List Bool Arith NArith Ascii String.
From Verif Require Import Base TextModel TextSpec PassModel.
Import ListNotations.
Local Open Scope char_scope.

(** Sequences of white space; text that starts or ends with white space. *)
Definition white (s : text) : Prop := exists l, Forall (fun p => In p spaces) l /\ s = List.concat l.
Definition starts_white (s : text) : Prop := exists p t, In p spaces /\ s = (p ++ t)%list.
Definition ends_white (s : text) : Prop := exists p t, In p spaces /\ s = (t ++ p)%list.
(** [s] is what is left of a line without the white space around it. *)
Definition content (line s : text) : Prop :=
  exists a b, white a /\ white b /\ line = (a ++ s ++ b)%list /\ ~ starts_white s /\ ~ ends_white s.

(** A number in decimal, perhaps with a plus sign and leading zeros. *)
Definition numeral (s : text) (n : N) : Prop :=
  exists k, s = (repeat "0" k ++ show n)%list \/ s = ("+" :: repeat "0" k ++ show n)%list.

(** The well-formed lines, with the user and the entry they stand for. *)
Inductive well_formed : text -> text -> entry -> Prop :=
| wf_plain alg name user salt h :
    In (alg, name) [(Sha256, lit "sha256"); (Sha512, lit "sha512")] -> (min_salt <= List.length salt)%nat ->
    well_formed (user ++ ":" :: name ++ "," :: b64_encode false salt ++ "," :: b64_encode false h)%list user (Entry alg h salt)
| wf_iterated alg name user salt h it n :
    In (alg, name) [(Sha256Pk, lit "sha256-pkbdf2"); (Sha512Pk, lit "sha512-pkbdf2")] -> (min_salt <= List.length salt)%nat ->
    numeral it n -> (0 < n <= 4294967295)%N ->
    well_formed (user ++ ":" :: name ++ "," :: it ++ "," :: b64_encode false salt ++ "," :: b64_encode false h)%list user (Entry (alg n) h salt).

(** A user name that survives being written to the file: text without a line feed and
    without white space in front. *)
Definition storable_user (u : text) : Prop := unicode u /\ ~ In "010" u /\ ~ starts_white u.
(** Entries as the server makes them: long enough salt, [NonZeroU32] iterations. *)
Definition storable_entry (e : entry) : Prop :=
  (min_salt <= List.length (en_salt e))%nat /\
  match en_alg e with Sha256Pk n | Sha512Pk n => (0 < n <= 4294967295)%N | _ => True end.
Definition storable (t : table) : Prop :=
  NoDup (keys t) /\ Forall (fun x => storable_user (fst x) /\ storable_entry (snd x)) t.

Section Check.
  Variable sha256 sha512 : text -> text.
  Variable pbkdf2 : bool -> N -> text -> text -> nat -> text.
  (** The stored hash is the hash of this password: for PBKDF2, as many bytes of it as
      are stored, and at least one. *)
  Definition right_password (e : entry) (password : text) : Prop :=
    match en_alg e with
    | Sha256 => en_hash e = sha256 (password ++ en_salt e)%list
    | Sha512 => en_hash e = sha512 (password ++ en_salt e)%list
    | Sha256Pk n => en_hash e <> [] /\ en_hash e = pbkdf2 false n (en_salt e) password (List.length (en_hash e))
    | Sha512Pk n => en_hash e <> [] /\ en_hash e = pbkdf2 true n (en_salt e) password (List.length (en_hash e))
    end.
End Check.

(** The same entry, perhaps with the end of the hash missing. *)
Definition shortened (e' e : entry) : Prop :=
  en_alg e' = en_alg e /\ en_salt e' = en_salt e /\ exists r, en_hash e = (en_hash e' ++ r)%list.
(** No user name contains a colon. *)
Definition colon_free (t : table) : Prop := forall u, In u (keys t) -> ~ In ":" u.
