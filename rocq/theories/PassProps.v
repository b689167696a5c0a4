(** Properties C38 and C39: the password file and the password check. *)
From Coq Require Import List Bool Arith NArith Ascii String Lia.
From Verif Require Import Base BaseLemmas GlobModel ConnModel TextModel TextSpec TextProofs Utf8Proofs PassModel PassSpec PassProofs PassLast.
Import ListNotations.
Local Open Scope char_scope.

(** * C38: the file round-trips.
    [storable] excludes user names that begin with white space or contain a line feed,
    for which the claim is false (below). *)
Theorem C38_round_trip_partial : forall t, storable t -> load_passwords (dump_passwords t) = Some t.
Proof. exact round_trip. Qed.
Print Assumptions C38_round_trip_partial.

Example C38_round_trip_case : storable ex_table /\
  dump_passwords ex_table = lit "ann:sha512,YWJjZGVmZ2hpamts,aDE
b:c d:sha256-pkbdf2,1000,YWJjZGVmZ2hpamts,aDI
".
Proof. split; [exact ex_table_storable|vm_compute; reflexivity]. Qed.

(** Every table that was read from a file can be written and read back. *)
Theorem C38_loaded_tables_round_trip : forall file t, load_passwords file = Some t -> storable t /\ load_passwords (dump_passwords t) = Some t.
Proof. intros f t H. split; [exact (load_storable f t H)|exact (round_trip t (load_storable f t H))]. Qed.
Print Assumptions C38_loaded_tables_round_trip.

(** A file is accepted exactly if every line is valid text that is blank or well-formed. *)
Theorem C38_accepted_files : forall file, (exists t, load_passwords file = Some t) <->
  forall line, In line (lines file) -> unicode line /\ (trim line = [] \/ exists user e, well_formed (trim line) user e).
Proof. exact load_accepts. Qed.
Print Assumptions C38_accepted_files.

(** The entry of a user is that of the last line with this name. *)
Theorem C38_loaded_entries : forall file t, load_passwords file = Some t -> forall user e, aget user t = Some e <->
  exists before line after, lines file = (before ++ line :: after)%list /\ well_formed (trim line) user e /\
    (forall l e', In l after -> ~ well_formed (trim l) user e').
Proof. exact load_entry. Qed.
Print Assumptions C38_loaded_entries.

(** [trim] takes off the white space around a line and nothing else. *)
Theorem C38_trim : forall line, content line (trim line).
Proof. exact content_trim. Qed.
Print Assumptions C38_trim.

Example C38_accepted_case : exists t, load_passwords (lit "  ann:sha512,YWJjZGVmZ2hpamts,aDE 

ann:sha256-pkbdf2,+0010,YWJjZGVmZ2hpamts,aDI
") = Some t /\ aget (lit "ann") t = Some (Entry (Sha256Pk 10) (lit "h2") ex_salt).
Proof. eexists. split; vm_compute; reflexivity. Qed.
(** malformed lines: padding, short salt, zero iterations, extra field, missing field, unknown algorithm, iterations too large *)
Example C38_rejected_cases : Forall (fun f => load_passwords (lit f) = None)
  ["ann:sha512,YWJjZGVmZ2hpamts,aDE="; "ann:sha512,YWJjZGVmZ2hpag,aDE"; "ann:sha256-pkbdf2,0,YWJjZGVmZ2hpamts,aDI";
   "ann:sha512,YWJjZGVmZ2hpamts,aDE,aDE"; "ann:sha512,YWJjZGVmZ2hpamts"; "ann:md5,YWJjZGVmZ2hpamts,aDE";
   "ann:sha256-pkbdf2,4294967296,YWJjZGVmZ2hpamts,aDI"; "ann"]%string.
Proof. repeat constructor. Qed.

(** ** The full claim is false: these tables, made by insert-password, do not come back. *)
Theorem C38_leading_space_refuted : exists t user, NoDup (keys t) /\
  Forall (fun x => unicode (fst x) /\ storable_entry (snd x)) t /\
  exists t', load_passwords (dump_passwords t) = Some t' /\ aget user t' <> aget user t /\ aget user t <> None /\ aget user t' <> None.
Proof.
  exists [(lit "ann", ex_e1); (lit " ann", ex_e2)], (lit "ann"). split; [repeat constructor; cbn; intuition discriminate|].
  split; [apply Forall_cons; [split; [now apply utf8_iff|exact ex_e1_ok]|apply Forall_cons; [split; [now apply utf8_iff|exact ex_e2_ok]|apply Forall_nil]]|]. eexists. split; [vm_compute; reflexivity|]. split; [vm_compute; discriminate|]. split; vm_compute; discriminate.
Qed.
Print Assumptions C38_leading_space_refuted.

Theorem C38_line_feed_refuted : exists t, NoDup (keys t) /\
  Forall (fun x => unicode (fst x) /\ storable_entry (snd x)) t /\ load_passwords (dump_passwords t) = None.
Proof.
  exists [(lit "a
b", ex_e1)]. split; [repeat constructor; cbn; intuition discriminate|]. split; [apply Forall_cons; [split; [now apply utf8_iff|exact ex_e1_ok]|apply Forall_nil]|]. vm_compute. reflexivity.
Qed.
Print Assumptions C38_line_feed_refuted.

(** * C39: the password check.
    A password is accepted exactly for a user in the table whose stored hash is the
    hash of that password ([right_password]).  Partial: for PBKDF2 entries only as many
    bytes are compared as are stored, so that a shortened stored hash, which the file
    parser accepts, weakens the check (refutation below). *)
Theorem C39_accepted_exactly_partial : forall sha256 sha512 pbkdf2 t user password,
  check_password sha256 sha512 pbkdf2 t user password = true <->
  exists e, aget user t = Some e /\ right_password sha256 sha512 pbkdf2 e password.
Proof. exact check_iff. Qed.
Print Assumptions C39_accepted_exactly_partial.

(** After insert-password and a reload, the user is accepted with exactly that
    password's hash, and nobody else is affected. *)
Theorem C39_inserted_accepted : forall sha256 sha512 pbkdf2, (forall a n s p len, List.length (pbkdf2 a n s p len) = len) ->
  forall file t alg salt user password,
  match file with None => t = [] | Some f => load_passwords f = Some t end -> storable_user user -> storable_entry (Entry alg [] salt) ->
  exists file' t', insert_password sha256 sha512 pbkdf2 file alg salt user password = Some file' /\ load_passwords file' = Some t' /\
    check_password sha256 sha512 pbkdf2 t' user password = true /\
    (forall password', check_password sha256 sha512 pbkdf2 t' user password' = true <->
       hash_password sha256 sha512 pbkdf2 alg salt password' = hash_password sha256 sha512 pbkdf2 alg salt password) /\
    (forall other password', other <> user -> check_password sha256 sha512 pbkdf2 t' other password' = check_password sha256 sha512 pbkdf2 t other password').
Proof.
  intros sha256 sha512 pbkdf2 LEN file t alg salt user password HT SU SE.
  destruct (insert_spec sha256 sha512 pbkdf2 file t alg salt user password HT SU SE) as (f' & t' & A & B & C & D).
  exists f', t'. split; [exact A|]. split; [exact B|].
  assert (X : forall q, check_password sha256 sha512 pbkdf2 t' user q = true <-> hash_password sha256 sha512 pbkdf2 alg salt q = hash_password sha256 sha512 pbkdf2 alg salt password).
  { intros q. rewrite check_iff, C. unfold right_password. split.
    - intros (e & E & R). injection E as <-. destruct alg as [| |n|n]; cbn [en_alg en_hash en_salt hash_password] in *; try (now symmetry); destruct R as (_ & R); rewrite LEN in R; now symmetry.
    - intros E. eexists. split; [reflexivity|]. destruct alg as [| |n|n]; cbn [en_alg en_hash en_salt hash_password] in *; try (now symmetry); rewrite LEN; (split; [|now symmetry]);
        intros K; apply (f_equal (@List.length ascii)) in K; rewrite LEN in K; discriminate. }
  split; [now apply X|]. split; [exact X|]. intros o q NE. unfold check_password. now rewrite D.
Qed.
Print Assumptions C39_inserted_accepted.

Theorem C39_removed_refused : forall sha256 sha512 pbkdf2 file t user, load_passwords file = Some t ->
  exists file' t', remove_password file user = Some file' /\ load_passwords file' = Some t' /\
    (forall password, check_password sha256 sha512 pbkdf2 t' user password = false) /\
    (forall other password, other <> user -> check_password sha256 sha512 pbkdf2 t' other password = check_password sha256 sha512 pbkdf2 t other password).
Proof.
  intros sha256 sha512 pbkdf2 file t user H. destruct (remove_spec file t user H) as (f' & t' & A & B & C & D). exists f', t'. split; [exact A|]. split; [exact B|]. split.
  - intros p. unfold check_password. now rewrite C.
  - intros o p NE. unfold check_password. now rewrite D.
Qed.
Print Assumptions C39_removed_refused.

Example C39_inserted_case :
  match insert_password toy toy toy_pbkdf2 (Some (dump_passwords ex_table)) (Sha512Pk 100000) ex_salt (lit "eve") (lit "secret") with
  | Some f => match load_passwords f with
              | Some t => check_password toy toy toy_pbkdf2 t (lit "eve") (lit "secret") = true /\
                          check_password toy toy toy_pbkdf2 t (lit "eve") (lit "wrong") = false /\
                          check_password toy toy toy_pbkdf2 t (lit "bob") (lit "secret") = false /\ keys t = [lit "ann"; lit "b:c d"; lit "eve"]
              | None => False
              end
  | None => False
  end /\ storable_user (lit "eve") /\ storable_entry (Entry (Sha512Pk 100000) [] ex_salt) /\ (forall a n s p len, List.length (toy_pbkdf2 a n s p len) = len).
Proof.
  split; [vm_compute; repeat split|]. split; [eapply ex_user; vm_compute; reflexivity|]. split; [split; [vm_compute; lia|vm_compute; split; [reflexivity|discriminate]]|]. exact toy_length.
Qed.

(** Without a user name, without a password, for an unknown user or with a wrong
    password CONNECT is refused. *)
Theorem C39_connect5_refused : forall M first u8 sha256 sha512 pbkdf2 t c a uuid now p, ac_enable a = true ->
  ~ (exists u q e, co_user p = Some u /\ co_pass p = Some q /\ aget (lit u) t = Some e /\ right_password sha256 sha512 pbkdf2 e (lit q)) ->
  exists k, handle_connect5 M (pw sha256 sha512 pbkdf2 t) first u8 c a uuid now p = PRefuse M k /\ ka_code k = RC_bad_user_or_password /\ ka_present k = false.
Proof. exact refused5. Qed.
Print Assumptions C39_connect5_refused.

Theorem C39_connect3_refused : forall sha256 sha512 pbkdf2 t c a uuid now p, ac_enable a = true ->
  ~ (exists u q e, c3_user p = Some u /\ c3_pass p = Some q /\ aget (lit u) t = Some e /\ right_password sha256 sha512 pbkdf2 e (lit q)) ->
  exists code, handle_connect3 (pw sha256 sha512 pbkdf2 t) c a uuid now p = PRefuse3 (Connack3 false code) /\ (code = 2 \/ code = 4)%N.
Proof. exact refused3. Qed.
Print Assumptions C39_connect3_refused.

(** With the right password CONNECT is never refused as a bad user name or password. *)
Theorem C39_connect5_accepted : forall M first u8 sha256 sha512 pbkdf2 t c a uuid now p u q e,
  co_user p = Some u -> co_pass p = Some q -> aget (lit u) t = Some e -> right_password sha256 sha512 pbkdf2 e (lit q) ->
  forall k, handle_connect5 M (pw sha256 sha512 pbkdf2 t) first u8 c a uuid now p = PRefuse M k -> ka_code k <> RC_bad_user_or_password.
Proof. exact not_refused5. Qed.
Print Assumptions C39_connect5_accepted.

(** ** Only part of the hash is compared if only part is stored. *)
Theorem C39_short_hash_refuted : exists pbkdf2,
  (forall a n s p len, List.length (pbkdf2 a n s p len) = len) /\
  (forall a n s p k len, (k <= len)%nat -> firstn k (pbkdf2 a n s p len) = pbkdf2 a n s p k) /\
  exists file t user e right wrong, load_passwords file = Some t /\ aget user t = Some e /\
    en_hash e <> hash_password toy toy pbkdf2 (en_alg e) (en_salt e) wrong /\
    hash_password toy toy pbkdf2 (en_alg e) (en_salt e) wrong <> hash_password toy toy pbkdf2 (en_alg e) (en_salt e) right /\
    check_password toy toy pbkdf2 t user right = true /\ check_password toy toy pbkdf2 t user wrong = true.
Proof.
  exists toy_pbkdf2. split; [exact toy_length|]. split; [exact toy_prefix|].
  exists (lit "ann:sha512-pkbdf2,9,YWJjZGVmZ2hpamts,cw"). eexists _, (lit "ann"), (Entry (Sha512Pk 9) (lit "s") ex_salt), (lit "secret"), (lit "silly").
  split; [vm_compute; reflexivity|]. split; [vm_compute; reflexivity|]. split; [vm_compute; discriminate|]. split; [vm_compute; discriminate|]. split; vm_compute; reflexivity.
Qed.
Print Assumptions C39_short_hash_refuted.

Example C39_connect_case : exists k,
  handle_connect5 unit (pw toy toy toy_pbkdf2 ex_table) (fun _ => None) (fun _ => true) config_default (AuthCfg true [] true) "u" 0 (ex_connect5 None (Some "x"%string)) = PRefuse unit k.
Proof. eexists. vm_compute. reflexivity. Qed.
