(** C56: an interrupted insert-password or remove-password. *)
From Coq Require Import List Bool Arith NArith Ascii String Lia.
From Verif Require Import Base BaseLemmas GlobModel ConnModel TextModel TextSpec TextProofs Utf8Proofs PassModel PassSpec PassProofs PassLast CrashProofs.
Import ListNotations.
Local Open Scope char_scope.

(** insert-password is stopped at any moment and what is then in the file is loaded (in the
    simplest case because the server is started).  Every entry belongs to a user who was
    there before or is the one inserted; it is an entry as it was, or the beginning of one:
    same algorithm, same salt, and the hash perhaps cut short.  Without a file the command
    starts from nothing.  Missing: user names with a colon (see the refutation below). *)
Theorem C56_insert_interrupted_partial : forall sha256 sha512 pbkdf2 file t alg salt user password new c t',
  match file with None => t = [] | Some f => load_passwords f = Some t end -> storable_user user -> storable_entry (Entry alg [] salt) ->
  colon_free t -> ~ In ":" user ->
  insert_password sha256 sha512 pbkdf2 file alg salt user password = Some new ->
  interrupted (match file with Some f => f | None => [] end) new c -> load_passwords c = Some t' ->
  forall v e', aget v t' = Some e' ->
    (exists e, aget v t = Some e /\ (e' = e \/ v <> user /\ shortened e' e)) \/
    v = user /\ shortened e' (Entry alg (hash_password sha256 sha512 pbkdf2 alg salt password) salt).
Proof. exact insert_cut. Qed.
Print Assumptions C56_insert_interrupted_partial.

Theorem C56_remove_interrupted_partial : forall file t user e0 new c t',
  load_passwords file = Some t -> colon_free t -> aget user t = Some e0 ->
  remove_password file user = Some new -> interrupted file new c -> load_passwords c = Some t' ->
  forall v e', aget v t' = Some e' -> exists e, aget v t = Some e /\ (e' = e \/ v <> user /\ shortened e' e).
Proof. exact remove_cut. Qed.
Print Assumptions C56_remove_interrupted_partial.

(** So for SHA-256 and SHA-512 hashes no interruption lets in a password that the whole entry
    would not: the cut entry accepts nothing unless it is whole. *)
Theorem C56_plain_hash_safe : forall sha256 sha512 pbkdf2 e' e password, (forall s, List.length (sha256 s) = 32) -> (forall s, List.length (sha512 s) = 64) ->
  match en_alg e with Sha256 => List.length (en_hash e) = 32 | Sha512 => List.length (en_hash e) = 64 | _ => False end ->
  shortened e' e -> right_password sha256 sha512 pbkdf2 e' password -> e' = e.
Proof. exact plain_whole. Qed.
Print Assumptions C56_plain_hash_safe.

(** Example: ann is in the file, bob is inserted; the write stops within bob's line, and only
    part of bob's hash is stored. *)
Definition k_old : table := [(lit "ann", ex_e1)].
Definition k_new (pw : text) := insert_password toy toy toy_pbkdf2 (Some (dump_passwords k_old)) (Sha256Pk 1000) ex_salt (lit "bob") pw.
Definition k_cut (pw : text) : text := match k_new pw with Some f => firstn (List.length f - 40) f | None => [] end.
Example C56_insert_case : load_passwords (dump_passwords k_old) = Some k_old /\ storable_user (lit "bob") /\ storable_entry (Entry (Sha256Pk 1000) [] ex_salt) /\
  colon_free k_old /\ (exists new, k_new (lit "secret") = Some new /\ interrupted (dump_passwords k_old) new (k_cut (lit "secret"))) /\
  load_passwords (k_cut (lit "secret")) = Some [(lit "ann", ex_e1); (lit "bob", Entry (Sha256Pk 1000) (lit "sec") ex_salt)].
Proof.
  split; [vm_compute; reflexivity|]. split; [eapply ex_user; vm_compute; reflexivity|]. split; [split; [vm_compute; lia|vm_compute; split; [reflexivity|discriminate]]|].
  split; [intros u [<-|[]]; cbn; intuition discriminate|]. split; [|vm_compute; reflexivity].
  eexists. split; [vm_compute; reflexivity|]. right. exists (List.length (k_cut (lit "secret"))). vm_compute. reflexivity.
Qed.

(** With PBKDF2 a shortened hash is checked on the bytes that are left: here a wrong password
    is accepted (for the example digest; for the real one a match on the three bytes left needs
    about 2^24 attempts). *)
Theorem C56_weak_hash_refuted : exists t' wrong, load_passwords (k_cut (lit "secret")) = Some t' /\ wrong <> lit "secret" /\
  check_password toy toy toy_pbkdf2 t' (lit "bob") wrong = true /\
  check_password toy toy toy_pbkdf2 [(lit "bob", Entry (Sha256Pk 1000) (hash_password toy toy toy_pbkdf2 (Sha256Pk 1000) ex_salt (lit "secret")) ex_salt)] (lit "bob") wrong = false.
Proof. eexists _, (lit "section"). split; [vm_compute; reflexivity|]. split; [discriminate|]. split; vm_compute; reflexivity. Qed.
Print Assumptions C56_weak_hash_refuted.

(** The change is not all or nothing: ann was in the file before and would be after, but is
    gone if the command stops once the file is emptied. *)
Theorem C56_atomic_refuted : exists new c, k_new (lit "secret") = Some new /\ interrupted (dump_passwords k_old) new c /\ load_passwords c = Some [] /\
  (exists t, load_passwords new = Some t /\ aget (lit "ann") t = Some ex_e1) /\ aget (lit "ann") k_old = Some ex_e1.
Proof.
  eexists _, []. split; [vm_compute; reflexivity|]. split; [right; exists 0; reflexivity|]. split; [reflexivity|].
  split; [eexists; split; vm_compute; reflexivity|reflexivity].
Qed.
Print Assumptions C56_atomic_refuted.

(** A user name with a colon can make a beginning of its line the line of another user, who
    was never inserted. *)
Definition k_odd : text := lit "eve:sha256,YWJjZGVmZ2hpamts,aDE,x".
Theorem C56_colon_refuted : exists new c t' e, insert_password toy toy toy_pbkdf2 None Sha256 ex_salt k_odd (lit "secret") = Some new /\ storable_user k_odd /\
  interrupted [] new c /\ load_passwords c = Some t' /\ aget (lit "eve") t' = Some e.
Proof.
  eexists _, (lit "eve:sha256,YWJjZGVmZ2hpamts,aDE"), _, _. split; [vm_compute; reflexivity|]. split; [eapply ex_user; vm_compute; reflexivity|].
  split; [right; exists 31; vm_compute; reflexivity|]. split; vm_compute; reflexivity.
Qed.
Print Assumptions C56_colon_refuted.
