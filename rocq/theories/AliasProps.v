(** C16: outgoing topic aliases. *)
From Coq Require Import List Bool String NArith Lia.
From Verif Require Import Base MsgModel OutModel OutSpec AliasSpec AliasProofs.
Import List ListNotations.
Local Open Scope N_scope.
Local Open Scope list_scope.

(** A client that follows the alias rules finds, for every PUBLISH of every run,
    a topic, and it is the topic of a message to be delivered of which the packet
    is a copy.  ([client_read] finds nothing if the alias is 0, above the
    client's maximum or unknown, so those never occur.)  Payloads are arbitrary,
    so messages can be told apart by their payload. *)
Theorem C16_aliases rm max timeout amax ops : Forall plain_topic ops ->
  forall w r, In (w, r) (client_reads (alias_maxima amax ops) 0 [] (snd (run5 rm max timeout amax ops))) ->
  exists topic, r = Some topic /\ Exists (copy_of topic w) ops.
Proof. exact (c16 rm max timeout amax ops). Qed.
Print Assumptions C16_aliases.

(** Two aliases, three topics, an eviction, a retransmission and a reconnect. *)
Definition ax_pub (t s : string) : pub5 := Pub5 t L1 false s pprops_default.
Definition ax_ops : list op5 :=
  [O5Msg 10 (ax_pub "a" "1"); O5Flush 10; O5Zero 11 "b" false "2" pprops_default; O5Zero 11 "a" false "3" pprops_default;
   O5Zero 12 "c" false "4" pprops_default; O5Zero 12 "b" false "5" pprops_default; O5Flush 15;
   O5Zero 16 "c" false "6" pprops_default; O5Resume 5 1; O5Flush 17; O5Zero 18 "c" false "7" pprops_default; O5Zero 18 "c" false "8" pprops_default].
Example C16_aliases_example : Forall plain_topic ax_ops /\
  map (fun x => (w5_topic (fst x), pp_alias (w5_props (fst x)), snd x))
      (client_reads (alias_maxima 2 ax_ops) 0 [] (snd (run5 5 10 5 2 ax_ops))) =
  [("a", Some 1, Some "a"); ("b", Some 2, Some "b"); ("", Some 1, Some "a"); ("c", Some 2, Some "c");
   ("b", Some 1, Some "b"); ("a", None, Some "a"); ("", Some 2, Some "c"); ("a", None, Some "a");
   ("c", Some 1, Some "c"); ("", Some 1, Some "c")]%string.
Proof. split; [repeat constructor; discriminate|reflexivity]. Qed.
