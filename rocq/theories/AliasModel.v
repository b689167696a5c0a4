(** Outgoing topic aliases.  Models [get_or_assign_server_topic_alias]
    (v5/packet/common.rs:109-149). *)
From Coq Require Import List Bool String NArith.
From Verif Require Import Base.
Import ListNotations.
Local Open Scope N_scope.

(** v5/session.rs:68-70: server_topic_aliases_by_topic, server_topic_aliases_by_alias
    and server_alias_tick (an unbounded counter here, u64 in the code). *)
Record aliases := Aliases {
  al_by_topic : list (string * N);
  al_by_alias : list (N * (string * N));
  al_tick : N
}.
Definition aliases_empty : aliases := Aliases [] [] 0.

(** common.rs:131-133: [(1..=max).find(|a| !by_alias.contains_key(a)).unwrap_or(1)] *)
Fixpoint first_free (n : nat) (a : N) (m : list (N * (string * N))) : N :=
  match n with
  | O => 1
  | S n' => match aget a m with None => a | Some _ => first_free n' (a + 1) m end
  end.

(** common.rs:135-139: [min_by_key] on the tick, [unwrap_or(1)].  Ticks are
    pairwise distinct ([AliasProofs.al_inv]), so the map's order is irrelevant. *)
Fixpoint min_tick (m : list (N * (string * N))) : option (N * N) :=
  match m with
  | [] => None
  | (a, (_, t)) :: r =>
      match min_tick r with
      | None => Some (a, t)
      | Some (a', t') => if t <=? t' then Some (a, t) else Some (a', t')
      end
  end.
Definition least_recent (m : list (N * (string * N))) : N :=
  match min_tick m with Some (a, _) => a | None => 1 end.

(** common.rs:109-149.  Returns (alias, is_new_mapping). *)
Definition get_or_assign_alias (amax : N) (topic : string) (s : aliases) : aliases * (N * bool) :=
  if amax =? 0 then (s, (0, false))
  else
    let tick := al_tick s + 1 in
    match aget topic (al_by_topic s) with
    | Some a =>
        let by_alias := match aget a (al_by_alias s) with
                        | Some (n, _) => aset a (n, tick) (al_by_alias s)
                        | None => al_by_alias s
                        end in
        (Aliases (al_by_topic s) by_alias tick, (a, false))
    | None =>
        let a := if N.of_nat (List.length (al_by_alias s)) <? amax
                 then first_free (N.to_nat amax) 1 (al_by_alias s)
                 else least_recent (al_by_alias s) in
        let '(by_topic, by_alias) :=
          match aget a (al_by_alias s) with
          | Some (old, _) => (adel old (al_by_topic s), adel a (al_by_alias s))
          | None => (al_by_topic s, al_by_alias s)
          end in
        (Aliases (aset topic a by_topic) (aset a (topic, tick) by_alias) tick, (a, true))
    end.
