(** Topic names and filters as level lists.

    Models [split_topic] (protocols/mqtt/route.rs:284-291) and the facts the
    server uses of [mqtt_proto::TopicFilter] (crate not in the sandbox):
    [LEVEL_SEP] = '/', [MATCH_ALL_STR] = "#", [MATCH_ONE_STR] = "+",
    [shared_info] of "$share/<group>/<filter>". *)
From Coq Require Import List Bool String Ascii.
From Verif Require Import Base.
Import ListNotations.
Local Open Scope string_scope.

Definition slash : ascii := "/"%char.

(** route.rs:284-291 [split_topic]: [str::split_once('/')]. *)
Fixpoint split_once (sep : ascii) (s : string) : option (string * string) :=
  match s with
  | "" => None
  | String c r =>
      if Ascii.eqb c sep then Some ("", r)
      else match split_once sep r with
           | Some (h, t) => Some (String c h, t)
           | None => None
           end
  end.

Definition split_topic (s : string) : string * option string :=
  match split_once slash s with
  | Some (h, r) => (h, Some r)
  | None => (s, None)
  end.

(** All levels of a topic: what iterating [split_topic] yields
    ([TopicProofs.levels_split_topic]).  The tree functions of route.rs and
    retain.rs walk this list: the pair [(item, rest)] of the code is the head and
    tail, and [rest = None] is the empty tail. *)
Fixpoint levels (s : string) : list string :=
  match s with
  | "" => [""]
  | String c r =>
      if Ascii.eqb c slash then "" :: levels r
      else match levels r with
           | h :: t => String c h :: t
           | [] => [String c ""]
           end
  end.

Fixpoint join (l : list string) : string :=
  match l with
  | [] => ""
  | [x] => x
  | x :: r => x ++ String slash (join r)
  end.

Definition MATCH_ALL : string := "#".
Definition MATCH_ONE : string := "+".

(** [TopicName::starts_with('$')] *)
Definition starts_with_dollar (s : string) : bool :=
  match s with String c _ => Ascii.eqb c "$"%char | "" => false end.

(** mqtt-proto [TopicFilter::shared_info]: for "$share/<group>/<filter>" the group
    and the inner filter (assumed crate behaviour; filters the crate rejects, such
    as "$share/g", never reach the server). *)
Definition shared_info (f : string) : option (string * string) :=
  match split_topic f with
  | (p, Some r) =>
      if String.eqb p "$share" then
        match split_topic r with
        | (g, Some inner) => Some (g, inner)
        | (_, None) => None
        end
      else None
  | (_, None) => None
  end.
