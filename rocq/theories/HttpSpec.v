(** Reading the answer of /metrics the way Prometheus does: lines that begin with a
    hash sign are comments, every other line is a name, a space and a number. *)
From Coq Require Import List Bool NArith Ascii String.
From Verif Require Import Base TextModel.
Import ListNotations.
Local Open Scope list_scope.
Local Open Scope char_scope.

(** [t] is written as lines, each ended by a line feed. *)
Definition as_lines (t : text) (ls : list text) : Prop :=
  t = List.concat (map (fun l => l ++ ["010"]) ls) /\ Forall (fun l => ~ In "010" l) ls.

Definition comment (l : text) : Prop := exists r, l = "#" :: r.

(** Decimal digits, most significant first. *)
Fixpoint decimal_from (n : N) (t : text) : option N :=
  match t with
  | [] => Some n
  | a :: r =>
      let d := N_of_ascii a in
      if ((48 <=? d) && (d <=? 57))%N then decimal_from (10 * n + (d - 48)) r else None
  end.
Definition decimal (t : text) (n : N) : Prop := t <> [] /\ decimal_from 0 t = Some n.

Definition sample (l name : text) (n : N) : Prop := exists d, l = name ++ " " :: d /\ decimal d n.

(** The scrape [t] has exactly one sample, [n] for [name]. *)
Definition reports (t name : text) (n : N) : Prop :=
  exists ls l, as_lines t (ls ++ [l]) /\ Forall comment ls /\ sample l name n.
