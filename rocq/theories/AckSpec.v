(** What an acknowledgement from a client may do to the messages the server keeps for it
    ([unfinished], OrderSpec: identifier and, until PUBREC, the message). *)
From Coq Require Import List NArith.
From Verif Require Import Base OutModel OutSpec OrderSpec.
Import ListNotations.
Local Open Scope N_scope.
Local Open Scope list_scope.

(** Something with identifier [p] waits for this kind of acknowledgement. *)
Definition awaits {M} (k : ackkind) (p : pid) (u : list (pid * option (N * M))) : Prop :=
  match k with
  | AckPuback | AckPubrec => exists t m, In (p, Some (t, m)) u
  | AckPubcomp => In (p, None) u
  end.

(** PUBACK and PUBCOMP end the message they name, PUBREC turns it into one to be released.
    All others stay, in their order. *)
Definition acknowledged {M} (k : ackkind) (p : pid) (u u' : list (pid * option (N * M))) : Prop :=
  exists a b,
    match k with
    | AckPuback => exists t m, u = a ++ (p, Some (t, m)) :: b /\ u' = a ++ b
    | AckPubrec => exists t m, u = a ++ (p, Some (t, m)) :: b /\ u' = a ++ (p, None) :: b
    | AckPubcomp => u = a ++ (p, None) :: b /\ u' = a ++ b
    end.

(** [a] is [b] with some elements left out. *)
Inductive part_of {A} : list A -> list A -> Prop :=
| po_nil : part_of [] []
| po_keep x a b : part_of a b -> part_of (x :: a) (x :: b)
| po_drop x a b : part_of a b -> part_of a (x :: b).
