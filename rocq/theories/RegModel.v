(** The client registry.  Models state.rs:19-162: the maps of [GlobalState], all of them
    changed only under the lock of [next_client_id], so that each operation is one step.

    The message channels are in BrokerModel; here only their presence is recorded.
    Simplification: ids are unbounded (the code counts in u64). *)
From Coq Require Import List Bool NArith String.
From Verif Require Import Base.
Import ListNotations.
Local Open Scope N_scope.

(** state.rs:19-30 *)
Record reg := Reg {
  r_next : client_id;                              (* next_client_id *)
  r_online : N;                                    (* online_clients *)
  r_ids : list (client_id * (string * bool));      (* client_id_map: identifier, online *)
  r_idents : list (string * client_id);            (* client_identifier_map *)
  r_clients : list client_id                       (* clients: who has a channel *)
}.

(** state.rs:70-84 *)
Definition reg_new : reg := Reg 0 0 [] [] [].

Definition in_list (c : client_id) (l : list client_id) : bool := existsb (N.eqb c) l.
Definition without (c : client_id) (l : list client_id) : list client_id := filter (fun d => negb (d =? c)) l.

(** state.rs:149-185: the part of [add_client] under the lock.  [NoSender] is the panic of
    [get_client_control_sender(&old_id).unwrap()]. *)
Inductive added := Fresh (c : client_id) | Known (c : client_id) | NoSender.
Definition reg_add (ident : string) (r : reg) : reg * added :=
  match aget ident (r_idents r) with
  | Some c =>
      let ids := match aget c (r_ids r) with Some (i, _) => aset c (i, true) (r_ids r) | None => r_ids r end in
      (Reg (r_next r) (r_online r + 1) ids (r_idents r) (r_clients r), if in_list c (r_clients r) then Known c else NoSender)
  | None =>
      let c := r_next r in
      (Reg (c + 1) (r_online r + 1) (aset c (ident, true) (r_ids r)) (aset ident c (r_idents r)) (c :: r_clients r), Fresh c)
  end.

(** state.rs:97-110 [remove_client] without the routes; [None]: the assertion fails. *)
Definition reg_remove (c : client_id) (r : reg) : option reg :=
  match aget c (r_ids r) with
  | Some (ident, online) =>
      if online && (r_online r =? 0) then None
      else Some (Reg (r_next r) (if online then r_online r - 1 else r_online r) (adel c (r_ids r)) (adel ident (r_idents r)) (without c (r_clients r)))
  | None => Some (Reg (r_next r) (r_online r) (r_ids r) (r_idents r) (without c (r_clients r)))
  end.

(** state.rs:117-123 [offline_client] *)
Definition reg_offline (c : client_id) (r : reg) : option reg :=
  if r_online r =? 0 then None
  else Some (Reg (r_next r) (r_online r - 1)
               (match aget c (r_ids r) with Some (i, _) => aset c (i, false) (r_ids r) | None => r_ids r end) (r_idents r) (r_clients r)).
