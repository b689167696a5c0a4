(** Shared vocabulary: finite maps as association lists, MQTT scalar types.

    Rust's [HashMap]/[HashSet] are modelled by association lists whose keys are
    unique.  [aset] replaces in place or appends, [adel] removes.  The order of
    the list is an artefact of the model: Rust's iteration order is arbitrary,
    so no theorem depends on it except up to permutation. *)
From Coq Require Import List Bool Arith NArith Lia String Ascii Permutation.
From Coq Require Import ZifyBool ZifyNat ZifyN.
Import ListNotations.

(** Decidable equality with its specification, for map keys. *)
Class Eqb (K : Type) := {
  eqb : K -> K -> bool;
  eqb_spec : forall a b, reflect (a = b) (eqb a b)
}.
#[global] Instance Eqb_N : Eqb N := { eqb := N.eqb; eqb_spec := N.eqb_spec }.
#[global] Instance Eqb_nat : Eqb nat := { eqb := Nat.eqb; eqb_spec := Nat.eqb_spec }.
#[global] Instance Eqb_string : Eqb string := { eqb := String.eqb; eqb_spec := String.eqb_spec }.

Lemma eqb_refl {K} `{Eqb K} (k : K) : eqb k k = true.
Proof. destruct (eqb_spec k k); congruence. Qed.

Section AList.
  Context {K V : Type} `{Eqb K}.

  (** [HashMap::get] *)
  Fixpoint aget (k : K) (m : list (K * V)) : option V :=
    match m with
    | [] => None
    | (k', v) :: r => if eqb k k' then Some v else aget k r
    end.

  (** [HashMap::insert] (without the returned old value) *)
  Fixpoint aset (k : K) (v : V) (m : list (K * V)) : list (K * V) :=
    match m with
    | [] => [(k, v)]
    | (k', v') :: r => if eqb k k' then (k, v) :: r else (k', v') :: aset k v r
    end.

  (** [HashMap::remove] (without the returned old value) *)
  Fixpoint adel (k : K) (m : list (K * V)) : list (K * V) :=
    match m with
    | [] => []
    | (k', v') :: r => if eqb k k' then r else (k', v') :: adel k r
    end.

  Definition keys (m : list (K * V)) : list K := map fst m.
  Definition is_nil {A} (l : list A) : bool := match l with [] => true | _ => false end.
End AList.

(** QoS levels of MQTT ([mqtt_proto::QoS]). *)
Inductive qos := L0 | L1 | L2.
Definition qos_num (q : qos) : N := match q with L0 => 0 | L1 => 1 | L2 => 2 end.
Definition qos_leb (a b : qos) : bool := N.leb (qos_num a) (qos_num b).
Definition qos_min (a b : qos) : qos := if qos_leb a b then a else b.
Definition qos_eqb (a b : qos) : bool := N.eqb (qos_num a) (qos_num b).

(** [state.rs:ClientId] is a [u64]; packet identifiers are [u16] values 1..65535. *)
Definition client_id := N.
Definition pid := N.
#[global] Bind Scope N_scope with client_id.
#[global] Bind Scope N_scope with pid.
