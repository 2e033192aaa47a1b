(** * What is expected of several applications in one house *)
From Coq Require Import String List NArith ZArith Bool Lia PeanoNat.
From Verif Require Import PyStr Tags Messages SpecMsg Items Lighting Dispatch SpecDispatch SpecNotice SpecTag SpecHouse SpecMirror Reflex SpecReflex Unlocked Apps.
Import ListNotations.
Open Scope nat_scope.
Open Scope list_scope.

(** The calls of the n-th task of the i-th application, in the order in which they
    were done; and those of other people. *)
Definition app_calls (i n : nat) (l : list (option (nat * nat) * SpecHouse.call)) : list SpecHouse.call :=
  concat (map (fun x => match x with (Some (j, k), c) => if Nat.eqb j i && Nat.eqb k n then [c] else [] | _ => [] end) l).
Definition no_app (l : list (option (nat * nat) * SpecHouse.call)) : list SpecHouse.call :=
  concat (map (fun x => match x with (None, c) => [c] | _ => [] end) l).

(** What an application has seen. *)
Definition hears_of (apps : nat -> app) (s : many) (i : nat) : state := listener (a_ver (apps i)) (a_reg (apps i)) (e_acts (m_ears s i)).

(** Nothing is left to be done by anybody. *)
Definition all_still (apps : nat -> app) (N : nat) (s : many) : Prop :=
  forall i, i < N -> e_wire (m_ears s i) = [] /\ st_queue (hears_of apps s i) = [] /\ Forall (fun cs => cs = []) (e_todo (m_ears s i)).

Inductive msurely (gw : gateway) (apps : nat -> app) (N : nat) (P : many -> Prop) (s : many) : Prop :=
| MNow : P s -> msurely gw apps N P s
| MLater : (exists s', mstep gw apps N s Act s') -> (forall s', mstep gw apps N s Act s' -> msurely gw apps N P s') -> msurely gw apps N P s.
