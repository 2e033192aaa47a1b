(** * What is expected of callbacks that send commands without a lock *)
From Coq Require Import String List NArith ZArith Bool Lia PeanoNat Sorted.
From Verif Require Import PyStr Tags Messages SpecMsg Items Lighting Dispatch SpecDispatch SpecTag SpecHouse Reflex Unlocked.
Import ListNotations.
Open Scope N_scope.
Open Scope list_scope.

(** The calls of the n-th task, in the order in which they were done. *)
Definition calls_of (n : nat) (l : list (option nat * call)) : list call :=
  concat (map (fun x => match x with (Some k, c) => if Nat.eqb k n then [c] else [] | _ => [] end) l).

(** Nothing is left to be done. *)
Definition all_done (v : N) (r : registry) (u : uworld) : Prop :=
  u_wire u = [] /\ st_queue (listener v r (u_acts u)) = [] /\ Forall (fun cs => cs = []) (u_todo u).

Inductive usurely (gw : gateway) (v : N) (r : registry) (body : reflex) (P : uworld -> Prop) (u : uworld) : Prop :=
| UNow : P u -> usurely gw v r body P u
| ULater : (exists u', ustep gw v r body u Act u') -> (forall u', ustep gw v r body u Act u' -> usurely gw v r body P u') -> usurely gw v r body P u.

(** The callbacks made their calls in the order in which they were started. *)
Definition in_order (l : list (option nat * call)) : Prop :=
  Sorted.StronglySorted le (concat (map (fun x => match fst x with Some n => [n] | None => [] end) l)).
