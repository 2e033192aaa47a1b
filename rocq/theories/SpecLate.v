(** * Calls that are not answered in time *)
From Coq Require Import String List NArith ZArith Bool Lia.
From Verif Require Import PyStr Tags Messages Protocol Queue IO Conc SpecConc SpecSerial.
Import ListNotations.
Open Scope list_scope.

(** What a call may have read when it has not got its whole answer. *)
Inductive part_answer : pc -> list msg -> Prop :=
| P_command : part_answer PCommand []
| P_replies keep ms : Forall (fun m => keep m = true /\ m <> MAck /\ m <> MNack) ms -> part_answer (PRequest keep) ms.

(** Calls made one after the other take what they need from the front of a
    stream of messages; a call that times out leaves the rest to the next one. *)
Inductive takes : list pc -> list msg -> list (res unit) -> Prop :=
| Tk_nil : takes [] [] []
| Tk_whole p a r ps ms rs : whole_answer p a r -> takes ps ms rs -> takes (p :: ps) (a ++ ms) (r :: rs)
| Tk_late p a ps ms rs : part_answer p a -> takes ps ms rs -> takes (p :: ps) (a ++ ms) (Err TimeoutError :: rs).

Definition timed_out (r : res unit) : bool := match r with Err TimeoutError => true | _ => false end.
Definition answered (rs : list (res unit)) : list (res unit) := filter (fun r => negb (timed_out r)) rs.
Definition timeouts (rs : list (res unit)) : nat := length (filter timed_out rs).
