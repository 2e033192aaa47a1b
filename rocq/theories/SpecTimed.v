(** * Which methods answer a command and which collect replies *)
From Coq Require Import String List NArith ZArith Bool Lia.
From Verif Require Import PyStr Tags Messages IO Client Items SpecFrames Timed.
Import ListNotations.
Open Scope N_scope.
Open Scope list_scope.

(** A public method of an item that sends a command or writes a dimension; one
    that asks for a status or a dimension. *)
Definition command_method (it : item) (Y A : Type) (x : io Y A) : Prop :=
  exists k, (method it Y A x k \/ parameterised it Y A x k) /\ (k = T_NORMAL \/ k = T_DIMWRI \/ k = T_GENERIC).
Definition request_method (it : item) (Y A : Type) (x : io Y A) : Prop :=
  exists k, (method it Y A x k \/ parameterised it Y A x k) /\ (k = T_STATUS \/ k = T_DIMREQ).

(** The number of messages taken from the queue. *)
Definition read_count {Y} (es : list (ev Y)) : N := N.of_nat (List.length (gots es)).
