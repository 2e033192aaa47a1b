(** * Calling loop() late, and again: pyown/client/client.py *)
From Coq Require Import String List NArith ZArith Bool Lia.
From Verif Require Import PyStr Tags Messages Protocol IO Client Items Dispatch.
Import ListNotations.
Open Scope N_scope.
Open Scope list_scope.

(** What the application can do and what can happen to it: the actions of
    Dispatch.v at any time, and calls of loop() (client.py:79-143).  An
    exception that leaves loop() is caught by the application. *)
Inductive lact := Do (a : act) | Call.

(** Packets are queued whether or not a loop is running (protocol.py:64-95);
    get_item and the registrations need no loop either.  Calls are meant for
    times when no loop is running; two loops at a time are not modelled. *)
Definition lstep (v : N) (s : state) (x : lact) : state :=
  match x with Do a => step v s a | Call => enter v s end.

Definition lrun (v : N) (s : state) (xs : list lact) : state := fold_left (lstep v) xs s.
