(** * What a user expects of a client that is started several times *)
From Coq Require Import String List NArith ZArith Bool Lia.
From Verif Require Import PyStr Tags Messages Protocol Restart.
Import ListNotations.
Open Scope N_scope.
Open Scope list_scope.

(** [received n acts ms open]: the messages that arrive on connection [n] in a
    history, and whether it is still open at the end of it. *)
Inductive received (n : nat) : list lact -> list msg -> bool -> Prop :=
| R_new : received n [] [] true
| R_packet acts ms data ms' : received n acts ms true -> packet_messages data = Ok ms' ->
    received n (acts ++ [Arrive n data]) (ms ++ ms') true
| R_bad acts ms data e : received n acts ms true -> packet_messages data = Err e ->
    received n (acts ++ [Arrive n data]) ms false
| R_late acts ms data : received n acts ms false -> received n (acts ++ [Arrive n data]) ms false
| R_drop acts ms b : received n acts ms b -> received n (acts ++ [Drop n]) ms false
| R_other acts ms b a : received n acts ms b -> (forall data, a <> Arrive n data) -> a <> Drop n ->
    received n (acts ++ [a]) ms b.

(** No new connection and no close(). *)
Definition same_session (acts : list lact) : Prop := ~ In Connect acts /\ ~ In CloseClient acts.

(** The number of connections made. *)
Definition connects (acts : list lact) : nat := length (filter (fun a => match a with Connect => true | _ => false end) acts).

(** The number of connections whose end was reported to the protocol. *)
Definition losts (s : life) : nat := length (filter (fun b => b) (lc_lost s)).

(** The connection numbered [i] exists and is open. *)
Definition is_open (s : life) (i : nat) : Prop := exists c, nth_error (lc_conns s) i = Some c /\ c_open c = true.

(** Everyone closes before starting again: at each [Connect] no connection is
    current, or the current one has ended. *)
Fixpoint tidy (s : life) (acts : list lact) : Prop :=
  match acts with
  | [] => True
  | a :: acts => (a = Connect -> forall i, lc_current s = Some i -> ~ is_open s i) /\ tidy (lstep s a) acts
  end.
