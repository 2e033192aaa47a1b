(** * Vocabulary for concurrent calls *)
From Coq Require Import String List NArith ZArith Bool Lia.
From Verif Require Import PyStr Tags Messages Protocol Queue Conc.
Import ListNotations.
Open Scope list_scope.

Fixpoint received_packets (es : list kevent) : list (list N) :=
  match es with [] => [] | KPacket d :: r => d :: received_packets r | _ :: r => received_packets r end.

(** The messages the gateway sent, in order. *)
Definition answers (es : list kevent) : list msg := c_queue (feed fresh (received_packets es)).

(** What the answer to a command means. *)
Definition verdict (m : msg) : res unit := match m with MAck => Ok tt | _ => Err ResponseError end.

(** An orderly run: readers that were woken run in the order in which they were
    woken, no call starts between the waking of a reader and its run, there are
    only commands and no timeouts.  [w] lists the readers woken and not yet run. *)
Inductive orderly : list nat -> cstate -> list kevent -> cstate -> list nat -> Prop :=
| Y_nil w s : orderly w s [] s w
| Y_call i b s s' es s'' w'' :
    cstep s (KCall i PCommand b) = Some s' -> orderly [] s' es s'' w'' -> orderly [] s (KCall i PCommand b :: es) s'' w''
| Y_packet d w s s' es s'' w'' :
    cstep s (KPacket d) = Some s' ->
    orderly (w ++ firstn (length (c_queue (q_conn (k_q s'))) - length (c_queue (q_conn (k_q s)))) (q_getters (k_q s))) s' es s'' w'' ->
    orderly w s (KPacket d :: es) s'' w''
| Y_run i w s s' es s'' w'' :
    cstep s (KRun i) = Some s' -> orderly w s' es s'' w'' -> orderly (i :: w) s (KRun i :: es) s'' w''.
