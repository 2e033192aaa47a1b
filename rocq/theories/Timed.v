(** * The clock of a coroutine

    client/base.py:225-241 read_message waits for the next message of the
    queue under [asyncio.timeout(timeout)], 5 seconds unless the caller says
    otherwise, and every caller in start, _authenticate_open, _authenticate_hmac
    (client/base.py:98-206) and in the items (items/base.py:114-123) leaves it
    at 5; the [asyncio.timeout(5)] around the first read of start
    (client/base.py:109) has the same deadline.

    Time is a number of milliseconds.  Simplifications: it passes only while a
    read waits; a message is in the queue from the moment it arrives; no other
    task reads from the queue; the transport is not paused, so a write takes no
    time (Sender.v has the waiting of a paused one).  A message that arrives
    exactly at the deadline may be seen or not: the timer and the arrival run in
    the same iteration of the event loop. *)
From Coq Require Import String List NArith ZArith Bool Lia.
From Verif Require Import PyStr Tags Messages IO.
Import ListNotations.
Open Scope N_scope.
Open Scope list_scope.

(** client/base.py:225 [timeout: int | None = 5] *)
Definition read_timeout : N := 5000.

(** The messages still to be read, with the moments at which they arrive. *)
Definition arrivals := list (N * msg).

(** The next message does not arrive before [d]. *)
Definition quiet_until (d : N) (arr : arrivals) : Prop :=
  match arr with [] => True | (a, _) :: _ => d <= a end.

(** What consecutive reads find from the moment [t] on, and when the last of
    them returns. *)
Inductive waits : N -> arrivals -> script -> N -> arrivals -> Prop :=
| W_done t arr : waits t arr [] t arr
| W_message t a m arr s t' arr' :
    a <= t + read_timeout -> waits (N.max t a) arr s t' arr' ->
    waits t ((a, m) :: arr) (Some m :: s) t' arr'
| W_deadline t arr s t' arr' :
    quiet_until (t + read_timeout) arr -> waits (t + read_timeout) arr s t' arr' ->
    waits t arr (None :: s) t' arr'.

(** The coroutine [x], started at [t], causes the events [es] and ends with [r]
    at [t'], leaving the messages [arr']. *)
Definition timed {Y A} (x : io Y A) (t : N) (arr : arrivals) (es : list (ev Y)) (r : res A) (t' : N) (arr' : arrivals) : Prop :=
  exists s, waits t arr s t' arr' /\ forall more, x (s ++ more) = (es, more, r).
