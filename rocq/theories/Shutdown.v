(** * The end of the program: what asyncio.run() does to the callbacks that go on,
      pyown/client/client.py:168, 173-178, pyown/items/base.py:83-85

    When the main coroutine is over, asyncio.run() cancels every task that is not
    done and waits for all of them (asyncio/runners.py:193-211).  A task that has not
    begun then never does.  One that waits gets CancelledError, and may end as it
    likes.  The watcher of _check_task_result is in gather(); when it is cancelled
    it never gets the results, though gather() has fetched them all, so that
    Python does not count the errors as unseen (asyncio/tasks.py:760-811).

    The tasks of Tasks.v, with the moment at which the callbacks of an event begin:
    they and their watcher are created by one step of loop() and so begin in one
    turn of the event loop, the watcher last.  Simplifications: a callback that is
    cancelled ends at some time; tasks collected before (C135) are left out; an
    error that Python counts as unseen is reported by the time everything is
    dropped, here at the end, and what the handler is told of one event is listed by
    the order of the callbacks.  Modelled on CPython 3.11. *)
From Coq Require Import String List NArith ZArith Bool Lia.
From Verif Require Import PyStr Tags Messages Protocol Queue IO Client Items Dispatch Tasks.
Import ListNotations.
Open Scope N_scope.
Open Scope list_scope.

(** [p_begun]: the groups that have begun. *)
Record program := { p_world : world; p_begun : list nat }.
Definition launched : program := {| p_world := nothing; p_begun := [] |}.

Definition begun (p : program) (g : nat) : bool := existsb (Nat.eqb g) (p_begun p).

(** An event is dispatched; a group begins; a callback ends; a watcher goes on.
    Only what has begun can end or go on. *)
Inductive pact := PEvent (r : registry) (it : nat) (m : msg) | PBegin (g : nat) | PFinish (g i : nat) (o : outcome) | PCheck (g : nat).

Definition pstep (v : N) (p : program) (a : pact) : program :=
  match a with
  | PEvent r it m => {| p_world := tstep v (p_world p) (Event r it m); p_begun := p_begun p |}
  | PBegin g =>
      if (g <? length (w_groups (p_world p)))%nat && negb (begun p g) then {| p_world := p_world p; p_begun := p_begun p ++ [g] |} else p
  | PFinish g i o => if begun p g then {| p_world := tstep v (p_world p) (Finish g i o); p_begun := p_begun p |} else p
  | PCheck g => if begun p g then {| p_world := tstep v (p_world p) (Check g); p_begun := p_begun p |} else p
  end.
Definition prun (v : N) (p : program) (acts : list pact) : program := fold_left (pstep v) acts p.

(** What a callback does when it is cancelled: by its group and its place. *)
Definition reaction := nat -> nat -> outcome.

(** asyncio/runners.py:194-201: how each callback of the group [g] is at the end:
    a task that has not begun is cancelled before its first line. *)
Fixpoint stopped (rx : reaction) (b : bool) (g i : nat) (l : list (task * option outcome)) : list (task * outcome) :=
  match l with
  | [] => []
  | (t, Some o) :: l => (t, o) :: stopped rx b g (S i) l
  | (t, None) :: l => (t, if b then rx g i else Cancelled) :: stopped rx b g (S i) l
  end.

(** The errors given to the exception handler of the event loop: those of the
    tasks that asyncio.run() cancelled (asyncio/runners.py:203-211), and those that
    nobody fetched (asyncio/futures.py, __del__): of tasks that are in no list. *)
Fixpoint handled (rx : reaction) (b : bool) (wt : watcher) (g i : nat) (l : list (task * option outcome)) : list N :=
  match l with
  | [] => []
  | (_, None) :: l =>
      match b, rx g i with true, Raised x => x :: handled rx b wt g (S i) l | _, _ => handled rx b wt g (S i) l end
  | (_, Some (Raised x)) :: l =>
      match wt with Unwatched => x :: handled rx b wt g (S i) l | _ => handled rx b wt g (S i) l end
  | _ :: l => handled rx b wt g (S i) l
  end.

(** The program after asyncio.run(): for each group how its callbacks ended and
    what the handler was told; and the log of _check_task_result. *)
Record finished := { f_calls : list (list (task * outcome)); f_handled : list (list N); f_log : list (nat * N) }.

Fixpoint each {A B} (f : nat -> A -> B) (n : nat) (l : list A) : list B :=
  match l with [] => [] | x :: l => f n x :: each f (S n) l end.

Definition shut_down (rx : reaction) (p : program) : finished :=
  {| f_calls := each (fun g gr => stopped rx (begun p g) g 0 (g_tasks gr)) 0 (w_groups (p_world p));
     f_handled := each (fun g gr => handled rx (begun p g) (g_watch gr) g 0 (g_tasks gr)) 0 (w_groups (p_world p));
     f_log := w_log (p_world p) |}.
