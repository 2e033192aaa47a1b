(** * Callbacks that send commands

    An application whose callbacks answer events with commands on a second
    client, one call at a time: every callback does its calls inside
    [async with lock], with one [asyncio.Lock] for all of them.  The event client
    is the one of [Dispatch] (client.py:105-143); the tasks are those that
    items/base.py:84-85 [_create_tasks] makes, which the event loop of asyncio
    first runs in the order in which they were made.

    Simplifications: a call is one step of the house ([SpecHouse.does], see
    C104_story for one client and C121 for clients with a connection each);
    between the moment a task gets the lock and its first call, and between its
    last answer and the moment it goes on, other things may happen although
    asyncio leaves less room; a callback goes on with its next call whatever came
    of the last one (it catches ResponseError); no task is cancelled. *)
From Coq Require Import String List NArith ZArith Bool Lia.
From Verif Require Import PyStr Tags Messages SpecMsg Items Dispatch SpecDispatch SpecTag SpecHouse.
Import ListNotations.
Open Scope N_scope.
Open Scope list_scope.

(** The bodies of the callbacks: the number of the callback, WHO and WHERE of the
    item it was given and the other arguments make the calls it does. *)
Definition reflex := N -> who * str -> list val -> list call.
Definition answer (body : reflex) (its : items) (t : task) : list call :=
  match t with
  | (f, VItem i :: args) => match nth_error its i with Some k => body f k args | None => [] end
  | _ => []
  end.

(** What is in the ready queue of the event loop: a task to be run for the first
    time, a task whose future in [Lock._waiters] has got its result, the task
    that is told the end of its last call. *)
Inductive job := Begin (n : nat) | Woken (n : nat) | Resume (n : nat).
(** Who is inside [async with lock], with the calls it has still to do. *)
Inductive within := Nobody | Calling (n : nat) (cs : list call) | Finishing (n : nat).

(** [w_wire]: events sent by the gateway and not yet received.  [w_acts]: what
    the event client has seen.  [w_by]: the calls done so far, those of the n-th
    task with [Some n], those of other people with [None].  [w_evs]: all events
    so far. *)
Record world := {
  w_house : house; w_wire : list (list N); w_acts : list act;
  w_locked : bool; w_waiters : list nat; w_ready : list job; w_inside : within;
  w_by : list (option nat * call); w_evs : list (list N) }.

Definition listener (v : N) (r : registry) (acts : list act) : state := run v (enter v (connected r)) acts.
Definition answers_of (v : N) (r : registry) (body : reflex) (acts : list act) (n : nat) : list call :=
  let st := listener v r acts in
  match nth_error (st_started st) n with Some t => answer body (st_items st) t | None => [] end.

Definition with_lock (w : world) (l : bool) (ws : list nat) (js : list job) (i : within) : world :=
  {| w_house := w_house w; w_wire := w_wire w; w_acts := w_acts w; w_locked := l; w_waiters := ws; w_ready := js; w_inside := i;
     w_by := w_by w; w_evs := w_evs w |}.
Definition with_acts (w : world) (wire : list (list N)) (acts : list act) (js : list job) : world :=
  {| w_house := w_house w; w_wire := wire; w_acts := acts; w_locked := w_locked w; w_waiters := w_waiters w; w_ready := js;
     w_inside := w_inside w; w_by := w_by w; w_evs := w_evs w |}.
Definition with_call (w : world) (h : house) (evs : list (list N)) (by_ : option nat) (c : call) (i : within) : world :=
  {| w_house := h; w_wire := w_wire w ++ evs; w_acts := w_acts w; w_locked := w_locked w; w_waiters := w_waiters w; w_ready := w_ready w;
     w_inside := i; w_by := w_by w ++ [(by_, c)]; w_evs := w_evs w ++ evs |}.

(** The first of the ready jobs is run.  CPython 3.11 asyncio/locks.py:93-123
    [Lock.acquire], 125-140 [release], 142-155 [_wake_up_first]. *)
Definition run_job (v : N) (r : registry) (body : reflex) (w : world) (j : job) (js : list job) : world :=
  match j with
  | Begin n =>
      if negb (w_locked w) && match w_waiters w with [] => true | _ => false end
      then with_lock w true (w_waiters w) js (Calling n (answers_of v r body (w_acts w) n))
      else with_lock w (w_locked w) (w_waiters w ++ [n]) js (w_inside w)
  | Woken n =>
      with_lock w true (remove Nat.eq_dec n (w_waiters w)) js (Calling n (answers_of v r body (w_acts w) n))
  | Resume _ =>
      with_lock w false (w_waiters w) (js ++ match w_waiters w with m :: _ => [Woken m] | [] => [] end) Nobody
  end.

(** The tasks made by a run of the loop. *)
Definition made_now (v : N) (r : registry) (acts : list act) (a : act) : list job :=
  let n := length (st_started (listener v r acts)) in
  map Begin (seq n (length (st_started (listener v r (acts ++ [a]))) - n)).

Inductive label := Pressed (c : call) | Quiet | Act.

(** One step.  [Pressed c]: somebody else does [c].  [Quiet]: a step that need
    not lead anywhere, like running a loop() that has nothing to read. *)
Inductive wstep (gw : gateway) (v : N) (r : registry) (body : reflex) (w : world) : label -> world -> Prop :=
| W_press c h' obs res evs : does gw (w_house w) c h' obs res evs ->
    wstep gw v r body w (Pressed c) (with_call w h' evs None c (w_inside w))
| W_packet f fs rest : w_wire w = (f :: fs) ++ rest ->
    wstep gw v r body w Act (with_acts w rest (w_acts w ++ [Packet (concat (f :: fs))]) (w_ready w))
| W_lookup k whr : tagtext whr -> wstep gw v r body w Quiet (with_acts w (w_wire w) (w_acts w ++ [Lookup k whr]) (w_ready w))
| W_wake m q : st_queue (listener v r (w_acts w)) = m :: q ->
    wstep gw v r body w Act (with_acts w (w_wire w) (w_acts w ++ [Wake]) (w_ready w ++ made_now v r (w_acts w) Wake))
| W_idle : st_queue (listener v r (w_acts w)) = [] ->
    wstep gw v r body w Quiet (with_acts w (w_wire w) (w_acts w ++ [Wake]) (w_ready w ++ made_now v r (w_acts w) Wake))
| W_run j js : w_ready w = j :: js -> wstep gw v r body w Act (run_job v r body w j js)
| W_serve n c cs h' obs res evs : w_inside w = Calling n (c :: cs) -> does gw (w_house w) c h' obs res evs ->
    wstep gw v r body w Act (with_call w h' evs (Some n) c (Calling n cs))
| W_finish n : w_inside w = Calling n [] ->
    wstep gw v r body w Act (with_lock w (w_locked w) (w_waiters w) (w_ready w ++ [Resume n]) (Finishing n)).

Inductive wruns (gw : gateway) (v : N) (r : registry) (body : reflex) (w : world) : list label -> world -> Prop :=
| WR_nil : wruns gw v r body w [] w
| WR_snoc ls l w1 w2 : wruns gw v r body w ls w1 -> wstep gw v r body w1 l w2 -> wruns gw v r body w (ls ++ [l]) w2.

Definition quiet_house (h : house) : world :=
  {| w_house := h; w_wire := []; w_acts := []; w_locked := false; w_waiters := []; w_ready := []; w_inside := Nobody; w_by := []; w_evs := [] |}.
