(** * Callbacks that stop at the first command that fails

    The callbacks of [Reflex], as they are usually written: a callback awaits its
    calls one after the other and catches nothing.  The ResponseError that
    items/base.py:125-149 [_check_ack] and [_check_nack] raise for a NACK leaves
    [async with lock] (CPython 3.11 asyncio/locks.py:20-21 [__aexit__] releases
    the lock) and ends the task, whose error client.py:173-178
    [_check_task_result] is to report (C83).

    Simplifications: those of [Reflex], but for the errors. *)
From Coq Require Import String List NArith ZArith Bool Lia.
From Verif Require Import PyStr Tags Messages SpecMsg Items Dispatch SpecDispatch SpecTag SpecHouse Reflex.
Import ListNotations.
Open Scope N_scope.
Open Scope list_scope.

(** A world with the tasks that ended with an error, in the order in which they
    did. *)
Definition fworld : Type := world * list nat.

(** One step: as [wstep], but for a call that fails, after which the task makes
    no other call. *)
Inductive fstep (gw : gateway) (v : N) (r : registry) (body : reflex) (w : world) (es : list nat) : label -> fworld -> Prop :=
| F_press c h' obs res evs : does gw (w_house w) c h' obs res evs ->
    fstep gw v r body w es (Pressed c) (with_call w h' evs None c (w_inside w), es)
| F_packet f fs rest : w_wire w = (f :: fs) ++ rest ->
    fstep gw v r body w es Act (with_acts w rest (w_acts w ++ [Packet (concat (f :: fs))]) (w_ready w), es)
| F_lookup k whr : tagtext whr -> fstep gw v r body w es Quiet (with_acts w (w_wire w) (w_acts w ++ [Lookup k whr]) (w_ready w), es)
| F_wake m q : st_queue (listener v r (w_acts w)) = m :: q ->
    fstep gw v r body w es Act (with_acts w (w_wire w) (w_acts w ++ [Wake]) (w_ready w ++ made_now v r (w_acts w) Wake), es)
| F_idle : st_queue (listener v r (w_acts w)) = [] ->
    fstep gw v r body w es Quiet (with_acts w (w_wire w) (w_acts w ++ [Wake]) (w_ready w ++ made_now v r (w_acts w) Wake), es)
| F_run j js : w_ready w = j :: js -> fstep gw v r body w es Act (run_job v r body w j js, es)
| F_served n c cs h' obs evs : w_inside w = Calling n (c :: cs) -> does gw (w_house w) c h' obs (Ok tt) evs ->
    fstep gw v r body w es Act (with_call w h' evs (Some n) c (Calling n cs), es)
| F_failed n c cs h' obs e evs : w_inside w = Calling n (c :: cs) -> does gw (w_house w) c h' obs (Err e) evs ->
    fstep gw v r body w es Act (with_call w h' evs (Some n) c (Calling n []), es ++ [n])
| F_finish n : w_inside w = Calling n [] ->
    fstep gw v r body w es Act (with_lock w (w_locked w) (w_waiters w) (w_ready w ++ [Resume n]) (Finishing n), es).

Inductive fruns (gw : gateway) (v : N) (r : registry) (body : reflex) (x : fworld) : list label -> fworld -> Prop :=
| FR_nil : fruns gw v r body x [] x
| FR_snoc ls l w es y : fruns gw v r body x ls (w, es) -> fstep gw v r body w es l y -> fruns gw v r body x (ls ++ [l]) y.
