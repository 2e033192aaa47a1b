(** * Queue: readers of the message queue under every schedule

    protocol.py:41 (unbounded asyncio.Queue), 94-95 (put_nowait), 124-131
    (receive_messages = queue.get()), client/base.py:225-241 (read_message with
    asyncio.timeout).  The code of asyncio.Queue is the one of CPython
    (Lib/asyncio/queues.py: get, get_nowait, put_nowait, _wakeup_next) together
    with Task.cancel and Task.__step (Lib/asyncio/tasks.py).  A step is what runs
    between two awaits.  Not modelled: which task asyncio runs next (any order is
    allowed), the clock (a timeout can fire at any moment). *)
From Coq Require Import String List NArith ZArith Bool Lia.
From Verif Require Import PyStr Regex Tags Messages Protocol.
Import ListNotations.
Open Scope list_scope.

(** What a reader task is doing.
    - [RIdle]: not inside get();
    - [RWait]: suspended on its pending getter future;
    - [RWoken]: its getter has a result, its wake-up is scheduled;
    - [RWokenC]: the same, and the task was cancelled since (Task._must_cancel);
    - [RCancel]: its getter was cancelled, the CancelledError is scheduled. *)
Inductive rstat := RIdle | RWait | RWoken | RWokenC | RCancel.

Record qstate := {
  q_conn : conn;                  (* the queue and the transport *)
  q_getters : list nat;           (* Queue._getters, as the readers waiting on them *)
  q_readers : list rstat;         (* one entry for each reader task *)
  q_out : list (nat * msg)        (* messages returned by get(), in order, with the reader *)
}.

Fixpoint setnth {A} (i : nat) (x : A) (l : list A) : list A :=
  match l, i with
  | [], _ => []
  | _ :: r, O => x :: r
  | y :: r, S j => y :: setnth j x r
  end.

(** _wakeup_next: pop getters until one that is not done; give it a result. *)
Fixpoint wakeup (gs : list nat) (rs : list rstat) : list nat * list rstat :=
  match gs with
  | [] => ([], rs)
  | g :: gs' =>
      match nth_error rs g with
      | Some RWait => (gs', setnth g RWoken rs)
      | _ => wakeup gs' rs
      end
  end.

(** put_nowait for each message in turn: each put wakes one getter. *)
Fixpoint wakeups (n : nat) (gs : list nat) (rs : list rstat) : list nat * list rstat :=
  match n with
  | O => (gs, rs)
  | S n' => let '(gs', rs') := wakeup gs rs in wakeups n' gs' rs'
  end.

Definition remove_getter (i : nat) (gs : list nat) : list nat :=
  filter (fun g => negb (Nat.eqb g i)) gs.

Inductive qevent :=
| EPacket (data : list N)   (* the transport calls data_received *)
| EGet (i : nat)            (* reader i calls get() *)
| ERun (i : nat)            (* the event loop runs the scheduled step of reader i *)
| ECancel (i : nat).        (* a timeout or a cancellation of reader i *)

(** The body of the [while self.empty()] loop from the top: take the first
    message or append a new getter. *)
Definition try_get (i : nat) (s : qstate) : qstate :=
  match c_queue (q_conn s) with
  | m :: q => {| q_conn := {| c_queue := q; c_open := c_open (q_conn s) |};
                 q_getters := q_getters s;
                 q_readers := setnth i RIdle (q_readers s);
                 q_out := q_out s ++ [(i, m)] |}
  | [] => {| q_conn := q_conn s;
             q_getters := q_getters s ++ [i];
             q_readers := setnth i RWait (q_readers s);
             q_out := q_out s |}
  end.

Definition qstep (s : qstate) (e : qevent) : option qstate :=
  match e with
  | EPacket data =>
      let c' := deliver (q_conn s) data in
      let n := (length (c_queue c') - length (c_queue (q_conn s)))%nat in
      let '(gs, rs) := wakeups n (q_getters s) (q_readers s) in
      Some {| q_conn := c'; q_getters := gs; q_readers := rs; q_out := q_out s |}
  | EGet i =>
      match nth_error (q_readers s) i with
      | Some RIdle => Some (try_get i s)
      | _ => None
      end
  | ERun i =>
      match nth_error (q_readers s) i with
      | Some RWoken => Some (try_get i s)
      | Some RWokenC =>
          (* except: the getter is done; if the queue is not empty, wake the next *)
          let gs := remove_getter i (q_getters s) in
          let rs := setnth i RIdle (q_readers s) in
          let '(gs', rs') := match c_queue (q_conn s) with [] => (gs, rs) | _ => wakeup gs rs end in
          Some {| q_conn := q_conn s; q_getters := gs'; q_readers := rs'; q_out := q_out s |}
      | Some RCancel =>
          (* except: the getter is cancelled, so nobody is woken *)
          Some {| q_conn := q_conn s; q_getters := remove_getter i (q_getters s);
                  q_readers := setnth i RIdle (q_readers s); q_out := q_out s |}
      | _ => None
      end
  | ECancel i =>
      match nth_error (q_readers s) i with
      | Some RWait => Some {| q_conn := q_conn s; q_getters := q_getters s;
                              q_readers := setnth i RCancel (q_readers s); q_out := q_out s |}
      | Some RWoken => Some {| q_conn := q_conn s; q_getters := q_getters s;
                               q_readers := setnth i RWokenC (q_readers s); q_out := q_out s |}
      | _ => None
      end
  end.

Definition qinit (n : nat) : qstate :=
  {| q_conn := fresh; q_getters := []; q_readers := repeat RIdle n; q_out := [] |}.

Fixpoint qrun (s : qstate) (es : list qevent) : option qstate :=
  match es with
  | [] => Some s
  | e :: es' => match qstep s e with Some s' => qrun s' es' | None => None end
  end.
