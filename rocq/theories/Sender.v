(** * Sender: sending messages under every schedule

    protocol.py:97-122 (pause_writing, resume_writing, send_message) against the
    flow control of asyncio's selector transport (Lib/asyncio/selector_events.py:
    write, _write_ready, _force_close; Lib/asyncio/transports.py:
    _maybe_pause_protocol, _maybe_resume_protocol), read from CPython 3.11.
    [high] and [low] are the water marks (65536 and 16384 by default).  Not
    modelled: the clock (a sleeping sender may wake at any moment), log lines. *)
From Coq Require Import String List NArith ZArith Bool Lia.
From Verif Require Import PyStr Regex Tags Messages Queue.
Import ListNotations.
Open Scope list_scope.

(** A sender task is outside send_message, or asleep in its while loop with the
    encoded data in hand. *)
Inductive sstat := SIdle | SSleep (m : msg) (data : list N).

(** How a call of send_message ended: the data was handed to the transport; it
    was handed to a transport whose connection is lost, which ignores it; msg.bytes
    raised; the task was cancelled while asleep. *)
Inductive outcome := OWritten | ODropped | ORaised (e : exn) | OCancelled.

Record sstate := {
  s_lock : bool;                            (* OWNProtocol._lock is held *)
  s_paused : bool;                          (* transport._protocol_paused *)
  s_lost : bool;                            (* transport._conn_lost *)
  s_buffer : list N;                        (* transport._buffer *)
  s_wire : list N;                          (* bytes accepted by the socket *)
  s_tasks : list sstat;
  s_calls : list (nat * msg);               (* calls of send_message, in order *)
  s_done : list (nat * msg * outcome);      (* finished calls, in order *)
  s_blocked : bool;                         (* Lock.acquire() on a held lock: the loop is dead *)
  s_error : bool                            (* Lock.release() on a free lock: RuntimeError *)
}.

Section water.
Variables high low : nat.

(** protocol.py:97-100 pause_writing = Lock.acquire() *)
Definition pause_writing (s : sstate) : sstate :=
  {| s_lock := true; s_paused := s_paused s; s_lost := s_lost s; s_buffer := s_buffer s; s_wire := s_wire s;
     s_tasks := s_tasks s; s_calls := s_calls s; s_done := s_done s;
     s_blocked := s_blocked s || s_lock s; s_error := s_error s |}.

(** protocol.py:102-105 resume_writing = Lock.release() *)
Definition resume_writing (s : sstate) : sstate :=
  {| s_lock := false; s_paused := s_paused s; s_lost := s_lost s; s_buffer := s_buffer s; s_wire := s_wire s;
     s_tasks := s_tasks s; s_calls := s_calls s; s_done := s_done s;
     s_blocked := s_blocked s; s_error := s_error s || negb (s_lock s) |}.

Definition set_paused (b : bool) (s : sstate) : sstate :=
  {| s_lock := s_lock s; s_paused := b; s_lost := s_lost s; s_buffer := s_buffer s; s_wire := s_wire s;
     s_tasks := s_tasks s; s_calls := s_calls s; s_done := s_done s;
     s_blocked := s_blocked s; s_error := s_error s |}.

Definition set_bytes (buffer wire : list N) (s : sstate) : sstate :=
  {| s_lock := s_lock s; s_paused := s_paused s; s_lost := s_lost s; s_buffer := buffer; s_wire := wire;
     s_tasks := s_tasks s; s_calls := s_calls s; s_done := s_done s;
     s_blocked := s_blocked s; s_error := s_error s |}.

Definition maybe_pause (s : sstate) : sstate :=
  if (length (s_buffer s) <=? high)%nat then s
  else if s_paused s then s else pause_writing (set_paused true s).

Definition maybe_resume (s : sstate) : sstate :=
  if s_paused s && (length (s_buffer s) <=? low)%nat then resume_writing (set_paused false s) else s.

(** transport.write: [k] is what the socket would accept at once, which is only
    tried when the buffer is empty. *)
Definition transport_write (k : nat) (data : list N) (s : sstate) : sstate :=
  match data with
  | [] => s
  | _ =>
    if s_lost s then s
    else
      match s_buffer s with
      | [] =>
          match skipn k data with
          | [] => set_bytes [] (s_wire s ++ data) s
          | rest => maybe_pause (set_bytes rest (s_wire s ++ firstn k data) s)
          end
      | b => maybe_pause (set_bytes (b ++ data) (s_wire s) s)
      end
  end.

Definition finish (i : nat) (m : msg) (o : outcome) (s : sstate) : sstate :=
  {| s_lock := s_lock s; s_paused := s_paused s; s_lost := s_lost s; s_buffer := s_buffer s; s_wire := s_wire s;
     s_tasks := setnth i SIdle (s_tasks s); s_calls := s_calls s; s_done := s_done s ++ [(i, m, o)];
     s_blocked := s_blocked s; s_error := s_error s |}.

Definition set_task (i : nat) (t : sstat) (s : sstate) : sstate :=
  {| s_lock := s_lock s; s_paused := s_paused s; s_lost := s_lost s; s_buffer := s_buffer s; s_wire := s_wire s;
     s_tasks := setnth i t (s_tasks s); s_calls := s_calls s; s_done := s_done s;
     s_blocked := s_blocked s; s_error := s_error s |}.

Definition log_call (i : nat) (m : msg) (s : sstate) : sstate :=
  {| s_lock := s_lock s; s_paused := s_paused s; s_lost := s_lost s; s_buffer := s_buffer s; s_wire := s_wire s;
     s_tasks := s_tasks s; s_calls := s_calls s ++ [(i, m)]; s_done := s_done s;
     s_blocked := s_blocked s; s_error := s_error s |}.

(** protocol.py:118-122: test the lock, sleep or write and return. *)
Definition try_write (i k : nat) (m : msg) (data : list N) (s : sstate) : sstate :=
  if s_lock s then set_task i (SSleep m data) s
  else finish i m (if s_lost s then ODropped else OWritten) (transport_write k data s).

Inductive sevent :=
| ESend (i : nat) (m : msg) (k : nat)   (* task i calls send_message(m) *)
| EWake (i : nat) (k : nat)             (* the sleep of task i is over *)
| ECancelSend (i : nat)                 (* task i is cancelled while asleep *)
| EDrain (k : nat)                      (* the socket accepts k bytes of the buffer *)
| ELost.                                (* the connection is lost: _force_close *)

Definition sstep (s : sstate) (e : sevent) : option sstate :=
  match e with
  | ESend i m k =>
      match nth_error (s_tasks s) i with
      | Some SIdle =>
          match msg_bytes m with
          | Ok data => Some (try_write i k m data (log_call i m s))
          | Err x => Some (finish i m (ORaised x) (log_call i m s))
          end
      | _ => None
      end
  | EWake i k =>
      match nth_error (s_tasks s) i with
      | Some (SSleep m data) => Some (try_write i k m data s)
      | _ => None
      end
  | ECancelSend i =>
      match nth_error (s_tasks s) i with
      | Some (SSleep m data) => Some (finish i m OCancelled s)
      | _ => None
      end
  | EDrain k =>
      if s_lost s then None
      else match s_buffer s with
           | [] => None
           | b => if (k <=? length b)%nat && negb (k =? 0)%nat
                  then Some (maybe_resume (set_bytes (skipn k b) (s_wire s ++ firstn k b) s))
                  else None
           end
  | ELost =>
      if s_lost s then None
      else Some {| s_lock := s_lock s; s_paused := s_paused s; s_lost := true; s_buffer := []; s_wire := s_wire s;
                   s_tasks := s_tasks s; s_calls := s_calls s; s_done := s_done s;
                   s_blocked := s_blocked s; s_error := s_error s |}
  end.

Fixpoint srun (s : sstate) (es : list sevent) : option sstate :=
  match es with
  | [] => Some s
  | e :: es' => match sstep s e with Some s' => srun s' es' | None => None end
  end.
End water.

Definition sinit (n : nat) : sstate :=
  {| s_lock := false; s_paused := false; s_lost := false; s_buffer := []; s_wire := [];
     s_tasks := repeat SIdle n; s_calls := []; s_done := []; s_blocked := false; s_error := false |}.
