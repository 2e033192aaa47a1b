(** * Several loop() and read_message() calls on one event client

    client.py:79-143 and client/base.py:225-241 on top of the queue of Queue.v:
    any number of tasks, each of which calls loop() or read_message() again and
    again.  Between two reads a loop does not give up control: get() on a
    non-empty queue, asyncio.timeout(None), _dispatch_callbacks and
    call_callbacks never suspend.  Not modelled: start() after close(). *)
From Coq Require Import String List NArith ZArith Bool Lia.
From Verif Require Import PyStr Tags Messages Protocol Queue IO Client Items Dispatch.
Import ListNotations.
Open Scope N_scope.
Open Scope list_scope.

(** What a task is in the middle of, and how a call ended.  [OCancelled]: the
    task was cancelled, or the time given to read_message was over. *)
Inductive job := JNone | JLoop | JRead.
Inductive outcome := OReturned | OFailed (e : exn) | OMessage (m : msg) | OCancelled.

Record mstate := {
  m_session : session;
  m_closed : bool;                       (* close() was called: _transport and _protocol are None *)
  m_q : qstate;                          (* the queue, its readers, the transport *)
  m_job : list job;                      (* one entry for each task *)
  m_items : items; m_reg : registry; m_started : list task;
  m_ended : list (nat * outcome)         (* calls that ended, in order *)
}.

Definition m_trans (s : mstate) : option bool := if m_closed s then None else Some (negb (c_open (q_conn (m_q s)))).

Definition with_q (q : qstate) (s : mstate) : mstate :=
  {| m_session := m_session s; m_closed := m_closed s; m_q := q; m_job := m_job s; m_items := m_items s; m_reg := m_reg s;
     m_started := m_started s; m_ended := m_ended s |}.
Definition acted (its : items) (ts : list task) (s : mstate) : mstate :=
  {| m_session := m_session s; m_closed := m_closed s; m_q := m_q s; m_job := m_job s; m_items := its; m_reg := m_reg s;
     m_started := m_started s ++ ts; m_ended := m_ended s |}.
Definition ends (i : nat) (o : outcome) (s : mstate) : mstate :=
  {| m_session := m_session s; m_closed := m_closed s; m_q := m_q s; m_job := setnth i JNone (m_job s); m_items := m_items s; m_reg := m_reg s;
     m_started := m_started s; m_ended := m_ended s ++ [(i, o)] |}.
Definition with_job (i : nat) (j : job) (s : mstate) : mstate :=
  {| m_session := m_session s; m_closed := m_closed s; m_q := m_q s; m_job := setnth i j (m_job s); m_items := m_items s; m_reg := m_reg s;
     m_started := m_started s; m_ended := m_ended s |}.

(** Task [i] from a call of get() to its next suspension or the end of its call:
    client.py:115-143 for a loop, client/base.py:238-241 for a read. *)
Fixpoint proceed (v : N) (fuel : nat) (i : nat) (j : job) (s : mstate) : mstate :=
  match fuel with
  | O => s
  | S fuel' =>
      let s' := with_q (try_get i (m_q s)) s in
      match c_queue (q_conn (m_q s)) with
      | [] => s'
      | m :: _ =>
          match j with
          | JLoop =>
              match handle v (m_reg s) (m_items s) m with
              | (its, ts, Some e) => ends i (OFailed e) (acted its ts s')
              | (its, ts, None) =>
                  match m_trans s with
                  | None => ends i (OFailed AttributeError) (acted its ts s')
                  | Some true => ends i OReturned (acted its ts s')
                  | Some false => proceed v fuel' i j (acted its ts s')
                  end
              end
          | _ => ends i (OMessage m) s'
          end
      end
  end.
Definition advance (v : N) (i : nat) (j : job) (s : mstate) : mstate := proceed v (S (length (c_queue (q_conn (m_q s))))) i j s.

Inductive mevent :=
| MLoop (i : nat)                         (* task i calls loop() *)
| MRead (i : nat)                         (* task i calls read_message() *)
| MPacket (data : list N)
| MRun (i : nat)                          (* the scheduled step of task i runs *)
| MCancel (i : nat)                       (* task i is cancelled, or its time is over *)
| MLost
| MClose
| MRegister (k : evkey) (c : callback)
| MLookup (w : who) (whr : str).

Definition shut (q : qstate) : qstate :=
  {| q_conn := {| c_queue := c_queue (q_conn q); c_open := false |}; q_getters := q_getters q; q_readers := q_readers q; q_out := q_out q |}.

(** [None]: the event cannot happen in this state. *)
Definition mstep (v : N) (s : mstate) (e : mevent) : option mstate :=
  match e with
  | MLoop i =>                            (* client.py:105-118 *)
      match nth_error (m_job s) i, nth_error (q_readers (m_q s)) i with
      | Some JNone, Some RIdle =>
          let s1 := with_job i JLoop s in
          Some (if is_cmd_session {| cl_session := m_session s; cl_proto := true |} then ends i (OFailed InvalidSession) s1
                else match m_trans s with
                     | None => ends i (OFailed InvalidSession) s1
                     | Some true => ends i OReturned s1
                     | Some false => advance v i JLoop s1
                     end)
      | _, _ => None
      end
  | MRead i =>                            (* client/base.py:235-241 *)
      match nth_error (m_job s) i, nth_error (q_readers (m_q s)) i with
      | Some JNone, Some RIdle =>
          let s1 := with_job i JRead s in
          Some (if m_closed s then ends i (OFailed InvalidSession) s1 else advance v i JRead s1)
      | _, _ => None
      end
  | MPacket d => match qstep (m_q s) (EPacket d) with Some q => Some (with_q q s) | None => None end
  | MRun i =>
      match nth_error (q_readers (m_q s)) i, nth_error (m_job s) i with
      | Some RWoken, Some j => Some (advance v i j s)
      | Some _, Some j => match qstep (m_q s) (ERun i) with Some q => Some (ends i OCancelled (with_q q s)) | None => None end
      | _, _ => None
      end
  | MCancel i => match qstep (m_q s) (ECancel i) with Some q => Some (with_q q s) | None => None end
  | MLost => Some (with_q (shut (m_q s)) s)
  | MClose =>                             (* client/base.py:243-249 *)
      Some {| m_session := m_session s; m_closed := true; m_q := shut (m_q s); m_job := m_job s; m_items := m_items s; m_reg := m_reg s;
              m_started := m_started s; m_ended := m_ended s |}
  | MRegister k c =>
      Some {| m_session := m_session s; m_closed := m_closed s; m_q := m_q s; m_job := m_job s; m_items := m_items s;
              m_reg := register (m_reg s) k c; m_started := m_started s; m_ended := m_ended s |}
  | MLookup w whr => Some (acted (fst (get_item (m_items s) w whr)) [] s)
  end.

Fixpoint mrun (v : N) (s : mstate) (es : list mevent) : option mstate :=
  match es with
  | [] => Some s
  | e :: es' => match mstep v s e with Some s' => mrun v s' es' | None => None end
  end.

(** A connected client in an event session and [n] tasks. *)
Definition minit (n : nat) (r : registry) : mstate :=
  {| m_session := Event; m_closed := false; m_q := qinit n; m_job := repeat JNone n; m_items := []; m_reg := r; m_started := []; m_ended := [] |}.
