(** * Conc: several calls at once on one client

    The readers of Queue.v with the code around their reads: a command
    (items/base.py:200-213, 270-287: write a frame, read one message, check it)
    and a request (items/base.py:215-268: write a frame, read until ACK).  Between the
    write and the call of get() there is no suspension point while the transport
    is not paused (client/base.py:208-241, protocol.py:107-131), nor between a
    reply and the next get(); the consumer of a request is one that does not
    suspend.  Not modelled: a paused transport, values yielded. *)
From Coq Require Import String List NArith ZArith Bool Lia.
From Verif Require Import PyStr Tags Messages Protocol Queue.
Import ListNotations.
Open Scope list_scope.

(** What a task is in the middle of. *)
Inductive pc := PIdle | PCommand | PRequest (keep : msg -> bool).

(** items/base.py:125-136 (command) and 227-238, 257-268 (request): what a
    message read means; [None]: read the next one. *)
Definition react (p : pc) (m : msg) : option (res unit) :=
  match p with
  | PIdle => None
  | PCommand => Some (if mtype_eqb (msg_type m) T_ACK then Ok tt else Err ResponseError)
  | PRequest keep =>
      if mtype_eqb (msg_type m) T_NACK then Some (Err ResponseError)
      else if mtype_eqb (msg_type m) T_ACK then Some (Ok tt)
      else if negb (keep m) then Some (Err ResponseError)
      else None
  end.

Record cstate := {
  k_q : qstate;                         (* the queue and its readers *)
  k_pc : list pc;                       (* one entry for each task *)
  k_writes : list (nat * list N);       (* frames handed to the transport, with the task *)
  k_done : list (nat * res unit)        (* calls that ended, in order *)
}.

Definition finished (i : nat) (r : res unit) (q : qstate) (s : cstate) : cstate :=
  {| k_q := q; k_pc := setnth i PIdle (k_pc s); k_writes := k_writes s; k_done := k_done s ++ [(i, r)] |}.
Definition moved (q : qstate) (s : cstate) : cstate :=
  {| k_q := q; k_pc := k_pc s; k_writes := k_writes s; k_done := k_done s |}.

(** Task [i] runs from a call of get() to its next suspension or its end. *)
Fixpoint pump (fuel : nat) (i : nat) (p : pc) (s : cstate) : cstate :=
  match fuel with
  | O => s
  | S fuel' =>
      let q' := try_get i (k_q s) in
      match c_queue (q_conn (k_q s)) with
      | [] => moved q' s
      | m :: _ => match react p m with Some r => finished i r q' s | None => pump fuel' i p (moved q' s) end
      end
  end.
Definition go (i : nat) (p : pc) (s : cstate) : cstate := pump (S (length (c_queue (q_conn (k_q s))))) i p s.

Inductive kevent :=
| KCall (i : nat) (p : pc) (b : list N)   (* task i starts a command or request with the frame b *)
| KPacket (data : list N)                 (* the transport calls data_received *)
| KRun (i : nat)                          (* the scheduled step of task i runs *)
| KTimeout (i : nat).                     (* the five seconds of task i are over *)

Definition cstep (s : cstate) (e : kevent) : option cstate :=
  match e with
  | KCall i p b =>
      match nth_error (k_pc s) i, p with
      | Some PIdle, PIdle => None
      | Some PIdle, _ =>
          match nth_error (q_readers (k_q s)) i with
          | Some RIdle => Some (go i p {| k_q := k_q s; k_pc := setnth i p (k_pc s); k_writes := k_writes s ++ [(i, b)]; k_done := k_done s |})
          | _ => None
          end
      | _, _ => None
      end
  | KPacket d => match qstep (k_q s) (EPacket d) with Some q => Some (moved q s) | None => None end
  | KRun i =>
      match nth_error (q_readers (k_q s)) i, nth_error (k_pc s) i with
      | Some RWoken, Some p => Some (go i p s)
      | Some _, Some p => match qstep (k_q s) (ERun i) with Some q => Some (finished i (Err TimeoutError) q s) | None => None end
      | _, _ => None
      end
  | KTimeout i => match qstep (k_q s) (ECancel i) with Some q => Some (moved q s) | None => None end
  end.

Fixpoint crun (s : cstate) (es : list kevent) : option cstate :=
  match es with
  | [] => Some s
  | e :: es' => match cstep s e with Some s' => crun s' es' | None => None end
  end.

Definition cinit (n : nat) : cstate := {| k_q := qinit n; k_pc := repeat PIdle n; k_writes := []; k_done := [] |}.
