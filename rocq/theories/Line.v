(** * Line: calls over the whole line

    Sender.v (protocol.py:97-122 against the transport's buffer) and Conc.v (the
    message queue and the readers) together: a call of a command or request
    (items/base.py:200-287) first sends its message (client/base.py:208-223,
    protocol.py:107-122), which may have to wait for a paused transport, and goes
    on to read in the step in which the transport took it (items/base.py:125-136,
    227-238, 257-268: no suspension in between).  Not modelled: values yielded. *)
From Coq Require Import String List NArith ZArith Bool Lia.
From Verif Require Import PyStr Tags Messages Protocol Queue Sender Conc.
Import ListNotations.
Open Scope list_scope.

Record lstate := {
  l_s : sstate;                      (* send_message and the transport *)
  l_c : cstate;                      (* the queue and the readers *)
  l_next : list pc;                  (* how the call of a task goes on when its message is sent *)
  l_raised : list (nat * exn)        (* calls that ended because the message cannot be encoded *)
}.

Inductive levent :=
| LCall (i : nat) (p : pc) (m : msg) (k : nat)   (* task i starts a call; k: bytes the socket takes at once *)
| LWake (i : nat) (k : nat)                      (* the sleep of task i in send_message is over *)
| LCancel (i : nat)                              (* task i is cancelled in that sleep *)
| LDrain (k : nat)                               (* the socket takes k bytes of the buffer *)
| LLost                                          (* the connection is lost *)
| LPacket (data : list N)                        (* data_received *)
| LRun (i : nat)                                 (* the scheduled step of a reader *)
| LTimeout (i : nat).                            (* the five seconds of a reader are over *)

Definition only_s (s : sstate) (l : lstate) : lstate := {| l_s := s; l_c := l_c l; l_next := l_next l; l_raised := l_raised l |}.
Definition only_c (c : cstate) (l : lstate) : lstate := {| l_s := l_s l; l_c := c; l_next := l_next l; l_raised := l_raised l |}.

(** client/base.py:223, protocol.py:118-122 and then the first read: [s] is the
    sending side after the attempt to write. *)
Definition attempt (i : nat) (p : pc) (data : list N) (s : sstate) (l : lstate) : option lstate :=
  match nth_error (s_tasks s) i with
  | Some (SSleep _ _) => Some {| l_s := s; l_c := l_c l; l_next := setnth i p (l_next l); l_raised := l_raised l |}
  | Some SIdle =>
      match cstep (l_c l) (KCall i p data) with
      | Some c => Some {| l_s := s; l_c := c; l_next := setnth i PIdle (l_next l); l_raised := l_raised l |}
      | None => None
      end
  | None => None
  end.

Definition lift_s (r : option sstate) (l : lstate) : option lstate := match r with Some s => Some (only_s s l) | None => None end.
Definition lift_c (r : option cstate) (l : lstate) : option lstate := match r with Some c => Some (only_c c l) | None => None end.

Section water.
Variables high low : nat.

Definition lstep (l : lstate) (e : levent) : option lstate :=
  match e with
  | LCall i p m k =>
      match nth_error (k_pc (l_c l)) i, p with
      | Some PIdle, PIdle => None
      | Some PIdle, _ =>
          match sstep high low (l_s l) (ESend i m k) with
          | Some s =>
              match msg_bytes m with
              | Ok data => attempt i p data s l
              | Err x => Some {| l_s := s; l_c := l_c l; l_next := l_next l; l_raised := l_raised l ++ [(i, x)] |}
              end
          | None => None
          end
      | _, _ => None
      end
  | LWake i k =>
      match nth_error (s_tasks (l_s l)) i, nth_error (l_next l) i with
      | Some (SSleep m data), Some p =>
          match sstep high low (l_s l) (EWake i k) with Some s => attempt i p data s l | None => None end
      | _, _ => None
      end
  | LCancel i => lift_s (sstep high low (l_s l) (ECancelSend i)) l
  | LDrain k => lift_s (sstep high low (l_s l) (EDrain k)) l
  | LLost => lift_s (sstep high low (l_s l) ELost) l
  | LPacket d => lift_c (cstep (l_c l) (KPacket d)) l
  | LRun i => lift_c (cstep (l_c l) (KRun i)) l
  | LTimeout i => lift_c (cstep (l_c l) (KTimeout i)) l
  end.

Fixpoint lrun (l : lstate) (es : list levent) : option lstate :=
  match es with
  | [] => Some l
  | e :: es' => match lstep l e with Some l' => lrun l' es' | None => None end
  end.
End water.

Definition linit (n : nat) : lstate := {| l_s := sinit n; l_c := cinit n; l_next := repeat PIdle n; l_raised := [] |}.
