(** * loop() on a client that is started again: pyown/client/client.py:105-143,
      pyown/client/base.py:80-101, 225-249, pyown/protocol/protocol.py:124-131

    Each start() makes a connection with a queue of its own.  A loop() that waits,
    waits on the queue of the connection it read from last ([self._protocol] was
    looked up when read_message was called); the test of its while and its next
    read are about the connection that the client has then.  Any number of tasks
    which call loop(), and any number of connections.  Simplifications: start() is
    one step, at its return, with what it read taken away (C136 and C137 are about
    what happens meanwhile); the only readers are loops (C100 has others); on one
    connection as in Loops.v. *)
From Coq Require Import String List NArith ZArith Bool Lia.
From Verif Require Import PyStr Tags Messages Protocol Queue IO Client Items Dispatch Loops.
Import ListNotations.
Open Scope N_scope.
Open Scope list_scope.

(** [a_qs]: the queue and the transport of every connection, in order; [a_cur]:
    the one that [_transport] and [_protocol] refer to; [a_at]: for each task the
    connection on which its loop() waits; [a_taken]: what the loops read, with the
    connection, the task and the callbacks registered then. *)
Record again := {
  a_qs : list qstate; a_cur : option nat; a_at : list (option nat);
  a_items : items; a_reg : registry; a_started : list task;
  a_taken : list (nat * nat * (registry * msg)); a_ended : list (nat * outcome) }.

Definition set_q (k : nat) (q : qstate) (s : again) : again :=
  {| a_qs := setnth k q (a_qs s); a_cur := a_cur s; a_at := a_at s; a_items := a_items s; a_reg := a_reg s; a_started := a_started s; a_taken := a_taken s; a_ended := a_ended s |}.
Definition set_at (i : nat) (x : option nat) (s : again) : again :=
  {| a_qs := a_qs s; a_cur := a_cur s; a_at := setnth i x (a_at s); a_items := a_items s; a_reg := a_reg s; a_started := a_started s; a_taken := a_taken s; a_ended := a_ended s |}.
Definition took (k i : nat) (m : msg) (its : items) (ts : list task) (s : again) : again :=
  {| a_qs := a_qs s; a_cur := a_cur s; a_at := a_at s; a_items := its; a_reg := a_reg s; a_started := a_started s ++ ts;
     a_taken := a_taken s ++ [(k, i, (a_reg s, m))]; a_ended := a_ended s |}.
Definition leave (i : nat) (o : outcome) (s : again) : again :=
  {| a_qs := a_qs s; a_cur := a_cur s; a_at := setnth i None (a_at s); a_items := a_items s; a_reg := a_reg s; a_started := a_started s; a_taken := a_taken s;
     a_ended := a_ended s ++ [(i, o)] |}.

(** Whether the transport of connection [k] is not closing. *)
Definition up (s : again) (k : nat) : bool := match nth_error (a_qs s) k with Some q => c_open (q_conn q) | None => false end.

(** Task [i] from a call of get() on the queue of connection [k] to its next
    suspension or to the end of its loop(): client.py:115-143. *)
Fixpoint go (v : N) (fuel : nat) (i k : nat) (s : again) : again :=
  match fuel with
  | O => s
  | S fuel =>
      match nth_error (a_qs s) k with
      | None => s
      | Some q =>
          match c_queue (q_conn q) with
          | [] => set_at i (Some k) (set_q k (try_get i q) s)
          | m :: _ =>
              match handle v (a_reg s) (a_items s) m with
              | (its, ts, x) =>
                  let s2 := took k i m its ts (set_q k (try_get i q) s) in
                  match x with
                  | Some e => leave i (OFailed e) s2
                  | None =>
                      match a_cur s with
                      | None => leave i (OFailed AttributeError) s2
                      | Some k' => if up s k' then go v fuel i k' s2 else leave i OReturned s2
                      end
                  end
              end
          end
      end
  end.
Definition pending (s : again) : nat := list_sum (map (fun q => length (c_queue (q_conn q))) (a_qs s)).
Definition going (v : N) (i k : nat) (s : again) : again := go v (S (pending s)) i k s.

(** start() returns; close(); task [i] calls loop(), is resumed, is cancelled; a
    packet on connection [k]; the peer ends it; a callback is registered. *)
Inductive aevent :=
| AStart | AClose
| ALoop (i : nat) | ARun (i : nat) | ACancel (i : nat)
| APacket (k : nat) (d : list N) | ADrop (k : nat)
| ARegister (key : evkey) (c : callback).

Definition astep (v : N) (s : again) (e : aevent) : option again :=
  match e with
  | AStart =>                             (* client/base.py:88-101 *)
      Some {| a_qs := a_qs s ++ [qinit (length (a_at s))]; a_cur := Some (length (a_qs s)); a_at := a_at s; a_items := a_items s; a_reg := a_reg s;
              a_started := a_started s; a_taken := a_taken s; a_ended := a_ended s |}
  | AClose =>                             (* client/base.py:243-249 *)
      match a_cur s with
      | None => Some s
      | Some k =>
          Some {| a_qs := match nth_error (a_qs s) k with Some q => setnth k (shut q) (a_qs s) | None => a_qs s end; a_cur := None; a_at := a_at s;
                  a_items := a_items s; a_reg := a_reg s; a_started := a_started s; a_taken := a_taken s; a_ended := a_ended s |}
      end
  | ALoop i =>                            (* client.py:105-118 *)
      match nth_error (a_at s) i with
      | Some None =>
          Some (match a_cur s with
                | None => leave i (OFailed InvalidSession) s
                | Some k => if up s k then going v i k s else leave i OReturned s
                end)
      | _ => None
      end
  | ARun i =>
      match nth_error (a_at s) i with
      | Some (Some k) =>
          match nth_error (a_qs s) k with
          | Some q =>
              match nth_error (q_readers q) i with
              | Some RWoken => Some (going v i k s)
              | Some _ => match qstep q (Queue.ERun i) with Some q' => Some (leave i OCancelled (set_q k q' s)) | None => None end
              | None => None
              end
          | None => None
          end
      | _ => None
      end
  | ACancel i =>
      match nth_error (a_at s) i with
      | Some (Some k) =>
          match nth_error (a_qs s) k with
          | Some q => match qstep q (Queue.ECancel i) with Some q' => Some (set_q k q' s) | None => None end
          | None => None
          end
      | _ => None
      end
  | APacket k d =>
      match nth_error (a_qs s) k with
      | Some q => match qstep q (EPacket d) with Some q' => Some (set_q k q' s) | None => None end
      | None => None
      end
  | ADrop k => match nth_error (a_qs s) k with Some q => Some (set_q k (shut q) s) | None => None end
  | ARegister key c =>
      Some {| a_qs := a_qs s; a_cur := a_cur s; a_at := a_at s; a_items := a_items s; a_reg := register (a_reg s) key c;
              a_started := a_started s; a_taken := a_taken s; a_ended := a_ended s |}
  end.

Fixpoint arun (v : N) (s : again) (es : list aevent) : option again :=
  match es with
  | [] => Some s
  | e :: es => match astep v s e with Some s' => arun v s' es | None => None end
  end.

(** An event client that has not been started, and [n] tasks. *)
Definition ainit (n : nat) (r : registry) : again :=
  {| a_qs := []; a_cur := None; a_at := repeat None n; a_items := []; a_reg := r; a_started := []; a_taken := []; a_ended := [] |}.
