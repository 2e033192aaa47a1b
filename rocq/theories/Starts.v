(** * Several start() calls on one client: pyown/client/base.py:81-206, 243-249

    start() awaits several times; in between other tasks run, which may call
    start() or close() on the same client.  Each read and each write looks up
    [self._protocol] anew (base.py:221-224, 236-240), a read that waits keeps the
    queue that it found.  Here start() is a program that other tasks can
    interrupt wherever it waits. *)
From Coq Require Import String List NArith ZArith Bool Lia.
From Verif Require Import PyStr Tags Messages AuthOpen AuthHmac IO Client Queue.
Import ListNotations.
Open Scope N_scope.
Open Scope list_scope.

(** What is left of a start() to do: send_message, read_message, or nothing. *)
Inductive prog :=
| PSend (m : msg) (k : prog)
| PRead (k : msg -> prog)
| PEnd (r : res unit).

Definition plift {A} (r : res A) (k : A -> prog) : prog := match r with Ok a => k a | Err e => PEnd (Err e) end.
Definition ptag (m : msg) (i : nat) (k : str -> prog) : prog := plift (index (msg_tags m) i) k.

(** client/base.py:141-153 *)
Definition open_prog (password nonce : str) : prog :=
  plift (own_calc_pass password nonce) (fun enc =>
  PSend (MGeneric [c_hash :: enc]) (PRead (fun resp =>
  if mtype_eqb (msg_type resp) T_ACK then PEnd (Ok tt) else PEnd (Err InvalidAuthentication)))).

(** client/base.py:155-206 *)
Definition hmac_prog (C : crypto) (password tag : str) (rnd : list N) : prog :=
  match alg_from_string tag with
  | Err _ => PSend MNack (PEnd (Err InvalidAuthentication))
  | Ok a =>
      PSend MAck (PRead (fun resp => ptag resp 0 (fun server_key =>
      let client_key := create_key C a rnd in
      plift (encode password) (fun _ =>
      let client_auth := client_hmac C server_key client_key password a in
      let server_auth := server_hmac C server_key client_key password a in
      plift (hex_to_digits client_key) (fun d1 => plift (hex_to_digits (hexs client_auth)) (fun d2 =>
      PSend (MGeneric [d1; d2]) (PRead (fun resp2 =>
      if mtype_eqb (msg_type resp2) T_NACK then PEnd (Err InvalidAuthentication)
      else ptag resp2 0 (fun t => plift (hex_to_digits t) (fun h => plift (fromhex h) (fun b =>
        if negb (compare_hmac server_auth b) then PEnd (Err InvalidAuthentication)
        else PSend MAck (PEnd (Ok tt))))))))))))) 
  end.

(** client/base.py:98-139, once the connection exists *)
Definition start_prog (C : crypto) (t : session) (password : str) (rnd : list N) : prog :=
  PRead (fun message =>
  if negb (mtype_eqb (msg_type message) T_ACK) then PEnd (Err InvalidAuthentication)
  else plift (session_message t) (fun sm => PSend sm (PRead (fun resp =>
    if mtype_eqb (msg_type resp) T_ACK then PEnd (Ok tt)
    else if (List.length (msg_tags resp) =? 1)%nat then ptag resp 0 (fun nonce => open_prog password nonce)
    else ptag resp 0 (fun t0 =>
      if str_eqb t0 (lit "98") then ptag resp 1 (fun tag => hmac_prog C password tag rnd)
      else PEnd (Err InvalidAuthentication)))))).

(** The program left alone with a connection, as in IO.v. *)
Fixpoint run_prog (p : prog) (s : script) : list (ev Empty_set) * script * res unit :=
  match p with
  | PEnd r => ([], s, r)
  | PSend m k =>
      match msg_bytes m with
      | Err e => ([], s, Err e)
      | Ok b => match run_prog k s with (es, s', r) => (Sent b :: es, s', r) end
      end
  | PRead k =>
      match s with
      | Some m :: s' => match run_prog (k m) s' with (es, s'', r) => (Got m :: es, s'', r) end
      | None :: s' => ([], s', Err TimeoutError)
      | [] => ([], [], Err TimeoutError)
      end
  end.

(** A connection: the unread messages, whether it is open, what the transport
    was given and what was read, each with the number of the task. *)
Record sconn := { n_unread : list msg; n_open : bool; n_given : list (nat * list N); n_taken : list (nat * msg) }.
Definition new_conn : sconn := {| n_unread := []; n_open := true; n_given := []; n_taken := [] |}.

(** A task that will call start(); one that waits in a read on connection [i];
    one whose start() has ended, or was cancelled. *)
Inductive stask := TNew | TWaits (i : nat) (k : msg -> prog) | TEnded (r : res unit) | TCancelled.

(** [s_current]: the connection of [_transport] and [_protocol]. *)
Record starts := { s_conns : list sconn; s_current : option nat; s_calls : list stask }.
Definition before_starts (n : nat) : starts := {| s_conns := []; s_current := None; s_calls := repeat TNew n |}.

Definition on_conn (f : sconn -> sconn) (i : nat) (l : list sconn) : list sconn :=
  match nth_error l i with Some c => setnth i (f c) l | None => l end.
Definition give (t : nat) (b : list N) (c : sconn) : sconn :=
  {| n_unread := n_unread c; n_open := n_open c; n_given := n_given c ++ [(t, b)]; n_taken := n_taken c |}.
Definition pop (t : nat) (c : sconn) : sconn :=
  match n_unread c with
  | m :: q => {| n_unread := q; n_open := n_open c; n_given := n_given c; n_taken := n_taken c ++ [(t, m)] |}
  | [] => c
  end.

(** Task [t] runs until it has to wait.  (The transport is not paused.)  A get()
    on a queue that is not empty takes its first message at once. *)
Fixpoint go (t : nat) (cur : option nat) (p : prog) (cs : list sconn) : list sconn * stask :=
  match p with
  | PEnd r => (cs, TEnded r)
  | PSend m k =>
      match cur with
      | None => (cs, TEnded (Err InvalidSession))
      | Some i =>
          match msg_bytes m with
          | Err e => (cs, TEnded (Err e))
          | Ok b => go t cur k (on_conn (give t b) i cs)
          end
      end
  | PRead k =>
      match cur with
      | None => (cs, TEnded (Err InvalidSession))
      | Some i =>
          match nth_error cs i with
          | Some c =>
              match n_unread c with
              | m :: _ => go t cur (k m) (on_conn (pop t) i cs)
              | [] => (cs, TWaits i k)
              end
          | None => (cs, TWaits i k)
          end
      end
  end.

(** create_connection of a task's start() ends: it succeeds, or raises OSError;
    messages arrive on a connection; the peer ends it; a waiting task is resumed
    with a message, by its timeout, or cancelled; close() is called. *)
Inductive sact :=
| SConnect (t : nat)
| SRefuse (t : nat)
| SArrive (i : nat) (ms : list msg)
| SDrop (i : nat)
| SWake (t : nat)
| STimeout (t : nat)
| SCancel (t : nat)
| SClose.

Definition set_call (s : starts) (t : nat) (x : list sconn * stask) : starts :=
  {| s_conns := fst x; s_current := s_current s; s_calls := setnth t (snd x) (s_calls s) |}.
Definition hang_up (c : sconn) : sconn := {| n_unread := n_unread c; n_open := false; n_given := n_given c; n_taken := n_taken c |}.
Definition hear (ms : list msg) (c : sconn) : sconn :=
  if n_open c then {| n_unread := n_unread c ++ ms; n_open := true; n_given := n_given c; n_taken := n_taken c |} else c.

Section Run.
Context (C : crypto) (ty : session) (pw : str) (rnd : nat -> list N).

Definition sstep (s : starts) (a : sact) : option starts :=
  match a with
  | SConnect t =>
      match nth_error (s_calls s) t with
      | Some TNew =>
          let i := length (s_conns s) in
          Some (set_call {| s_conns := s_conns s ++ [new_conn]; s_current := Some i; s_calls := s_calls s |} t
                  (go t (Some i) (start_prog C ty pw (rnd t)) (s_conns s ++ [new_conn])))
      | _ => None
      end
  | SRefuse t =>
      match nth_error (s_calls s) t with
      | Some TNew => Some (set_call s t (s_conns s, TEnded (Err TimeoutError)))
      | _ => None
      end
  | SArrive i ms => Some {| s_conns := on_conn (hear ms) i (s_conns s); s_current := s_current s; s_calls := s_calls s |}
  | SDrop i => Some {| s_conns := on_conn hang_up i (s_conns s); s_current := s_current s; s_calls := s_calls s |}
  | SWake t =>
      match nth_error (s_calls s) t with
      | Some (TWaits i k) =>
          match nth_error (s_conns s) i with
          | Some c =>
              match n_unread c with
              | m :: _ => Some (set_call s t (go t (s_current s) (k m) (on_conn (pop t) i (s_conns s))))
              | [] => None
              end
          | None => None
          end
      | _ => None
      end
  | STimeout t =>
      match nth_error (s_calls s) t with
      | Some (TWaits _ _) => Some (set_call s t (s_conns s, TEnded (Err TimeoutError)))
      | _ => None
      end
  | SCancel t =>
      match nth_error (s_calls s) t with
      | Some (TWaits _ _ | TNew) => Some (set_call s t (s_conns s, TCancelled))
      | _ => None
      end
  | SClose =>
      (* client/base.py:243-249 *)
      Some {| s_conns := match s_current s with Some i => on_conn hang_up i (s_conns s) | None => s_conns s end;
              s_current := None; s_calls := s_calls s |}
  end.

Fixpoint srun (s : starts) (l : list sact) : option starts :=
  match l with
  | [] => Some s
  | a :: l => match sstep s a with Some s' => srun s' l | None => None end
  end.
End Run.
