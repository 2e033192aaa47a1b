(** * The exception handler of the event loop: pyown/client/base.py:64-68, 260-275

    Every client installs its handler on the loop that it runs in, which it
    shares with the application.  Here the loop's handler, the contexts that
    asyncio reports to it, and the two futures of each client that can cause such
    reports. *)
From Coq Require Import String List NArith ZArith Bool Lia.
From Verif Require Import PyStr Tags Messages Protocol Errors Log.
Import ListNotations.
Open Scope N_scope.
Open Scope list_scope.

(** An exception object: its class, by name, and its [str]. *)
Record fault := Fault { f_class : str; f_text : str }.

(** The context dict of call_exception_handler (asyncio/base_events.py,
    documented there): the keys that base.py:262-275 reads, each present or not,
    [x_task], [x_protocol] and [x_transport] with the text of the object, and the
    names and texts of all other keys. *)
Record context := {
  x_message : option str; x_exception : option fault;
  x_task : option str; x_protocol : option str; x_transport : option str; x_rest : list (str * str) }.

(** What a report leads to: a record of "pyown.client"; the stack of a task on
    stderr; asyncio's own report on its logger, which names everything in the
    context and has the traceback; a call of the application's handler number
    [k]. *)
Inductive outcome :=
| Said (r : record)
| Stack (task : str)
| Usual (x : context)
| Told (k : N) (x : context).

(** f"{message}" of a missing key is "None". *)
Definition shown (m : option str) : str := match m with Some s => s | None => lit "None" end.

(** client/base.py:260-275 *)
Definition exception_handler (x : context) : list outcome :=
  match x_exception x with
  | None => []
  | Some e =>
      Said (Rec L_client ERROR (lit "Exception occurred: " ++ shown (x_message x) ++ lit " (" ++ f_text e ++ lit ")")) ::
      match x_task x with
      | Some t => [Stack t]
      | None =>
          match x_protocol x with
          | Some p => [Said (Rec L_client ERROR (lit "Protocol error: " ++ p))]
          | None =>
              match x_transport x with
              | Some t => [Said (Rec L_client ERROR (lit "Transport error: " ++ t))]
              | None => []
              end
          end
      end
  end.

(** asyncio/base_events.py: set_exception_handler stores one function or None;
    call_exception_handler calls it, or default_exception_handler. *)
Inductive slot := Nobody | App (k : N) | Library.

Definition call_handler (h : slot) (x : context) : list outcome :=
  match h with
  | Nobody => [Usual x]
  | App k => [Told k x]
  | Library => exception_handler x
  end.

(** The futures of base.py:67-68: pending, done, or done with an exception that
    nobody has asked for.  Line 101 awaits the first; nothing in pyown looks at
    the second. *)
Inductive ending := Waiting | Ended | EndedBy (e : fault).
Record ends := { e_start : bool; e_end : ending; e_gone : bool }.

Record evloop := { v_slot : slot; v_clients : list ends; v_out : list outcome }.
Definition new_loop : evloop := {| v_slot := Nobody; v_clients := []; v_out := [] |}.

(** The application sets a handler, or None; creates a client; the transport of
    client number [i] calls connection_made or connection_lost; client number
    [i] and its protocols are collected; close() is called; anything else on the
    loop reports a context. *)
Inductive hap :=
| HSet (k : option N)
| HNew
| HMade (i : nat)
| HLost (i : nat) (why : option fault)
| HGone (i : nat)
| HClose (i : nat)
| HReport (x : context).

(** asyncio/events.py, Handle._run: an exception that leaves a callback; [cb]
    the text that asyncio makes of the callback. *)
Definition invalid_state : fault := Fault (lit "InvalidStateError") (lit "invalid state").
Definition in_callback (cb h : str) : context :=
  {| x_message := Some (lit "Exception in callback " ++ cb); x_exception := Some invalid_state;
     x_task := None; x_protocol := None; x_transport := None; x_rest := [(lit "handle", h)] |}.

(** asyncio/futures.py, Future.__del__ *)
Definition unretrieved (e : fault) (fut : str) : context :=
  {| x_message := Some (lit "Future exception was never retrieved"); x_exception := Some e;
     x_task := None; x_protocol := None; x_transport := None; x_rest := [(lit "future", fut)] |}.

Fixpoint set_nth {A} (i : nat) (a : A) (l : list A) : list A :=
  match l, i with
  | [], _ => []
  | _ :: r, O => a :: r
  | b :: r, Datatypes.S j => b :: set_nth j a r
  end.

Definition say (v : evloop) (x : context) : evloop :=
  {| v_slot := v_slot v; v_clients := v_clients v; v_out := v_out v ++ call_handler (v_slot v) x |}.
Definition with_client (v : evloop) (i : nat) (c : ends) : evloop :=
  {| v_slot := v_slot v; v_clients := set_nth i c (v_clients v); v_out := v_out v |}.

Section Texts.
(** The texts of callbacks, handles and futures. *)
Variables (cb h fut : str).

Definition hstep (v : evloop) (e : hap) : evloop :=
  match e with
  | HSet k => {| v_slot := match k with Some k => App k | None => Nobody end; v_clients := v_clients v; v_out := v_out v |}
  | HNew =>
      (* client/base.py:64-68 *)
      {| v_slot := Library; v_clients := v_clients v ++ [{| e_start := false; e_end := Waiting; e_gone := false |}]; v_out := v_out v |}
  | HMade i =>
      (* protocol.py:45-51: set_result of a future that is done raises *)
      match nth_error (v_clients v) i with
      | Some c =>
          if e_gone c then v
          else if e_start c then say v (in_callback cb h)
          else with_client v i {| e_start := true; e_end := e_end c; e_gone := false |}
      | None => v
      end
  | HLost i why =>
      (* protocol.py:53-62 *)
      match nth_error (v_clients v) i with
      | Some c =>
          if e_gone c then v
          else
            match e_end c with
            | Waiting => with_client v i {| e_start := e_start c; e_end := match why with None => Ended | Some e => EndedBy e end; e_gone := false |}
            | _ => say v (in_callback cb h)
            end
      | None => v
      end
  | HGone i =>
      match nth_error (v_clients v) i with
      | Some c =>
          if e_gone c then v
          else
            let v' := with_client v i {| e_start := e_start c; e_end := e_end c; e_gone := true |} in
            match e_end c with EndedBy e => say v' (unretrieved e fut) | _ => v' end
      | None => v
      end
  | HClose _ =>
      (* client/base.py:243-249: the handler stays *)
      v
  | HReport x => say v x
  end.

Definition hrun (v : evloop) (l : list hap) : evloop := fold_left hstep l v.

End Texts.
