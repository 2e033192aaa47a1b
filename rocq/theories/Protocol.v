(** * Protocol: pyown/protocol/protocol.py, receiving side *)
From Coq Require Import String List NArith ZArith Bool Lia.
From Verif Require Import PyStr Regex Tags Messages.
Import ListNotations.
Open Scope N_scope.
Open Scope list_scope.

(** protocol.py:82 [if msg]: the empty pieces of the split are skipped. *)
Definition nonempty (s : str) : bool := match s with [] => false | _ => true end.

(** protocol.py:75-82: the messages of one packet, or the exception raised
    while decoding or parsing.  UnicodeDecodeError and ParseError are logged and
    re-raised (76-78, 83-85), any other exception escapes unlogged; in all cases
    the exception leaves the function. *)
Definition packet_messages (data : list N) : res (list msg) :=
  do raw <- decode_ascii data;
  let text := strip raw in
  mapM (fun p => parse_message (p ++ hh)) (filter nonempty (split_hh text)).

(** protocol.py:64-95 data_received: the queue afterwards and the exception, if
    any.  The loop 94-95 appends each message with put_nowait on an unbounded
    queue, which never fails; waking readers is modelled in Queue.v. *)
Definition data_received (queue : list msg) (data : list N) : list msg * option exn :=
  match packet_messages data with
  | Ok ms => (fold_left (fun q m => q ++ [m]) ms queue, None)
  | Err e => (queue, Some e)
  end.

(** The connection as driven by asyncio's selector transport
    (Lib/asyncio/selector_events.py, _SelectorSocketTransport._read_ready__data_received):
    an exception that leaves data_received is fatal, the transport is closed
    (_fatal_error, _force_close) and no further packet is delivered. *)
Record conn := { c_queue : list msg; c_open : bool }.

Definition deliver (c : conn) (data : list N) : conn :=
  if c_open c then
    match data_received (c_queue c) data with
    | (q, None) => {| c_queue := q; c_open := true |}
    | (q, Some _) => {| c_queue := q; c_open := false |}
    end
  else c.

Definition feed (c : conn) (packets : list (list N)) : conn := fold_left deliver packets c.

Definition fresh : conn := {| c_queue := []; c_open := true |}.
