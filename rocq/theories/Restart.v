(** * The connections of a client over its life: pyown/client/base.py, pyown/protocol/protocol.py *)
From Coq Require Import String List NArith ZArith Bool Lia.
From Verif Require Import PyStr Tags Messages Protocol Queue.
Import ListNotations.
Open Scope N_scope.
Open Scope list_scope.

(** The futures of client/base.py:67-68, created once for each client: pending,
    or done. *)
Inductive future := Pending | Done.

(** client/base.py:61-68.  [lc_conns]: every connection ever made, in order,
    each with its own OWNProtocol and so its own queue (protocol.py:37-43);
    [lc_lost]: whether connection_lost was called on it; [lc_current]: the one
    that [_transport] and [_protocol] refer to; [lc_errors]: the number of
    InvalidStateErrors raised in callbacks of the protocol, which asyncio passes
    to the exception handler (client/base.py:260-275); [lc_reads]: what
    read_message returned, with the connection read from. *)
Record life := {
  lc_conns : list conn; lc_lost : list bool; lc_current : option nat;
  lc_start : future; lc_end : future; lc_errors : nat;
  lc_reads : list (nat * msg) }.

Definition born : life :=
  {| lc_conns := []; lc_lost := []; lc_current := None; lc_start := Pending; lc_end := Pending; lc_errors := 0; lc_reads := [] |}.

(** One step each: create_connection inside start() succeeds or raises OSError;
    a packet arrives on a connection; the peer ends a connection; the transport
    of an ended connection calls connection_lost; close() is called;
    read_message finds a message (or nothing, which changes nothing). *)
Inductive lact :=
| Connect
| ConnectFails
| Arrive (i : nat) (data : list N)
| Drop (i : nat)
| LostCall (i : nat)
| CloseClient
| Read.

Definition shut (c : conn) : conn := {| c_queue := c_queue c; c_open := false |}.
Definition update_conn (f : conn -> conn) (i : nat) (l : list conn) : list conn :=
  match nth_error l i with Some c => setnth i (f c) l | None => l end.
Definition with_conns (s : life) (l : list conn) : life :=
  {| lc_conns := l; lc_lost := lc_lost s; lc_current := lc_current s; lc_start := lc_start s; lc_end := lc_end s;
     lc_errors := lc_errors s; lc_reads := lc_reads s |}.

Definition lstep (s : life) (a : lact) : life :=
  match a with
  | Connect =>
      (* client/base.py:88-101, protocol.py:45-51 connection_made: set_result on
         a future that is done raises, after _transport has been set; the await
         of line 101 finds the future done *)
      {| lc_conns := lc_conns s ++ [fresh]; lc_lost := lc_lost s ++ [false]; lc_current := Some (length (lc_conns s));
         lc_start := Done; lc_end := lc_end s;
         lc_errors := match lc_start s with Pending => lc_errors s | Done => S (lc_errors s) end;
         lc_reads := lc_reads s |}
  | ConnectFails => s
  | Arrive i data => with_conns s (update_conn (fun c => deliver c data) i (lc_conns s))
  | Drop i => with_conns s (update_conn shut i (lc_conns s))
  | LostCall i =>
      (* protocol.py:53-62 connection_lost, once for each connection *)
      match nth_error (lc_conns s) i, nth_error (lc_lost s) i with
      | Some c, Some false =>
          if c_open c then s
          else {| lc_conns := lc_conns s; lc_lost := setnth i true (lc_lost s); lc_current := lc_current s;
                  lc_start := lc_start s; lc_end := Done;
                  lc_errors := match lc_end s with Pending => lc_errors s | Done => S (lc_errors s) end;
                  lc_reads := lc_reads s |}
      | _, _ => s
      end
  | CloseClient =>
      (* client/base.py:243-249 *)
      match lc_current s with
      | Some i => {| lc_conns := update_conn shut i (lc_conns s); lc_lost := lc_lost s; lc_current := None;
                     lc_start := lc_start s; lc_end := lc_end s; lc_errors := lc_errors s; lc_reads := lc_reads s |}
      | None => s
      end
  | Read =>
      (* client/base.py:225-241 *)
      match lc_current s with
      | Some i =>
          match nth_error (lc_conns s) i with
          | Some c =>
              match c_queue c with
              | m :: q => {| lc_conns := setnth i {| c_queue := q; c_open := c_open c |} (lc_conns s); lc_lost := lc_lost s;
                             lc_current := lc_current s; lc_start := lc_start s; lc_end := lc_end s;
                             lc_errors := lc_errors s; lc_reads := lc_reads s ++ [(i, m)] |}
              | [] => s
              end
          | None => s
          end
      | None => s
      end
  end.

Definition live (s : life) (acts : list lact) : life := fold_left lstep acts s.
