(** * What is logged: the records of "pyown.protocol" and "pyown.client"

    protocol.py and client/base.py write log records and raise exceptions with
    texts.  Here both are followed for the life of a connection and for start().
    [other] gives the text of an exception that Python itself composes, from
    its class and the text it complains about; theorems hold whatever it is. *)
From Coq Require Import String List NArith ZArith Bool Lia.
From Verif Require Import PyStr Regex Tags Messages AuthOpen AuthHmac IO Protocol Client Items Energy Dispatch Errors.
Import ListNotations.
Open Scope N_scope.
Open Scope list_scope.

Inductive level := DEBUG | INFO | WARNING | ERROR.
(** protocol.py:13, client/base.py:25 and gateway.py:21 *)
Inductive logger := L_protocol | L_client | L_gateway.
Record record := Rec { r_logger : logger; r_level : level; r_text : str }.

Definition seen_at_info (r : record) : bool := match r_level r with DEBUG => false | _ => true end.

(** [", ".join(l)] *)
Fixpoint join2 (l : list str) : str :=
  match l with [] => [] | [x] => x | x :: r => x ++ lit ", " ++ join2 r end.

(** The class names: ack.py:12, nack.py:12, normal.py:12, status.py:10, dimension.py:14,54,111, base.py:148 *)
Definition class_name (k : mtype) : str :=
  match k with
  | T_ACK => lit "ACK" | T_NACK => lit "NACK" | T_NORMAL => lit "NormalMessage" | T_STATUS => lit "StatusRequest"
  | T_DIMREQ => lit "DimensionRequest" | T_DIMWRI => lit "DimensionWriting" | T_DIMRES => lit "DimensionResponse"
  | T_GENERIC => lit "GenericMessage"
  end.

(** messages/base.py:64-65 __repr__ *)
Definition msg_repr (m : msg) : str := lit "<" ++ class_name (msg_type m) ++ lit ": " ++ join 44 (msg_tags m) ++ lit ">".

(** [repr] of a list *)
Definition msgs_repr (ms : list msg) : str := lit "[" ++ join2 (map msg_repr ms) ++ lit "]".

(** exceptions.py:66,80: the text of a parse error. *)
Definition exn_text (other : exn -> str -> str) (r : raised) (data : list N) : str :=
  match r_class r, r_what r with
  | InvalidMessage, Some t => lit "Invalid message: " ++ t
  | InvalidTag, Some t => lit "Invalid tag: " ++ t
  | e, _ => other e data
  end.

(** ** The protocol object *)

(** protocol.py:73-91: the records of data_received.  An exception that is
    neither a UnicodeDecodeError nor a ParseError leaves unlogged. *)
Definition data_log (other : exn -> str -> str) (data : list N) : list record :=
  match packet_messages_x data with
  | Okx [] => []
  | Okx ms => [Rec L_protocol DEBUG (lit "Received messages: " ++ msgs_repr ms)]
  | Raise r =>
      match r_class r with
      | UnicodeDecodeError => [Rec L_protocol WARNING (lit "Received data not ascii: " ++ hexs data)]
      | InvalidMessage | InvalidTag => [Rec L_protocol WARNING (lit "Received invalid message: " ++ exn_text other r data)]
      | _ => []
      end
  end.

(** client/base.py:260-273 _exception_handler with the context that asyncio
    gives for an exception of data_received (selector_events.py,
    _read_ready__data_received and _fatal_error: message, exception, transport,
    protocol); [self] is the text of the protocol object. *)
Definition handler_log (other : exn -> str -> str) (self : str) (data : list N) : list record :=
  match packet_messages_x data with
  | Okx _ => []
  | Raise r =>
      [Rec L_client ERROR (lit "Exception occurred: Fatal error: protocol.data_received() call failed. (" ++ exn_text other r data ++ lit ")");
       Rec L_client ERROR (lit "Protocol error: " ++ self)]
  end.

(** What happens to a connection: packets arrive, a send reaches line 121, the
    transport pauses and resumes, close() is called, the transport reports the
    end (with the text of the exception if there is one). *)
Inductive nev :=
| NData (data : list N)
| NSend (m : msg)
| NPause
| NResume
| NClose
| NLost (why : option str).

Record net := { n_conn : conn; n_written : list (list N); n_log : list record }.

(** protocol.py:45-51 connection_made *)
Definition connected : net := {| n_conn := fresh; n_written := []; n_log := [Rec L_protocol INFO (lit "Connection made")] |}.

Definition shut (c : conn) : conn := {| c_queue := c_queue c; c_open := false |}.

(** protocol.py:53-122.  A closing transport drops what is written to it
    (selector_events.py, write), line 122 is reached all the same. *)
Definition nstep (other : exn -> str -> str) (self : str) (n : net) (e : nev) : net :=
  match e with
  | NData data =>
      if c_open (n_conn n) then
        {| n_conn := deliver (n_conn n) data; n_written := n_written n;
           n_log := n_log n ++ data_log other data ++ handler_log other self data |}
      else n
  | NSend m =>
      match msg_bytes m with
      | Err _ => n
      | Ok b => {| n_conn := n_conn n; n_written := if c_open (n_conn n) then n_written n ++ [b] else n_written n;
                   n_log := n_log n ++ [Rec L_protocol DEBUG (lit "Sent message: " ++ msg_str m)] |}
      end
  | NPause => {| n_conn := n_conn n; n_written := n_written n; n_log := n_log n ++ [Rec L_protocol DEBUG (lit "Paused writing")] |}
  | NResume => {| n_conn := n_conn n; n_written := n_written n; n_log := n_log n ++ [Rec L_protocol DEBUG (lit "Resumed writing")] |}
  | NClose => {| n_conn := shut (n_conn n); n_written := n_written n; n_log := n_log n |}
  | NLost why =>
      {| n_conn := shut (n_conn n); n_written := n_written n;
         n_log := n_log n ++ [Rec L_protocol INFO (match why with
                                                   | Some t => lit "Connection lost with exception: " ++ t
                                                   | None => lit "Connection lost"
                                                   end)] |}
  end.

Definition nrun (other : exn -> str -> str) (self : str) (es : list nev) : net := fold_left (nstep other self) es connected.

(** ** start() *)

Inductive lev := LSent (b : list N) | LGot (m : msg) | LLog (r : record).

(** Like [io], with log records among the events and exceptions with their texts. *)
Definition lio (A : Type) := script -> list lev * script * (A + (exn * str)).

Definition lret {A} (a : A) : lio A := fun s => ([], s, inl a).
Definition lraise {A} (e : exn) (t : str) : lio A := fun s => ([], s, inr (e, t)).
Definition llift {A} (t : exn -> str) (r : res A) : lio A :=
  fun s => ([], s, match r with Ok a => inl a | Err e => inr (e, t e) end).
Definition landthen {A B} (x : lio A) (f : A -> lio B) : lio B :=
  fun s =>
    match x s with
    | (es, s', inl a) => match f a s' with (es', s'', r) => (es ++ es', s'', r) end
    | (es, s', inr e) => (es, s', inr e)
    end.
Notation "'do*' x := a 'in' b" := (landthen a (fun x => b))
  (at level 200, x name, a at level 100, b at level 200).
Definition say (g : logger) (l : level) (t : str) : lio unit := fun s => ([LLog (Rec g l t)], s, inl tt).
Definition lput (b : list N) : lio unit := fun s => ([LSent b], s, inl tt).
Definition ltake : lio msg :=
  fun s =>
    match s with
    | Some m :: s' => ([LGot m], s', inl m)
    | None :: s' => ([], s', inr (TimeoutError, []))
    | [] => ([], [], inr (TimeoutError, []))
    end.

(** client/base.py:208-223 with protocol.py:107-122, always with [force] *)
Definition client_send_l (other : exn -> str -> str) (c : client) (m : msg) : lio unit :=
  if negb (cl_proto c) then lraise InvalidSession (lit "Client not started")
  else do* b := llift (fun e => other e (msg_str m)) (msg_bytes m) in
       do* _ := lput b in say L_protocol DEBUG (lit "Sent message: " ++ msg_str m).

(** client/base.py:225-241 *)
Definition client_read_l (c : client) : lio msg :=
  if negb (cl_proto c) then lraise InvalidSession (lit "Client not started") else ltake.

Definition tag_at_l (other : exn -> str -> str) (m : msg) (i : nat) : lio str :=
  llift (fun e => other e (msg_str m)) (index (msg_tags m) i).

(** [int(s)] (open.py:23): the ValueError shows the argument as [%.200R]
    (Objects/longobject.c).  [repr] adds two quotes to a text of at most 198 printable
    ASCII characters without quote and backslash; for other texts the exception
    is left to [odd]. *)
Definition simple_text (s : str) : bool :=
  forallb (fun c => (32 <=? c) && (c <? 127) && negb (c =? 39) && negb (c =? 92)) s && (slen s <=? 198).
Definition int_text (odd : str -> str) (s : str) : str :=
  if simple_text s then lit "invalid literal for int() with base 10: '" ++ s ++ lit "'" else odd s.

(** client/base.py:141-153 *)
Definition auth_open_l (other : exn -> str -> str) (odd : str -> str) (c : client) (password nonce : str) : lio unit :=
  do* enc := llift (fun _ => int_text odd password) (own_calc_pass password nonce) in
  do* _ := client_send_l other c (MGeneric [c_hash :: enc]) in
  do* resp := client_read_l c in
  if mtype_eqb (msg_type resp) T_ACK then lret tt else lraise InvalidAuthentication (lit "Invalid password").

(** client/base.py:155-206 *)
Definition auth_hmac_l (other : exn -> str -> str) (C : crypto) (c : client) (password tag : str) (rnd : list N) : lio unit :=
  match alg_from_string tag with
  | Err _ =>
      do* _ := client_send_l other c MNack in
      lraise InvalidAuthentication (lit "Invalid hash algorithm")
  | Ok a =>
      do* _ := client_send_l other c MAck in
      do* resp := client_read_l c in
      do* server_key := tag_at_l other resp 0 in
      let client_key := create_key C a rnd in
      do* _ := llift (fun e => other e password) (encode password) in
      let client_auth := client_hmac C server_key client_key password a in
      let server_auth := server_hmac C server_key client_key password a in
      do* d1 := llift (fun e => other e client_key) (hex_to_digits client_key) in
      do* d2 := llift (fun e => other e (hexs client_auth)) (hex_to_digits (hexs client_auth)) in
      do* _ := client_send_l other c (MGeneric [d1; d2]) in
      do* resp2 := client_read_l c in
      if mtype_eqb (msg_type resp2) T_NACK then lraise InvalidAuthentication (lit "Invalid password")
      else
        do* t := tag_at_l other resp2 0 in
        do* h := llift (fun e => other e t) (hex_to_digits t) in
        do* b := llift (fun e => other e h) (fromhex h) in
        if negb (compare_hmac server_auth b) then lraise InvalidAuthentication (lit "Invalid password")
        else client_send_l other c MAck
  end.

(** client/base.py:98-139 *)
Definition handshake_l (other : exn -> str -> str) (odd : str -> str) (C : crypto) (c : client) (password : str) (rnd : list N) : lio unit :=
  do* _ := say L_client DEBUG (lit "Connection started") in
  do* message := client_read_l c in
  if negb (mtype_eqb (msg_type message) T_ACK) then lraise InvalidAuthentication (lit "Expected ACK message")
  else
    do* _ := say L_client DEBUG (lit "Starting handshake") in
    do* sm := llift (fun e => other e (session_value (cl_session c))) (session_message (cl_session c)) in
    do* _ := client_send_l other c sm in
    do* resp := client_read_l c in
    do* _ :=
      if mtype_eqb (msg_type resp) T_ACK then say L_client INFO (lit "No authentication required")
      else if (List.length (msg_tags resp) =? 1)%nat then
        do* _ := say L_client INFO (lit "Using open authentication") in
        do* nonce := tag_at_l other resp 0 in
        auth_open_l other odd c password nonce
      else
        do* t := tag_at_l other resp 0 in
        if str_eqb t (lit "98") then
          do* _ := say L_client INFO (lit "Using hmac authentication") in
          do* tag := tag_at_l other resp 1 in
          auth_hmac_l other C c password tag rnd
        else lraise InvalidAuthentication (lit "Invalid authentication response") in
    say L_client INFO (lit "Client ready").

(** client/base.py:81-139 start; connection_made (protocol.py:47) comes first. *)
Definition start_l (other : exn -> str -> str) (odd : str -> str) (C : crypto) (c : client) (password : str) (rnd : list N)
    (connected : bool) (s : script) : client * (list lev * script * (unit + (exn * str))) :=
  if connected then
    let c' := {| cl_session := cl_session c; cl_proto := true |} in
    (c', (do* _ := say L_protocol INFO (lit "Connection made") in handshake_l other odd C c' password rnd) s)
  else (c, ([], s, inr (TimeoutError, lit "Could not connect to the server"))).

(** Forgetting the records and the texts. *)
Fixpoint forget_log {Y} (l : list lev) : list (ev Y) :=
  match l with
  | [] => []
  | LSent b :: r => Sent b :: forget_log r
  | LGot m :: r => Got m :: forget_log r
  | LLog _ :: r => forget_log r
  end.
Definition forget_text {A} (r : A + (exn * str)) : res A := match r with inl a => Ok a | inr (e, _) => Err e end.
Fixpoint logged (l : list lev) : list record :=
  match l with [] => [] | LLog r :: l => r :: logged l | _ :: l => logged l end.
