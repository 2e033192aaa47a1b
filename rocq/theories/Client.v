(** * The client: pyown/client/base.py, pyown/client/session.py *)
From Coq Require Import String List NArith ZArith Bool Lia.
From Verif Require Import PyStr Tags Messages AuthOpen AuthHmac IO.
Import ListNotations.
Open Scope N_scope.
Open Scope list_scope.

(** client/session.py:10-23 *)
Inductive session := OldCommand | Command | Event.
Definition session_value (t : session) : str :=
  match t with OldCommand => lit "0" | Command => lit "9" | Event => lit "1" end.

(** client/session.py:24-30 to_message: GenericMessage.parse, which validates
    the tags (messages/base.py:168-183). *)
Definition session_message (t : session) : res msg := parse_generic [lit "99"; session_value t].

(** The attributes of a client that matter here: its session type, and whether
    [_protocol] (and [_transport], always set and cleared together) is set. *)
Record client := { cl_session : session; cl_proto : bool }.

(** client/base.py:70-79 is_cmd_session *)
Definition is_cmd_session (c : client) : bool :=
  match cl_session c with Command | OldCommand => true | Event => false end.

(** client/base.py:208-223 send_message, with protocol.py:107-124: the bytes
    are computed first, so an encoding error writes nothing. *)
Definition client_send {Y} (c : client) (force : bool) (m : msg) : io Y unit :=
  if negb (is_cmd_session c) && negb force then raise InvalidSession
  else if negb (cl_proto c) then raise InvalidSession
  else let* b := lift (msg_bytes m) in put b.

(** client/base.py:225-241 read_message *)
Definition client_read {Y} (c : client) : io Y msg :=
  if negb (cl_proto c) then raise InvalidSession else take.

(** [resp.tags[i]] (messages/base.py:88-97).  The first tag of every message is
    a str: the tags of ACK, NACK and generic messages are plain strings and WHO
    is a StrEnum. *)
Definition tag_at {Y} (m : msg) (i : nat) : io Y str := lift (index (msg_tags m) i).

(** client/base.py:141-153 _authenticate_open *)
Definition auth_open {Y} (c : client) (password nonce : str) : io Y unit :=
  let* enc := lift (own_calc_pass password nonce) in
  let* _ := client_send c true (MGeneric [c_hash :: enc]) in
  let* resp := client_read c in
  if mtype_eqb (msg_type resp) T_ACK then ret tt else raise InvalidAuthentication.

(** client/base.py:155-206 _authenticate_hmac; [rnd] is the random bytes drawn
    by create_key. *)
Definition auth_hmac {Y} (C : crypto) (c : client) (password tag : str) (rnd : list N) : io Y unit :=
  match alg_from_string tag with
  | Err _ =>
      let* _ := client_send c true MNack in
      raise InvalidAuthentication
  | Ok a =>
      let* _ := client_send c true MAck in
      let* resp := client_read c in
      let* server_key := tag_at resp 0 in
      let client_key := create_key C a rnd in
      let* _ := lift (encode password) in
      let client_auth := client_hmac C server_key client_key password a in
      let server_auth := server_hmac C server_key client_key password a in
      let* d1 := lift (hex_to_digits client_key) in
      let* d2 := lift (hex_to_digits (hexs client_auth)) in
      let* _ := client_send c true (MGeneric [d1; d2]) in
      let* resp2 := client_read c in
      if mtype_eqb (msg_type resp2) T_NACK then raise InvalidAuthentication
      else
        let* t := tag_at resp2 0 in
        let* h := lift (hex_to_digits t) in
        let* b := lift (fromhex h) in
        if negb (compare_hmac server_auth b) then raise InvalidAuthentication
        else client_send c true MAck
  end.

(** client/base.py:98-139 start, once the connection exists. *)
Definition handshake {Y} (C : crypto) (c : client) (password : str) (rnd : list N) : io Y unit :=
  let* message := client_read c in
  if negb (mtype_eqb (msg_type message) T_ACK) then raise InvalidAuthentication
  else
    let* sm := lift (session_message (cl_session c)) in
    let* _ := client_send c true sm in
    let* resp := client_read c in
    if mtype_eqb (msg_type resp) T_ACK then ret tt
    else if (List.length (msg_tags resp) =? 1)%nat then
      let* nonce := tag_at resp 0 in
      auth_open c password nonce
    else
      let* t := tag_at resp 0 in
      if str_eqb t (lit "98") then
        let* tag := tag_at resp 1 in
        auth_hmac C c password tag rnd
      else raise InvalidAuthentication.

(** client/base.py:81-139 start: the client afterwards and what happened.
    [connected] is whether create_connection succeeded (an OSError becomes
    TimeoutError, and the attributes keep their old values).  A start that
    fails later leaves [_protocol] and [_transport] set. *)
Definition start {Y} (C : crypto) (c : client) (password : str) (rnd : list N) (connected : bool) (s : script)
  : client * (list (ev Y) * script * res unit) :=
  if connected then
    let c' := {| cl_session := cl_session c; cl_proto := true |} in
    (c', handshake C c' password rnd s)
  else (c, ([], s, Err TimeoutError)).

(** client/base.py:243-249 close *)
Definition close (c : client) : client := {| cl_session := cl_session c; cl_proto := false |}.

(** client/base.py:40-67 __init__ *)
Definition new_client (t : session) : client := {| cl_session := t; cl_proto := false |}.
