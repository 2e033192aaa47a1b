(** * Items: pyown/items/base.py *)
From Coq Require Import String List NArith ZArith Bool Lia.
From Verif Require Import PyStr Tags Messages IO Client.
Import ListNotations.
Open Scope N_scope.
Open Scope list_scope.

(** items/base.py:38-55: an item is its client, its WHO and its WHERE. *)
Record item := { it_client : client; it_who : who; it_where : str }.

(** items/base.py:103-112 _send_message: no [force]. *)
Definition item_send {Y} (it : item) (m : msg) : io Y unit := client_send (it_client it) false m.

(** items/base.py:114-123 _read_message *)
Definition item_read {Y} (it : item) : io Y msg := client_read (it_client it).

(** items/base.py:125-136 _check_ack *)
Definition check_ack {Y} (resp : msg) : io Y unit :=
  if negb (mtype_eqb (msg_type resp) T_ACK) then raise ResponseError else ret tt.

(** items/base.py:138-149 _check_nack *)
Definition check_nack {Y} (resp : msg) : io Y unit :=
  if mtype_eqb (msg_type resp) T_NACK then raise ResponseError else ret tt.

(** items/base.py:151-163 create_normal_message.  WHAT is given by its text:
    for a str (which includes the enum members) [What(what)] validates it, for
    a tag object the validation was done when it was made. *)
Definition create_normal_message (it : item) (what : str) : res msg :=
  do w <- mk what; Ok (MNormal (it_who it) w (it_where it)).

(** items/base.py:165-171 create_status_message *)
Definition create_status_message (it : item) : msg := MStatus (it_who it) (it_where it).

(** items/base.py:173-190 create_dimension_writing_message *)
Definition create_dimension_writing_message (it : item) (dim : str) (args : list str) : msg :=
  MDimWri (it_who it) (it_where it) dim args.

(** items/base.py:192-198 create_dimension_request_message *)
Definition create_dimension_request_message (it : item) (dim : str) : msg :=
  MDimReq (it_who it) (it_where it) dim.

(** items/base.py:200-213 send_normal_message *)
Definition send_normal_message {Y} (it : item) (what : str) : io Y unit :=
  let* m := lift (create_normal_message it what) in
  let* _ := item_send it m in
  let* resp := item_read it in
  check_ack resp.

(** The loop shared by send_status_request (items/base.py:227-238) and
    send_dimension_request (items/base.py:257-268).  [keep] is the isinstance
    test, [body] what the consumer of the generator does with one reply: the
    values it yields in turn, or the exception it raises.  It is written by
    recursion on the messages to come; [replies_unfold] in ItemThms.v shows
    that it is the loop of the source. *)
Fixpoint replies {Y} (keep : msg -> bool) (body : msg -> res (list Y)) (s : script)
  : list (ev Y) * script * res unit :=
  match s with
  | [] => ([], [], Err TimeoutError)
  | None :: s' => ([], s', Err TimeoutError)
  | Some m :: s' =>
      if mtype_eqb (msg_type m) T_NACK then ([Got m], s', Err ResponseError)
      else if mtype_eqb (msg_type m) T_ACK then ([Got m], s', Ok tt)
      else if negb (keep m) then ([Got m], s', Err ResponseError)
      else
        match body m with
        | Err e => ([Got m], s', Err e)
        | Ok ys =>
            match replies keep body s' with
            | (es, s'', r) => (Got m :: map Yielded ys ++ es, s'', r)
            end
        end
  end.

(** [_read_message] refuses when the client has no protocol. *)
Definition reply_loop {Y} (it : item) (keep : msg -> bool) (body : msg -> res (list Y)) : io Y unit :=
  if negb (cl_proto (it_client it)) then raise InvalidSession else replies keep body.

(** [isinstance(resp, NormalMessage)], [isinstance(resp, DimensionResponse)]:
    neither class has subclasses. *)
Definition is_normal (m : msg) : bool := mtype_eqb (msg_type m) T_NORMAL.
Definition is_dimres (m : msg) : bool := mtype_eqb (msg_type m) T_DIMRES.

(** items/base.py:215-238 send_status_request *)
Definition send_status_request {Y} (it : item) (body : msg -> res (list Y)) : io Y unit :=
  let* _ := item_send it (create_status_message it) in
  reply_loop it is_normal body.

(** items/base.py:240-268 send_dimension_request *)
Definition send_dimension_request {Y} (it : item) (dim : str) (body : msg -> res (list Y)) : io Y unit :=
  let* d := lift (mk dim) in
  let* _ := item_send it (create_dimension_request_message it d) in
  reply_loop it is_dimres body.

(** items/base.py:270-287 send_dimension_writing; the values are tags made by
    the caller. *)
Definition send_dimension_writing {Y} (it : item) (dim : str) (args : list str) : io Y unit :=
  let* d := lift (mk dim) in
  let* _ := item_send it (create_dimension_writing_message it d args) in
  let* resp := item_read it in
  check_ack resp.

(** The generator seen from outside: it yields the replies themselves. *)
Definition as_is (m : msg) : res (list msg) := Ok [m].

Fixpoint drop_yields {Y Z} (l : list (ev Y)) : list (ev Z) :=
  match l with
  | [] => []
  | Sent b :: r => Sent b :: drop_yields r
  | Got m :: r => Got m :: drop_yields r
  | Yielded _ :: r => drop_yields r
  end.

(** [[x async for x in g]] *)
Definition collect {Y Z} (g : io Y unit) : io Z (list Y) :=
  fun s =>
    match g s with
    | (es, s', r) => (drop_yields es, s', match r with Ok _ => Ok (yields es) | Err e => Err e end)
    end.

(** items/base.py:290-304 _single_dim_req; [messages[0]] is a
    DimensionResponse, the generator yields nothing else, so the isinstance
    test at the end never fails. *)
Definition single_dim_req {Y} (it : item) (dim : str) : io Y msg :=
  let* messages := collect (send_dimension_request it dim as_is) in
  match messages with
  | [] => raise ResponseError
  | resp :: _ => if is_dimres resp then ret resp else raise InvalidMessage
  end.

(** [message.where], [message.what], [message.dimension], [message.values] of
    the messages that have them. *)
Definition get_where (m : msg) : res str :=
  match msg_where m with Some r => Ok r | None => Err AttributeError end.
Definition get_what (m : msg) : res str :=
  match m with MNormal _ a _ => Ok a | _ => Err AttributeError end.
Definition get_dimension (m : msg) : res str :=
  match m with MDimReq _ _ d | MDimWri _ _ d _ | MDimRes _ _ d _ => Ok d | _ => Err AttributeError end.
Definition get_values (m : msg) : res (list str) :=
  match m with MDimWri _ _ _ v | MDimRes _ _ _ v => Ok v | _ => Err AttributeError end.

(** [int(message.values[i].tag)] *)
Definition int_value (vs : list str) (i : nat) : res Z :=
  do v <- index vs i; py_int (tag_tag v).
