(** * What the exceptions carry: pyown/exceptions.py and the places that raise

    The rest of the model identifies an exception with its class.  Here the
    attribute that the parse errors have ([InvalidMessage.message] and
    [InvalidTag.tag]) is followed too, through the parser, the class parsers,
    the packet reader, the constructors of the energy items and the callbacks. *)
From Coq Require Import String List NArith ZArith Bool Lia.
From Verif Require Import PyStr Regex Tags Messages Protocol Client Items Energy Dispatch ParseThms.
Import ListNotations.
Open Scope N_scope.
Open Scope list_scope.

(** exceptions.py:51-80: an exception with the text of its [message] (of
    InvalidMessage) or [tag] (of InvalidTag; a Tag object is represented by its
    string).  The exceptions of Python itself and the other classes have
    neither attribute: [None]. *)
Record raised := { r_class : exn; r_what : option str }.

Inductive xres (A : Type) := Okx (a : A) | Raise (r : raised).
Arguments Okx {A} _.
Arguments Raise {A} _.

Definition xbind {A B} (r : xres A) (f : A -> xres B) : xres B :=
  match r with Okx a => f a | Raise e => Raise e end.
Notation "'dox' x <- r ; k" := (xbind r (fun x => k)) (at level 60, x name, r at level 60, k at level 60, right associativity).

(** An exception without the attribute. *)
Definition plain {A} (r : res A) : xres A :=
  match r with Ok a => Okx a | Err e => Raise {| r_class := e; r_what := None |} end.

(** exceptions.py:60-66 InvalidMessage(message) with a str *)
Definition invalid_message {A} (m : str) : xres A := Raise {| r_class := InvalidMessage; r_what := Some m |}.
(** exceptions.py:61-62 InvalidMessage(message) with a list of tags:
    ["*" + "*".join(message) + "##"] *)
Definition invalid_message_tags {A} (tags : list str) : xres A :=
  invalid_message ([c_star] ++ join c_star tags ++ hh).
(** exceptions.py:78-80 InvalidTag(tag) *)
Definition invalid_tag {A} (t : str) : xres A := Raise {| r_class := InvalidTag; r_what := Some t |}.

Fixpoint mapMx {A B} (f : A -> xres B) (l : list A) : xres (list B) :=
  match l with
  | [] => Okx []
  | a :: r => dox b <- f a; dox bs <- mapMx f r; Okx (b :: bs)
  end.

(** tags/base.py:39-47 *)
Definition tag_make_x (a : pyarg) : xres str :=
  dox s <- plain (py_str a);
  if is_valid_tag s then Okx s else invalid_tag s.
Definition mk_x (t : str) : xres str := tag_make_x (AStr t).

(** ack.py:37-46 *)
Definition parse_ack_x (tags : list str) : xres msg :=
  dox a <- plain (index tags 0);
  if str_eqb a (lit "#") then Okx MAck
  else dox b <- plain (index tags 1);
       if str_eqb b (lit "1") then Okx MAck else invalid_message (lit "Invalid ACK message").

(** nack.py:37-46 *)
Definition parse_nack_x (tags : list str) : xres msg :=
  dox a <- plain (index tags 0);
  if str_eqb a (lit "#") then Okx MNack
  else dox b <- plain (index tags 1);
       if str_eqb b (lit "0") then Okx MNack else invalid_message_tags tags.

(** normal.py:47-49 *)
Definition parse_normal_x (tags : list str) : xres msg :=
  dox t0 <- plain (index tags 0); dox w <- plain (who_of t0);
  dox t1 <- plain (index tags 1); dox a <- mk_x t1;
  dox t2 <- plain (index tags 2); dox b <- mk_x t2;
  Okx (MNormal w a b).

(** status.py:40-42 *)
Definition parse_status_x (tags : list str) : xres msg :=
  dox t0 <- plain (index tags 0); dox w <- plain (who_of (unhash t0));
  dox t1 <- plain (index tags 1); dox a <- mk_x t1;
  Okx (MStatus w a).

(** dimension.py:49-51 *)
Definition parse_dimreq_x (tags : list str) : xres msg :=
  dox t0 <- plain (index tags 0); dox w <- plain (who_of (unhash t0));
  dox t1 <- plain (index tags 1); dox a <- mk_x t1;
  dox t2 <- plain (index tags 2); dox d <- mk_x t2;
  Okx (MDimReq w a d).

(** dimension.py:96-108 *)
Definition parse_dim_x (c : who -> str -> str -> list str -> msg) (tags : list str) : xres msg :=
  dox vals <- mapMx mk_x (skipn 3 tags);
  dox t0 <- plain (index tags 0); dox w <- plain (who_of (unhash t0));
  dox t1 <- plain (index tags 1); dox a <- mk_x t1;
  dox t2 <- plain (index tags 2); dox d <- mk_x (unhash t2);
  Okx (c w a d vals).

(** base.py:168-183: the first tag that is not valid is reported. *)
Definition parse_generic_x (tags : list str) : xres msg :=
  match find (fun t => negb (is_valid_tag t)) tags with
  | Some t => invalid_tag t
  | None => Okx (MGeneric tags)
  end.

(** [parse] of each class *)
Definition class_parse_x (k : mtype) : list str -> xres msg :=
  match k with
  | T_ACK => parse_ack_x | T_NACK => parse_nack_x | T_NORMAL => parse_normal_x
  | T_STATUS => parse_status_x | T_DIMREQ => parse_dimreq_x
  | T_DIMWRI => parse_dim_x MDimWri | T_DIMRES => parse_dim_x MDimRes
  | T_GENERIC => parse_generic_x
  end.

(** base.py:213-220, the classes in the order of Messages.classes *)
Definition classes_x : list (re * mtype) :=
  [ (R_ack, T_ACK); (R_dimreq, T_DIMREQ); (R_dimwri, T_DIMWRI); (R_dimres, T_DIMRES);
    (R_nack, T_NACK); (R_normal, T_NORMAL); (R_status, T_STATUS) ].

(** base.py:213-223 *)
Fixpoint dispatch_x (cs : list (re * mtype)) (text : str) (tags : list str) : xres msg :=
  match cs with
  | [] => parse_generic_x tags
  | (r, k) :: cs' => if py_match r text then class_parse_x k tags else dispatch_x cs' text tags
  end.

(** base.py:186-223: line 197 reports the text as given, line 209 reports it
    after the assignment of line 199. *)
Definition parse_message_x (message : str) : xres msg :=
  if negb (count_hh message =? 1)%nat then invalid_message message
  else
    let text := strip message in
    let tags := split c_star (removesuffix hh (removeprefix [c_star] text)) in
    if negb (py_match R_generic text) then invalid_message text
    else dispatch_x classes_x text tags.

(** protocol.py:75-85; the exception is logged with its text and raised again *)
Definition packet_messages_x (data : list N) : xres (list msg) :=
  dox raw <- plain (decode_ascii data);
  let text := strip raw in
  mapMx (fun p => parse_message_x (p ++ hh)) (filter nonempty (split_hh text)).

(** energy.py:47-67; the tag of the exception is the Where object of the item *)
Definition get_type_x (whr : str) : xres type_energy :=
  if startswith (lit "1") whr && isnumeric (skipn 1 whr) then Okx STOP_GO
  else if startswith (lit "5") whr && isnumeric (skipn 1 whr) then Okx POWER_METER
  else if startswith (lit "7") whr then
    dox p <- plain (index (twp_parameters whr) 0);
    if str_eqb p (lit "0") && isnumeric (skipn 1 (twp_tag whr)) then Okx ACTUATOR else invalid_tag whr
  else invalid_tag whr.

(** energy.py:33-45 with items/base.py:47-66 *)
Definition energy_management_x (c : client) (whr : str) : xres item :=
  dox w <- mk_x whr;
  dox _ <- get_type_x w;
  Okx {| it_client := c; it_who := ENERGY_MANAGEMENT; it_where := w |}.

(** stop_go.py:19-32 *)
Definition stop_go_x (c : client) (whr : str) : xres item :=
  dox it <- energy_management_x c whr;
  dox t <- get_type_x (it_where it);
  match t with
  | STOP_GO => Okx it
  | _ => invalid_tag (lit "Invalid tag for a Stop&Go item: " ++ whr)
  end.

(** stop_go.py:62-123 request_status with the messages given by the caller
    (the argument [messages]): 68-69, 71-72 and 77-121 for each of them.  Line
    74 never applies, [int] does not return None. *)
Fixpoint status_of_messages_x (ms : list msg) (st : stop_go_status) : xres stop_go_status :=
  match ms with
  | [] => Okx st
  | m :: r =>
      match m with
      | MDimRes _ _ d vs =>
          dox val <- plain (int0 vs);
          match status_update d val st with
          | Ok st' => status_of_messages_x r st'
          | Err _ => invalid_message (msg_str m)
          end
      | _ => invalid_message (msg_str m)
      end
  end.

(** The messages of the exceptions that [call_callbacks] raises itself:
    lighting/base.py:270, automation.py:106 and camera.py:265 give the text of
    the message, gateway.py:514 and energy.py:549 a sentence. *)
Definition callback_text (c : item_class) (m : msg) : str :=
  match c with
  | C_Automation | C_Camera | C_Light => msg_str m
  | C_Energy | C_Gateway => lit "The message is not a DimensionResponse message."
  end.
Definition class_call_x (c : item_class) (m : msg) : xres call :=
  match class_call c m with
  | Err InvalidMessage => invalid_message (callback_text c m)
  | r => plain r
  end.

(** Forgetting the attribute. *)
Definition forget {A} (r : xres A) : res A :=
  match r with Okx a => Ok a | Raise e => Err (r_class e) end.
