(** * Messages: pyown/messages/*.py *)
From Coq Require Import String List NArith ZArith Bool Lia.
From Verif Require Import PyStr Regex Tags.
Import ListNotations.
Open Scope N_scope.
Open Scope list_scope.

(** ** Message objects *)

(** The concrete message classes with their [_tags].  WHAT, WHERE, DIMENSION
    and VALUE tags are represented by their string (see Tags.v); the WHO tag is
    an enum member.
    messages/ack.py, nack.py, normal.py, status.py, dimension.py, base.py:148 *)
Inductive msg :=
| MAck
| MNack
| MNormal (w : who) (what whr : str)
| MStatus (w : who) (whr : str)
| MDimReq (w : who) (whr dim : str)
| MDimWri (w : who) (whr dim : str) (vals : list str)
| MDimRes (w : who) (whr dim : str) (vals : list str)
| MGeneric (tags : list str).

(** messages/base.py:22-32 *)
Inductive mtype :=
| T_ACK | T_NACK | T_NORMAL | T_STATUS | T_DIMREQ | T_DIMWRI | T_DIMRES | T_GENERIC.

(** The [_type] attribute of each class. *)
Definition msg_type (m : msg) : mtype :=
  match m with
  | MAck => T_ACK
  | MNack => T_NACK
  | MNormal _ _ _ => T_NORMAL
  | MStatus _ _ => T_STATUS
  | MDimReq _ _ _ => T_DIMREQ
  | MDimWri _ _ _ _ => T_DIMWRI
  | MDimRes _ _ _ _ => T_DIMRES
  | MGeneric _ => T_GENERIC
  end.

Definition mtype_eqb (a b : mtype) : bool :=
  match a, b with
  | T_ACK, T_ACK | T_NACK, T_NACK | T_NORMAL, T_NORMAL | T_STATUS, T_STATUS
  | T_DIMREQ, T_DIMREQ | T_DIMWRI, T_DIMWRI | T_DIMRES, T_DIMRES | T_GENERIC, T_GENERIC => true
  | _, _ => false
  end.

Lemma mtype_eqb_spec a b : mtype_eqb a b = true <-> a = b.
Proof. destruct a, b; cbn; split; congruence. Qed.

(** The [tags] property (messages/base.py:88-97), each tag as its string.
    ACK and NACK have the class attributes ("#", "1") and ("#", "0"). *)
Definition msg_tags (m : msg) : list str :=
  match m with
  | MAck => [lit "#"; lit "1"]
  | MNack => [lit "#"; lit "0"]
  | MNormal w what whr => [who_str w; what; whr]
  | MStatus w whr => [who_str w; whr]
  | MDimReq w whr dim => [who_str w; whr; dim]
  | MDimWri w whr dim vals => who_str w :: whr :: dim :: vals
  | MDimRes w whr dim vals => who_str w :: whr :: dim :: vals
  | MGeneric tags => tags
  end.

(** The [who] and [where] properties (messages/base.py:137-145 default None). *)
Definition msg_who (m : msg) : option who :=
  match m with
  | MNormal w _ _ | MStatus w _ | MDimReq w _ _ | MDimWri w _ _ _ | MDimRes w _ _ _ => Some w
  | MAck | MNack | MGeneric _ => None
  end.
Definition msg_where (m : msg) : option str :=
  match m with
  | MNormal _ _ r | MStatus _ r | MDimReq _ r _ | MDimWri _ r _ _ | MDimRes _ r _ _ => Some r
  | MAck | MNack | MGeneric _ => None
  end.

(** The [message] property / [__str__]:
    ack.py:34, nack.py:34, normal.py:44, status.py:37, dimension.py:46,93,125, base.py:165. *)
Definition msg_str (m : msg) : str :=
  match m with
  | MAck => lit "*#*1##"
  | MNack => lit "*#*0##"
  | MNormal w what whr => [c_star] ++ who_str w ++ [c_star] ++ what ++ [c_star] ++ whr ++ hh
  | MStatus w whr => lit "*#" ++ who_str w ++ [c_star] ++ whr ++ hh
  | MDimReq w whr dim => lit "*#" ++ who_str w ++ [c_star] ++ whr ++ [c_star] ++ dim ++ hh
  | MDimWri w whr dim vals =>
      lit "*#" ++ who_str w ++ [c_star] ++ whr ++ lit "*#" ++ dim ++ [c_star] ++ join c_star vals ++ hh
  | MDimRes w whr dim vals =>
      lit "*#" ++ who_str w ++ [c_star] ++ whr ++ [c_star] ++ dim ++ [c_star] ++ join c_star vals ++ hh
  | MGeneric tags => [c_star] ++ join c_star tags ++ hh
  end.

(** messages/base.py:121-127 [bytes] *)
Definition msg_bytes (m : msg) : res (list N) := encode_ascii (msg_str m).

(** ** Equality and hashing *)

(** [isinstance(x, C)] between the concrete classes, given by their types:
    DimensionResponse is a subclass of DimensionWriting (dimension.py:111). *)
Definition isinstance_of (x c : mtype) : bool :=
  mtype_eqb x c || match x, c with T_DIMRES, T_DIMWRI => true | _, _ => false end.

Fixpoint list_str_eqb (a b : list str) : bool :=
  match a, b with
  | [], [] => true
  | x :: a', y :: b' => str_eqb x y && list_str_eqb a' b'
  | _, _ => false
  end.

(** messages/base.py:70-73 __eq__ *)
Definition msg_eq (self other : msg) : bool :=
  if isinstance_of (msg_type other) (msg_type self)
  then mtype_eqb (msg_type self) (msg_type other) && list_str_eqb (msg_tags self) (msg_tags other)
  else false.

(** messages/base.py:75-76 __ne__ *)
Definition msg_ne (self other : msg) : bool := negb (msg_eq self other).

(** messages/base.py:67-68 __hash__: [hash((self._type, self._tags))].  [ht] is
    the hash of a MessageType member, [hs] the hash of a str (and of a tag),
    [hl] combines the hashes of the members of a tuple.  A list is unhashable,
    so a GenericMessage (whose tags are a list) raises TypeError. *)
Definition msg_hash (ht : mtype -> Z) (hs : str -> Z) (hl : list Z -> Z) (m : msg) : res Z :=
  match m with
  | MGeneric _ => Err TypeError
  | _ => Ok (hl [ht (msg_type m); hl (map hs (msg_tags m))])
  end.

(** ** The regular expressions

    The source pattern is quoted beside each definition, with a space inserted
    after a star that precedes a closing parenthesis (Coq comment syntax). *)

Definition digit_set : list N := lit "0123456789".
Definition digith_set : list N := lit "0123456789#".

(** [Seq [a; b; c]] is the pattern abc. *)
Fixpoint Seq (l : list re) : re := match l with [] => Eps | [a] => a | a :: r => Cat a (Seq r) end.

Definition R_digits : re := Star (Cls digit_set).                       (* [0-9]* *)
Definition R_hseg : re := Star (Cat (Chr c_hash) R_digits).             (* (?:#[0-9]* )* *)
Definition R_seg : re := Cat R_digits R_hseg.                           (* [0-9]*(?:#[0-9]* )* *)
Definition R_who : re := Plus (Cls digith_set).                         (* [0-9#]+ *)
Definition R_vals : re := Star (Cat (Chr c_star) R_seg).                (* (?:\*[0-9]*(?:#[0-9]* )* )* *)

(** base.py:54  ^\*(?:([0-9]* )(?:#[0-9]* )*\*?)+##$ *)
Definition R_generic : re :=
  Seq [Chr c_star; Plus (Seq [R_digits; R_hseg; Opt (Chr c_star)]); Lit hh].
(** ack.py:23  ^\*#\*1##$ *)
Definition R_ack : re := Lit (lit "*#*1##").
(** nack.py:23  ^\*#\*0##$ *)
Definition R_nack : re := Lit (lit "*#*0##").
(** dimension.py:23  ^\*#[0-9#]+\*[0-9]*(?:#[0-9]* )*\*[0-9]*##$ *)
Definition R_dimreq : re := Seq [Lit (lit "*#"); R_who; Chr c_star; R_seg; Chr c_star; R_digits; Lit hh].
(** dimension.py:64  ^\*#[0-9#]+\*[0-9]*(?:#[0-9]* )*\*#[0-9]*(?:\*[0-9]*(?:#[0-9]* )* )*##$ *)
Definition R_dimwri : re :=
  Seq [Lit (lit "*#"); R_who; Chr c_star; R_seg; Lit (lit "*#"); R_digits; R_vals; Lit hh].
(** dimension.py:119  ^\*#[0-9#]+\*[0-9]*(?:#[0-9]* )*\*[0-9]*(?:#[0-9]* )*(?:\*[0-9]*(?:#[0-9]* )* )*##$ *)
Definition R_dimres : re :=
  Seq [Lit (lit "*#"); R_who; Chr c_star; R_seg; Chr c_star; R_seg; R_vals; Lit hh].
(** normal.py:21  ^\*[0-9#]+\*[0-9]*(?:#[0-9]* )*\*[0-9]*(?:#[0-9]* )*##$ *)
Definition R_normal : re :=
  Seq [Chr c_star; R_who; Chr c_star; R_seg; Chr c_star; R_seg; Lit hh].
(** status.py:19  ^\*#[0-9#]+\*[0-9]*(?:#[0-9]* )*##$ *)
Definition R_status : re := Seq [Lit (lit "*#"); R_who; Chr c_star; R_seg; Lit hh].

(** ** The class parsers *)

(** [Where(t)], [What(t)], [Dimension(t)], [Value(t)] on a str. *)
Definition mk (t : str) : res str := tag_make (AStr t).

Definition unhash (t : str) : str := removeprefix [c_hash] t.

(** ack.py:37-46: the guard is [tags[0] != "#" and tags[1] != "1"]. *)
Definition parse_ack (tags : list str) : res msg :=
  do a <- index tags 0;
  if str_eqb a (lit "#") then Ok MAck
  else do b <- index tags 1;
       if str_eqb b (lit "1") then Ok MAck else Err InvalidMessage.

(** nack.py:37-46 *)
Definition parse_nack (tags : list str) : res msg :=
  do a <- index tags 0;
  if str_eqb a (lit "#") then Ok MNack
  else do b <- index tags 1;
       if str_eqb b (lit "0") then Ok MNack else Err InvalidMessage.

(** normal.py:47-49 *)
Definition parse_normal (tags : list str) : res msg :=
  do t0 <- index tags 0; do w <- who_of t0;
  do t1 <- index tags 1; do a <- mk t1;
  do t2 <- index tags 2; do b <- mk t2;
  Ok (MNormal w a b).

(** status.py:40-42 *)
Definition parse_status (tags : list str) : res msg :=
  do t0 <- index tags 0; do w <- who_of (unhash t0);
  do t1 <- index tags 1; do a <- mk t1;
  Ok (MStatus w a).

(** dimension.py:49-51 *)
Definition parse_dimreq (tags : list str) : res msg :=
  do t0 <- index tags 0; do w <- who_of (unhash t0);
  do t1 <- index tags 1; do a <- mk t1;
  do t2 <- index tags 2; do d <- mk t2;
  Ok (MDimReq w a d).

(** dimension.py:96-108, shared by DimensionWriting and DimensionResponse *)
Definition parse_dim (c : who -> str -> str -> list str -> msg) (tags : list str) : res msg :=
  do vals <- mapM mk (skipn 3 tags);
  do t0 <- index tags 0; do w <- who_of (unhash t0);
  do t1 <- index tags 1; do a <- mk t1;
  do t2 <- index tags 2; do d <- mk (unhash t2);
  Ok (c w a d vals).

(** base.py:168-183 *)
Definition parse_generic (tags : list str) : res msg :=
  if forallb is_valid_tag tags then Ok (MGeneric tags) else Err InvalidTag.

(** [BaseMessage.__subclasses__()] without GenericMessage, in definition order:
    messages/__init__.py imports ack, (base), dimension, nack, normal, status;
    DimensionResponse lists BaseMessage among its bases (dimension.py:111) and
    is therefore a direct subclass too. *)
Definition classes : list (re * (list str -> res msg)) :=
  [ (R_ack, parse_ack);
    (R_dimreq, parse_dimreq);
    (R_dimwri, parse_dim MDimWri);
    (R_dimres, parse_dim MDimRes);
    (R_nack, parse_nack);
    (R_normal, parse_normal);
    (R_status, parse_status) ].

(** base.py:213-223: first class whose pattern matches, otherwise generic. *)
Fixpoint dispatch (cs : list (re * (list str -> res msg))) (text : str) (tags : list str) : res msg :=
  match cs with
  | [] => parse_generic tags
  | (r, p) :: cs' => if py_match r text then p tags else dispatch cs' text tags
  end.

(** base.py:186-223 parse_message *)
Definition parse_message (message : str) : res msg :=
  if negb (count_hh message =? 1)%nat then Err InvalidMessage
  else
    let text := strip message in
    let tags := split c_star (removesuffix hh (removeprefix [c_star] text)) in
    if negb (py_match R_generic text) then Err InvalidMessage
    else dispatch classes text tags.
