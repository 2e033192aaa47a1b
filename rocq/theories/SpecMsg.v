(** * Specification vocabulary for frames

    Independent of the parser: nothing here mentions a regular expression, the
    class list or a parsing function of the model. *)
From Coq Require Import String List NArith ZArith Bool Lia.
From Verif Require Import PyStr Tags Messages.
Import ListNotations.
Open Scope N_scope.
Open Scope list_scope.

(** Characters: '#' is 35, '*' is 42, '0'..'9' are 48..57. *)
Definition tagchar (c : N) : Prop := 48 <= c <= 57 \/ c = 35.
Definition digitchar (c : N) : Prop := 48 <= c <= 57.
Definition tagtext (t : str) : Prop := Forall tagchar t.
Definition digits (t : str) : Prop := Forall digitchar t.

(** The text contains "##". *)
Definition has_hh (t : str) : Prop := exists u v, t = u ++ [35; 35] ++ v.

(** A tag that can travel inside a frame. *)
Definition wiretag (t : str) : Prop := tagtext t /\ ~ has_hh t.

(** The frame carrying the given tags: "*" before each, "##" at the end. *)
Definition wire (l : list str) : str := concat (map (cons 42) l) ++ [35; 35].

Definition white (w : str) : Prop := Forall (fun c => is_space c = true) w.

(** [s] is the frame of the tags [l], possibly surrounded by white space. *)
Definition is_frame (s : str) (l : list str) : Prop :=
  l <> [] /\ Forall wiretag l /\ exists w1 w2, white w1 /\ white w2 /\ s = w1 ++ wire l ++ w2.

(** '#' followed by something. *)
Definition hashed_tag (t : str) : Prop := exists w, t = 35 :: w /\ w <> [].

(** The kind of a frame, by its tags (OpenWebNet introduction, section 3):
    [*#*1##], [*#*0##], [*who*what*where##], [*#who*where##],
    [*#who*where*dimension##], [*#who*where*#dimension*v1*...##] and
    [*#who*where*dimension*v1*...##]. *)
Inductive kind : list str -> mtype -> Prop :=
| K_ack : kind [[35]; [49]] T_ACK
| K_nack : kind [[35]; [48]] T_NACK
| K_status w a : w <> [] -> kind [35 :: w; a] T_STATUS
| K_dimreq w a d : w <> [] -> digits d -> kind [35 :: w; a; d] T_DIMREQ
| K_dimwri w a d vs : w <> [] -> digits d -> kind ((35 :: w) :: a :: (35 :: d) :: vs) T_DIMWRI
| K_dimres w a d vs :
    w <> [] -> ~ (digits d /\ vs = []) -> ~ (exists e, d = 35 :: e /\ digits e) ->
    kind ((35 :: w) :: a :: d :: vs) T_DIMRES
| K_normal w a b : w <> [] -> ~ hashed_tag w -> kind [w; a; b] T_NORMAL
| K_generic1 t : kind [t] T_GENERIC
| K_generic2 a b : ~ hashed_tag a -> ~ (a = [35] /\ (b = [49] \/ b = [48])) -> kind [a; b] T_GENERIC
| K_generic3 a b : kind [[]; a; b] T_GENERIC
| K_generic4 a b d e vs : ~ hashed_tag a -> kind (a :: b :: d :: e :: vs) T_GENERIC.

(** Which message a tag list stands for. *)
Inductive denotes : list str -> msg -> Prop :=
| D_ack : denotes [[35]; [49]] MAck
| D_nack : denotes [[35]; [48]] MNack
| D_status w a : denotes [35 :: who_str w; a] (MStatus w a)
| D_dimreq w a d : digits d -> denotes [35 :: who_str w; a; d] (MDimReq w a d)
| D_dimwri w a d vs : digits d -> denotes ((35 :: who_str w) :: a :: (35 :: d) :: vs) (MDimWri w a d vs)
| D_dimres w a d vs :
    ~ (digits d /\ vs = []) -> (forall e, d <> 35 :: e) ->
    denotes ((35 :: who_str w) :: a :: d :: vs) (MDimRes w a d vs)
| D_dimres_hash w a d vs :
    ~ digits d -> denotes ((35 :: who_str w) :: a :: (35 :: d) :: vs) (MDimRes w a d vs)
| D_normal w a b : denotes [who_str w; a; b] (MNormal w a b)
| D_generic l : kind l T_GENERIC -> denotes l (MGeneric l).

(** The text in the WHO position of a frame of one of the kinds that have one. *)
Inductive who_text : list str -> str -> Prop :=
| W_normal a b w : kind [w; a; b] T_NORMAL -> who_text [w; a; b] w
| W_hash w l : w <> [] -> l <> [] -> who_text ((35 :: w) :: l) w.

Definition known_who (x : str) : Prop := exists w, x = who_str w.

(** The free-text tags of a message (everything but the WHO). *)
Definition free_tags (m : msg) : list str :=
  match m with
  | MAck | MNack => []
  | MNormal _ a b => [a; b]
  | MStatus _ a => [a]
  | MDimReq _ a d => [a; d]
  | MDimWri _ a d vs | MDimRes _ a d vs => a :: d :: vs
  | MGeneric l => l
  end.

(** A message that was built through the tag constructors. *)
Definition built (m : msg) : Prop :=
  Forall tagtext (free_tags m) /\ (forall l, m = MGeneric l -> l <> []).

(** A message whose wire form is unambiguous. *)
Definition wellformed (m : msg) : Prop :=
  Forall wiretag (free_tags m) /\
  match m with
  | MAck | MNack | MNormal _ _ _ | MStatus _ _ => True
  | MDimReq _ _ d => digits d
  | MDimWri _ _ d vs => digits d /\ vs <> []
  | MDimRes _ _ d vs => (forall e, d <> 35 :: e) /\ vs <> []
  | MGeneric l => l <> [] /\ kind l T_GENERIC
  end.
