(** * Tags of a message, and the tag lists of each class *)
From Coq Require Import String List NArith ZArith Bool Lia.
From Verif Require Import PyStr Tags Messages SpecMsg.
Import ListNotations.
Open Scope N_scope.
Open Scope list_scope.

(** The tags of a message against the tags of its frame: the '#' that marks a
    request, in front of the WHO, and the one that marks a write, in front of
    the DIMENSION, are not part of the tags. *)
Inductive tags_view : mtype -> list str -> list str -> Prop :=
| V_plain k l : In k [T_ACK; T_NACK; T_NORMAL; T_GENERIC] -> tags_view k l l
| V_request k w l : In k [T_STATUS; T_DIMREQ] -> tags_view k ((35 :: w) :: l) (w :: l)
| V_hash k w a d l : In k [T_DIMWRI; T_DIMRES] -> tags_view k ((35 :: w) :: a :: (35 :: d) :: l) (w :: a :: d :: l)
| V_response w a d l : (forall e, d <> 35 :: e) -> tags_view T_DIMRES ((35 :: w) :: a :: d :: l) (w :: a :: d :: l).

(** A text with at most one '#' in front of [x], which does not itself begin
    with one. *)
Definition maybe_hash (t x : str) : Prop := t = 35 :: x \/ t = x /\ forall e, x <> 35 :: e.

(** The tag lists that the classes accept when their [parse] is called with a
    list of tags, and the message. *)
Inductive accepts : mtype -> list str -> msg -> Prop :=
| X_ack l : accepts T_ACK ([35] :: l) MAck
| X_ack' a l : accepts T_ACK (a :: [49] :: l) MAck
| X_nack l : accepts T_NACK ([35] :: l) MNack
| X_nack' a l : accepts T_NACK (a :: [48] :: l) MNack
| X_normal w a b l : tagtext a -> tagtext b -> accepts T_NORMAL (who_str w :: a :: b :: l) (MNormal w a b)
| X_status t w a l : maybe_hash t (who_str w) -> tagtext a -> accepts T_STATUS (t :: a :: l) (MStatus w a)
| X_dimreq t w a d l : maybe_hash t (who_str w) -> tagtext a -> tagtext d -> accepts T_DIMREQ (t :: a :: d :: l) (MDimReq w a d)
| X_dimwri t w a u d l : maybe_hash t (who_str w) -> tagtext a -> maybe_hash u d -> tagtext d -> Forall tagtext l ->
    accepts T_DIMWRI (t :: a :: u :: l) (MDimWri w a d l)
| X_dimres t w a u d l : maybe_hash t (who_str w) -> tagtext a -> maybe_hash u d -> tagtext d -> Forall tagtext l ->
    accepts T_DIMRES (t :: a :: u :: l) (MDimRes w a d l)
| X_generic l : Forall tagtext l -> accepts T_GENERIC l (MGeneric l).

(** How many tags a class needs. *)
Definition needed (k : mtype) : nat :=
  match k with T_ACK | T_NACK | T_STATUS => 2 | T_GENERIC => 0 | _ => 3 end.
