(** * A gateway that deals with a frame when all of it has arrived *)
From Coq Require Import String List NArith ZArith Bool Lia.
From Verif Require Import PyStr Tags Messages Protocol Queue Sender Conc SpecHouse Line SpecLine.
Import ListNotations.
Open Scope list_scope.

(** [SpecLine.watched] with the number [c] of bytes that the gateway has dealt
    with: it deals with a frame only when the socket has taken all of it. *)
Inductive arriving (gw : gateway) (high low : nat) : lstate -> house -> list (list N) -> list (list N) -> nat -> list levent ->
  lstate -> house -> list (list N) -> list (list N) -> nat -> list (list N) -> Prop :=
| Ar_nil l h inn out c : arriving gw high low l h inn out c [] l h inn out c []
| Ar_obey l h b inn out c h1 ans ev1 es l' h' inn' out' c' evs : (c + length b <= length (s_wire (l_s l)))%nat -> serves gw h b h1 ans ev1 ->
    arriving gw high low l h1 inn (out ++ ans) (c + length b) es l' h' inn' out' c' evs ->
    arriving gw high low l h (b :: inn) out c es l' h' inn' out' c' (ev1 ++ evs)
| Ar_step l h inn out c e l1 es l' h' inn' out' c' evs : (forall d, e <> LPacket d) -> lstep high low l e = Some l1 ->
    arriving gw high low l1 h (inn ++ taken l l1) out c es l' h' inn' out' c' evs ->
    arriving gw high low l h inn out c (e :: es) l' h' inn' out' c' evs
| Ar_packet l h inn fs out c l1 es l' h' inn' out' c' evs : lstep high low l (LPacket (concat fs)) = Some l1 ->
    arriving gw high low l1 h inn out c es l' h' inn' out' c' evs ->
    arriving gw high low l h inn (fs ++ out) c (LPacket (concat fs) :: es) l' h' inn' out' c' evs.
