(** * What an event client hears from a house *)
From Coq Require Import String List NArith ZArith Bool Lia.
From Verif Require Import PyStr Tags Messages SpecMsg SpecProto Dispatch SpecDispatch SpecHouse.
Import ListNotations.
Open Scope N_scope.
Open Scope list_scope.

(** What a change of a point is to the callbacks: the key they are registered
    under and the arguments after the item. *)
Inductive announces (p : point) : evkey -> list val -> Prop :=
| An_lamp_on : p_who p = LIGHTING -> p_state p = [49] -> announces p (K_light STATUS_CHANGE) [VBool true]
| An_lamp_else : p_who p = LIGHTING -> p_state p <> [49] -> announces p (K_light STATUS_CHANGE) [VBool false]
| An_shutter : p_who p = AUTOMATION -> announces p K_auto [VStr (p_state p)].

(** [delivers acts fs]: in the history [acts] of an event client the frames [fs]
    arrive, grouped into packets in any way, between look-ups of items and runs
    of the loop. *)
Inductive delivers : list act -> list (list N) -> Prop :=
| Dl_start : delivers [] []
| Dl_packet acts fs group : delivers acts fs -> delivers (acts ++ [Packet (concat group)]) (fs ++ group)
| Dl_lookup acts fs w whr : delivers acts fs -> tagtext whr -> delivers (acts ++ [Lookup w whr]) fs
| Dl_wake acts fs : delivers acts fs -> delivers (acts ++ [Wake]) fs.

(** The calls made for the frame that reports the point [p]. *)
Definition noticed (its : items) (r : registry) (f : list N) (ts : list task) : Prop :=
  exists p i k args, f = frame_state p /\ point_ok p /\ nth_error its i = Some (p_who p, p_where p) /\ announces p k args /\
    calls (VItem i :: args) (r k) ts.
