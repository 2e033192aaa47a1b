(** * An application that keeps what it was last told, while its callbacks send commands *)
From Coq Require Import String List NArith ZArith Bool Lia.
From Verif Require Import PyStr Tags Messages SpecMsg SpecProto Dispatch SpecDispatch SpecHouse SpecNotice SpecMirror.
Import ListNotations.
Open Scope nat_scope.
Open Scope list_scope.

(** What the callback [f] was told last about the point [p] is the state of [p];
    if it was never told anything about it, nor was anybody else, and the point
    [p] is in the state [s] still. *)
Definition knows (st : state) (r : registry) (f : callback) (p : point) (s : str) : Prop :=
  forall k args, announces p k args -> (forall g, In g (r k) -> cb_takes g (S (length args)) = true) -> In f (r k) ->
  (exists i, nth_error (st_items st) i = Some (place p) /\ last_told (cb_id f) i (st_started st) = Some args) \/
  ((forall i, nth_error (st_items st) i = Some (place p) -> never_told i (st_started st)) /\ p_state p = s).

(** This is so for every point of the house [h], which was [h0] at first. *)
Definition right_picture (st : state) (r : registry) (h0 h : house) : Prop :=
  forall p f, In p h -> exists p0, In p0 h0 /\ place p0 = place p /\ knows st r f p (p_state p0).

(** Of every point, the application knows the state after some of the calls [cs]. *)
Definition past_picture (gw : gateway) (st : state) (r : registry) (h0 : house) (cs : list SpecHouse.call) : Prop :=
  forall p0, In p0 h0 -> exists cs1 cs2 log e h1 p, cs = cs1 ++ cs2 /\ story gw h0 cs1 log e h1 /\ In p h1 /\ place p = place p0 /\ forall f, knows st r f p (p_state p0).
