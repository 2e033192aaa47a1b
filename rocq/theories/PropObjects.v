(** * Properties C93 and C94: item objects, their clients and their classes *)
From Coq Require Import String List NArith ZArith Bool Lia.
From Verif Require Import PyStr Tags Messages SpecMsg SpecTag Protocol Queue IO Client Items Energy SpecEnergy
  Dispatch SpecDispatch DispatchThms DispatchThms2 Objects SpecObjects SpecItem ObjectsThms.
Import ListNotations.
Open Scope N_scope.
Open Scope list_scope.

(** The objects are those whose numbers the event loop of Dispatch.v handles. *)
Theorem C93_same_loop : forall v r lc c m,
  handle v r (map fst c) m = match handle_obj v r lc c m with (c', ts, x) => (map fst c', ts, x) end.
Proof. exact handle_erase. Qed.
Print Assumptions C93_same_loop.

(** ** C93 Items of a loop with a command client can send commands *)

(** Refuted: an item looked up earlier with the event client keeps it, whatever
    client the loop was given; no message can be sent with it. *)
Theorem C93_stolen_refuted : forall v clients w whr ev cmd r m,
  makeable (w, whr) -> msg_who m = Some w -> msg_where m = Some whr -> cl_session (clients ev) = Event ->
  exists n o, nth_error (orun v [] [OLookup w whr ev; OEvent cmd r m]) n = Some ((w, whr), o) /\
    forall Y m' s, item_send (Y:=Y) (obj_item clients o) m' s = ([], s, Err InvalidSession).
Proof. exact stolen. Qed.
Print Assumptions C93_stolen_refuted.

(** What holds in every history: there is one object for each item asked for,
    every later lookup finds it, and its client is the one assigned last or else
    the one offered the first time. *)
Theorem C93_owner : forall v h1 a h2 w whr cl,
  names a (w, whr) cl -> makeable (w, whr) -> (forall b cl', In b h1 -> ~ names b (w, whr) cl') ->
  exists n o, nth_error (orun v [] (h1 ++ a :: h2)) n = Some ((w, whr), o) /\
    (forall cl', get_object (orun v [] (h1 ++ a :: h2)) w whr cl' = (orun v [] (h1 ++ a :: h2), Ok n)) /\
    ob_client o = reassigned n cl h2 /\
    class_for w (pyclass_of (ob_class o)) /\ (w = GATEWAY -> ob_where o = []) /\ (w <> GATEWAY -> ob_where o = whr).
Proof. exact owner_class. Qed.
Print Assumptions C93_owner.

(** So when only connected command clients are offered and assigned, every item
    can send. *)
Theorem C93_send_partial : forall v clients h,
  (forall a k cl, In a h -> names a k cl -> commanding (clients cl)) ->
  (forall n cl, In (OAssign n cl) h -> commanding (clients cl)) ->
  forall k o, In (k, o) (orun v [] h) ->
  forall Y m b s, msg_bytes m = Ok b -> item_send (Y:=Y) (obj_item clients o) m s = ([Sent b], s, Ok tt).
Proof. exact all_can_send. Qed.
Print Assumptions C93_send_partial.

(** Every frame sent through an item carries the WHO and the WHERE under which
    the item is known (no WHERE for the gateway), and the answer is handled as in
    C44 and C45. *)
Theorem C93_frames : forall v clients h w whr o, In ((w, whr), o) (orun v [] h) -> commanding (clients (ob_client o)) -> tagtext whr ->
  (forall Y what s, tagtext what -> @answered Y (frame_cmd w what (key_where (w, whr))) s (send_normal_message (obj_item clients o) what s)) /\
  (forall Y dim x xs s, tagtext dim -> Forall tagtext (x :: xs) ->
     @answered Y (frame_dimwri w (key_where (w, whr)) dim (x :: xs)) s (send_dimension_writing (obj_item clients o) dim (x :: xs) s)) /\
  (forall s, requested (frame_status w (key_where (w, whr))) normal s (send_status_request (obj_item clients o) as_is s)) /\
  (forall dim s, tagtext dim -> requested (frame_dimreq w (key_where (w, whr)) dim) dimres s (send_dimension_request (obj_item clients o) dim as_is s)).
Proof. exact object_frames. Qed.
Print Assumptions C93_frames.

Definition no_cb : registry := no_callbacks.
Definition light12 : msg := MNormal LIGHTING (lit "1") (lit "12").

(** Client 1 is the event client, 0 the command client: the light is looked up
    by the user and then assigned to, the other item is made by the loop. *)
Example C93_ex :
  let h := [OLookup LIGHTING (lit "12") 1; OEvent 0 no_cb light12; OEvent 0 no_cb (MNormal AUTOMATION (lit "1") (lit "3")); OAssign 0 0] in
  map (fun e => ob_client (snd e)) (orun 12 [] h) = [0%nat; 0%nat] /\
  map (fun e => ob_client (snd e)) (orun 12 [] (firstn 3 h)) = [1%nat; 0%nat] /\
  names (OEvent 0 no_cb light12) (LIGHTING, lit "12") 0 /\ makeable (LIGHTING, lit "12").
Proof. vm_compute. repeat split. constructor; reflexivity. Qed.

(** ** C94 A callback gets an item of the class it was registered on, at the WHERE of the event *)

(** Refuted: the callbacks that only a Dimmer can register get Lights, in every
    history and for every event they are called for. *)
Theorem C94_dimmer_refuted : forall v h lc r m c' ts x e args,
  handle_obj v r lc (orun v [] h) m = (c', ts, x) -> In e [LUMINOSITY_CHANGE; HSV_CHANGE; WHITE_TEMP_CHANGE] ->
  v < 13 -> built m -> reports m (K_light e) args -> (forall f, In f (r (K_light e)) -> cb_takes f (S (length args)) = true) ->
  exists n k o, ts = map (fun f => (cb_id f, VItem n :: args)) (r (K_light e)) /\ nth_error c' n = Some (k, o) /\
    pyclass_of (ob_class o) = PLight.
Proof. exact dimmer_gets_light. Qed.
Print Assumptions C94_dimmer_refuted.

Theorem C94_not_offered : forall e, In e [LUMINOSITY_CHANGE; HSV_CHANGE; WHITE_TEMP_CHANGE] ->
  offers PDimmer (K_light e) /\ ~ offers PLight (K_light e).
Proof.
  intros e He. split; [constructor|]. intros H. inversion H as [e' I E1 E2| | | | |]; subst.
  destruct He as [<-|[<-|[<-|[]]]]; destruct I as [I|[I|[]]]; discriminate I.
Qed.
Print Assumptions C94_not_offered.

(** What holds in every history: each callback called for an event gets the one
    item of the event's WHO and WHERE; it has the class of that WHO, and the
    WHERE of the event unless it is the gateway, whose WHERE is empty. *)
Theorem C94_item_partial : forall v h lc r m c' ts x, handle_obj v r lc (orun v [] h) m = (c', ts, x) ->
  forall t, In t ts -> exists id n args w whr o, t = (id, VItem n :: args) /\
    msg_who m = Some w /\ msg_where m = Some whr /\ nth_error c' n = Some ((w, whr), o) /\
    class_for w (pyclass_of (ob_class o)) /\ (w = GATEWAY -> ob_where o = []) /\ (w <> GATEWAY -> ob_where o = whr).
Proof. exact given_item. Qed.
Print Assumptions C94_item_partial.

(** That class offers the registration, except for the three dimmer events. *)
Theorem C94_class_partial : forall m k args w C, reports m k args -> msg_who m = Some w -> class_for w C ->
  offers C k \/ exists e, k = K_light e /\ C = PLight /\ In e [LUMINOSITY_CHANGE; HSV_CHANGE; WHITE_TEMP_CHANGE].
Proof. exact class_offers. Qed.
Print Assumptions C94_class_partial.

(** A white temperature event with one callback. *)
Definition white : msg := MDimRes LIGHTING (lit "12") (lit "13") [lit "250"].
Definition one_cb : registry := register no_callbacks (K_light WHITE_TEMP_CHANGE) {| cb_id := 7; cb_takes := fun n => Nat.eqb n 2 |}.
Example C94_ex : exists o,
  handle_obj 12 one_cb 0 (orun 12 [] [OLookup AUTOMATION (lit "5") 0]) white =
    ([((AUTOMATION, lit "5"), {| ob_class := F_Automation; ob_client := 0; ob_where := lit "5" |}); ((LIGHTING, lit "12"), o)],
     [(7, [VItem 1; VInt 250])], None) /\ pyclass_of (ob_class o) = PLight.
Proof. eexists. split; [vm_compute; reflexivity|reflexivity]. Qed.
