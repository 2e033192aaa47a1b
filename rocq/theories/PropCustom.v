(** * C138: item classes of the application *)
From Coq Require Import String List NArith ZArith Bool Lia.
From Verif Require Import PyStr Tags Messages SpecMsg Protocol Queue IO Client Items Gateway Energy
  Dispatch SpecDispatch DispatchThms DispatchThms2 DispatchThms3 Objects SpecObjects ObjectsThms Custom SpecCustom CustomThms.
Import ListNotations.
Open Scope N_scope.
Open Scope list_scope.

(** Classes that the application defines disturb nothing: in every history the
    items are the same, the same exceptions leave the loop, and what the library
    does with an event it does first and unchanged.  Its own classes get only what
    the library's class refused; an event that the library reports to its
    callbacks they never get. *)
Theorem C138_same : forall v r h m x' ts e, keeps_types h -> xhandle v r (xrun v fresh h) m = (x', ts, e) ->
  exists c' ts0 extra, handle_obj v r 0 (orun v [] (plain h)) m = (c', ts0, e) /\ map fst (x_objs x') = map fst c' /\ ts = ts0 ++ extra /\
    (forall k args, built m -> v < 13 -> reports m k args -> suits r k args -> extra = []) /\
    (forall t, In t extra -> exists u n, In (XDefine u) h /\ msg_who m = Some (u_who u) /\ In t (fst (u_calls u n m))).
Proof. exact same_events. Qed.
Print Assumptions C138_same.

(** That a class gets the events of its WHO is false for every WHO that is not in
    ITEM_TYPES: no class gets any, whatever is defined and whatever happens. *)
Theorem C138_unlisted_refuted : forall v r h m w,
  (forall mk, ~ In (XType w mk) h) -> ~ In w [LIGHTING; AUTOMATION; GATEWAY; ENERGY_MANAGEMENT] -> msg_who m = Some w ->
  xhandle v r (xrun v fresh h) m = (xrun v fresh h, [], None).
Proof. exact unlisted. Qed.
Print Assumptions C138_unlisted_refuted.

(** It holds for a WHO without a class in the library, once the application has
    put a class for its items into ITEM_TYPES: every message of that WHO gets to
    the first class defined for it, with the item of the class in ITEM_TYPES at
    the WHERE of the message. *)
Theorem C138_listed : forall v r h m w mk u whr wh, listed h w mk -> first_for h w u -> ~ library_who w -> v < 13 ->
  msg_who m = Some w -> msg_where m = Some whr -> mk_init mk whr = Ok wh ->
  exists x' n rest, xhandle v r (xrun v fresh h) m = (x', fst (u_calls u n m) ++ rest, None) /\
    nth_error (x_objs x') n = Some ((w, whr), (mk_class mk, wh)) /\ (snd (u_calls u n m) = Ok tt -> rest = []).
Proof. exact listed_reaches. Qed.
Print Assumptions C138_listed.

(** For a WHO of the library its class gets the requests, which the library's
    classes refuse, with an item of the library's class. *)
Theorem C138_leftover : forall v r h m w whr u, keeps_types h -> first_for h w u -> v < 13 -> makeable (w, whr) ->
  m = MStatus w whr \/ (exists d, m = MDimReq w whr d) ->
  exists x' n a wh rest, xhandle v r (xrun v fresh h) m = (x', fst (u_calls u n m) ++ rest, None) /\
    nth_error (x_objs x') n = Some ((w, whr), (a, wh)) /\ (exists f, a = A_built f) /\ (snd (u_calls u n m) = Ok tt -> rest = []).
Proof. exact leftover. Qed.
Print Assumptions C138_leftover.

(** A class put into ITEM_TYPES in the place of one of the library, before the
    first item is asked for, gives every callback an item of that class; in the
    place of Gateway and EnergyManagement it must derive from them. *)
Theorem C138_replaced : forall v r h m w mk whr wh, listed h w mk -> v < 13 -> msg_who m = Some w -> msg_where m = Some whr -> mk_init mk whr = Ok wh ->
  (w = GATEWAY -> derives (mk_class mk) F_Gateway) -> (w = ENERGY_MANAGEMENT -> derives (mk_class mk) F_Energy) -> built m ->
  exists x' n, nth_error (x_objs x') n = Some ((w, whr), (mk_class mk, wh)) /\
    forall k args, reports m k args -> suits r k args ->
    xhandle v r (xrun v fresh h) m = (x', map (fun f => (cb_id f, VItem n :: args)) (r k), None).
Proof.
  intros v r h m w mk whr wh L V W R I G E B.
  destruct (listed_library v r h m w mk whr wh L V W R I) as (x' & n & N & K).
  { split; intros X; rewrite W in X; injection X as ->; apply derives_isa; auto. }
  exists x', n. split; [exact N|]. intros k args Rp Su. destruct (reports_supported m k args Rp) as (w' & W' & S). rewrite W in W'. injection W' as <-.
  assert (F : exists f, item_types w = Some f) by (destruct (item_types w) eqn:F; [eauto|apply item_types_none in F; contradiction]). destruct F as [f F].
  destruct (class_of_who w f F) as (c & Cw & Nc). apply (K c k args Cw); [|exact Su]. apply reports_iff; auto. congruence.
Qed.
Print Assumptions C138_replaced.

(** So [ITEM_TYPES[Who.VIDEO_DOOR_ENTRY] = Camera] brings the camera events, which
    get nowhere otherwise (C79), to the callbacks of Camera: *)
Theorem C138_camera : forall v r h what whr, listed h VIDEO_DOOR_ENTRY camera_maker -> v < 13 -> camera_what what ->
  let m := MNormal VIDEO_DOOR_ENTRY what whr in suits r K_cam [VStr what; VMsg m] ->
  exists x' n, xhandle v r (xrun v fresh h) m = (x', map (fun f => (cb_id f, [VItem n; VStr what; VMsg m])) (r K_cam), None) /\
    nth_error (x_objs x') n = Some ((VIDEO_DOOR_ENTRY, whr), (A_camera, whr)).
Proof.
  intros v r h what whr L V Cw m Su. destruct (listed_library v r h m VIDEO_DOOR_ENTRY camera_maker whr whr L V eq_refl eq_refl eq_refl) as (x' & n & N & K).
  { split; discriminate. }
  exists x', n. split; [|exact N]. apply (K C_Camera K_cam [VStr what; VMsg m] eq_refl); [|exact Su].
  apply (camera_class m eq_refl). exists what, whr. auto.
Qed.
Print Assumptions C138_camera.

(** and [ITEM_TYPES[Who.LIGHTING] = Dimmer] gives the callbacks of Dimmer a
    Dimmer (refuted otherwise, C94).  But only for items not yet asked for: an item
    that is there is kept, with the class that it has, whatever is done to
    ITEM_TYPES later. *)
Theorem C138_late_refuted : forall v h1 h2 n w whr o, nth_error (x_objs (xrun v fresh h1)) n = Some ((w, whr), o) ->
  nth_error (x_objs (xrun v fresh (h1 ++ h2))) n = Some ((w, whr), o) /\ xget (xrun v fresh (h1 ++ h2)) w whr = (xrun v fresh (h1 ++ h2), Ok n).
Proof. exact old_item. Qed.
Print Assumptions C138_late_refuted.

(** And a class in the place of Gateway or EnergyManagement that does not derive
    from it cuts off every callback of that WHO. *)
Theorem C138_foreign_refuted : forall v r h m w mk whr x' ts e, listed h w mk -> msg_who m = Some w -> msg_where m = Some whr ->
  w = GATEWAY /\ ~ derives (mk_class mk) F_Gateway \/ w = ENERGY_MANAGEMENT /\ ~ derives (mk_class mk) F_Energy ->
  xhandle v r (xrun v fresh h) m = (x', ts, e) ->
  forall t, In t ts -> exists u n, In (XDefine u) h /\ u_who u = w /\ In t (fst (u_calls u n m)).
Proof.
  intros v r h m w mk whr x' ts e L W R D. apply (unwelcome v r h m w mk whr x' ts e L W R).
  destruct D as [[-> D]|[-> D]]; [left|right]; (split; [reflexivity|]); apply not_true_iff_false; intros X; apply D, derives_isa; auto.
Qed.
Print Assumptions C138_foreign_refuted.

(** From Python 3.13 on no class gets anything (compare C43). *)
Theorem C138_python_refuted : forall v r h m, 13 <= v -> snd (fst (xhandle v r (xrun v fresh h) m)) = [].
Proof. intros v r h m. apply new_python. Qed.
Print Assumptions C138_python_refuted.

(** A heating class of an application: it calls one function, number 40, with the
    item and the message, for normal messages, and refuses the others. *)
Definition heating : uclass :=
  {| u_who := THERMOREGULATION; u_calls := fun n m => match m with MNormal _ _ _ => ([(40, [VItem n; VMsg m])], Ok tt) | _ => ([], Err InvalidMessage) end |}.
Definition heating_maker : maker := {| mk_class := A_user 40 None; mk_init := fun whr => Ok whr |}.
Definition warm : msg := MNormal THERMOREGULATION (lit "1") (lit "3").

Example C138_heating :
  snd (fst (xhandle 12 no_callbacks (xrun 12 fresh [XDefine heating]) warm)) = [] /\
  snd (fst (xhandle 12 no_callbacks (xrun 12 fresh [XDefine heating; XType THERMOREGULATION heating_maker]) warm)) = [(40, [VItem 0; VMsg warm])] /\
  listed [XDefine heating; XType THERMOREGULATION heating_maker] THERMOREGULATION heating_maker /\
  first_for [XDefine heating; XType THERMOREGULATION heating_maker] THERMOREGULATION heating /\ ~ library_who THERMOREGULATION.
Proof.
  split; [vm_compute; reflexivity|]. split; [vm_compute; reflexivity|]. split; [|split].
  - exists [XDefine heating], []. split; [reflexivity|]. split; [|intros mk []]. intros a [<-|[]] [[w X]|(r & m & X & _)]; discriminate X.
  - exists [], [XType THERMOREGULATION heating_maker]. split; [reflexivity|]. split; [reflexivity|]. intros u [].
  - unfold library_who. cbn. intuition discriminate.
Qed.

(** A second class for the lights: it gets the request and not the event; and a
    Dimmer in ITEM_TYPES, too late for the light 12. *)
Definition lights2 : uclass := {| u_who := LIGHTING; u_calls := fun n m => ([(41, [VItem n; VMsg m])], Ok tt) |}.
Definition on12 : msg := MNormal LIGHTING (lit "1") (lit "12").
Definition white_cb : registry := register no_callbacks (K_light WHITE_TEMP_CHANGE) {| cb_id := 7; cb_takes := fun n => Nat.eqb n 2 |}.
Definition white_at (whr : str) : msg := MDimRes LIGHTING whr (lit "13") [lit "250"].
Example C138_lights :
  snd (fst (xhandle 12 no_callbacks (xrun 12 fresh [XDefine lights2]) on12)) = [] /\
  snd (fst (xhandle 12 no_callbacks (xrun 12 fresh [XDefine lights2]) (MStatus LIGHTING (lit "12")))) = [(41, [VItem 0; VMsg (MStatus LIGHTING (lit "12"))])] /\
  (let x := xrun 12 fresh [XEvent no_callbacks on12; XType LIGHTING dimmer_maker; XEvent white_cb (white_at (lit "12")); XEvent white_cb (white_at (lit "13"))] in
   map snd (x_objs x) = [(A_built F_Light, lit "12"); (A_dimmer, lit "13")] /\ snd (fst (xhandle 12 white_cb x (white_at (lit "12")))) = [(7, [VItem 0; VInt 250])]).
Proof. vm_compute. repeat split. Qed.

(** A gateway class of the application that does not derive from Gateway. *)
Definition time_cb : registry := register no_callbacks (K_gateway TIME) {| cb_id := 9; cb_takes := fun n => Nat.eqb n 2 |}.
Definition noon : msg := MDimRes GATEWAY [] (lit "0") [lit "12"; lit "00"; lit "00"; lit "001"].
Example C138_gateway :
  snd (fst (xhandle 12 time_cb fresh noon)) <> [] /\
  snd (fst (xhandle 12 time_cb (xrun 12 fresh [XType GATEWAY {| mk_class := A_user 42 (Some F_Gateway); mk_init := fun whr => Ok whr |}]) noon)) <> [] /\
  snd (fst (xhandle 12 time_cb (xrun 12 fresh [XType GATEWAY {| mk_class := A_user 42 None; mk_init := fun whr => Ok whr |}]) noon)) = [].
Proof. vm_compute. repeat split; discriminate. Qed.

(** The camera. *)
Definition cam_cb : registry := register no_callbacks K_cam {| cb_id := 8; cb_takes := fun n => Nat.eqb n 3 |}.
Example C138_camera_case :
  let m := MNormal VIDEO_DOOR_ENTRY (lit "0") (lit "4000") in
  snd (fst (xhandle 12 cam_cb fresh m)) = [] /\
  snd (fst (xhandle 12 cam_cb (xrun 12 fresh [XType VIDEO_DOOR_ENTRY camera_maker]) m)) = [(8, [VItem 0; VStr (lit "0"); VMsg m])].
Proof. vm_compute. repeat split. Qed.
