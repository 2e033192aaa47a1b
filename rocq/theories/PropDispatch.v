(** * Properties C38 to C43, C51, C57, C59, C79 and C80: events and callbacks *)
From Coq Require Import String List NArith ZArith Bool Lia.
From Verif Require Import PyStr PyDate PyFloat Tags Messages SpecMsg SpecTag MessageThms MessageThms2 MessageThms3 TagThms Protocol IO Client
  Items Lighting LightThms2 Gateway SpecGateway Energy SpecEnergy EnergyThms Dispatch SpecDispatch DispatchThms DispatchThms2 DispatchThms3.
Import ListNotations.
Open Scope N_scope.
Open Scope list_scope.

(** Two callbacks for the light status, one for the power. *)
Definition f1 : callback := {| cb_id := 1; cb_takes := fun n => (n =? 2)%nat |}.
Definition f2 : callback := {| cb_id := 2; cb_takes := fun n => (n =? 2)%nat |}.
Definition f3 : callback := {| cb_id := 3; cb_takes := fun n => (n =? 1)%nat |}.
Definition two : registry := register (register no_callbacks (K_light STATUS_CHANGE) f1) (K_light STATUS_CHANGE) f2.
Definition light_on : list N := lit "*1*1*12##".
Definition stray_frame : list N := lit "*#18*0*113*5##".

(** ** C38 Termination *)

(** close() while the loop waits: it never returns, whatever happens next.  The
    documentation says it runs until the connection is dropped or closed. *)
Theorem C38_close_refuted : forall v s acts, st_loop s <> Returned -> st_loop (run v (step v s Close) acts) <> Returned.
Proof. exact never_returns. Qed.
Print Assumptions C38_close_refuted.

(** With nothing pending it waits for ever, after close() and after the loss of
    the connection alike. *)
Theorem C38_waits_for_ever_refuted : forall v s acts a, In a [Close; Lost] -> st_loop s = Waiting -> st_queue s = [] ->
  st_loop (run v (step v s a) acts) = Waiting /\ st_queue (run v (step v s a) acts) = [] /\
  st_started (run v (step v s a) acts) = st_started s.
Proof. exact closed_waits. Qed.
Print Assumptions C38_waits_for_ever_refuted.

(** With messages pending exactly the first is still handled; then the loop
    fails with AttributeError (close) or returns (loss of the connection). *)
Theorem C38_pending_partial : forall v s m q a acts, v < 13 -> In a [Close; Lost] ->
  st_loop s = Waiting -> st_trans s = Some false -> st_queue s = m :: q -> built m -> ~ stray m -> sound (st_items s) ->
  exists its ts, made its (st_reg s) m ts /\
    st_loop (run v s (a :: Wake :: acts)) = match a with Close => Failed AttributeError | _ => Returned end /\
    st_started (run v s (a :: Wake :: acts)) = st_started s ++ ts.
Proof. exact pending_after_end. Qed.
Print Assumptions C38_pending_partial.

(** A packet that cannot be decoded or parsed is a loss of the connection. *)
Theorem C38_bad_packet : forall v s data e, st_trans s = Some false -> packet_messages data = Err e ->
  step v s (Packet data) = step v s Lost.
Proof. exact bad_packet. Qed.
Print Assumptions C38_bad_packet.

(** However the loop ends, no callback is called afterwards. *)
Theorem C38_ended : forall v s acts, st_loop s <> Waiting ->
  st_loop (run v s acts) = st_loop s /\ st_started (run v s acts) = st_started s.
Proof. exact ended. Qed.
Print Assumptions C38_ended.

Example C38_ex :
  st_loop (run 12 (enter 12 (connected two)) [Close; Wake]) = Waiting /\
  st_loop (run 12 (enter 12 (connected two)) [Packet (light_on ++ light_on); Close; Wake; Wake]) = Failed AttributeError /\
  st_loop (run 12 (enter 12 (connected two)) [Packet (light_on ++ light_on); Lost; Wake; Wake]) = Returned /\
  length (st_started (run 12 (enter 12 (connected two)) [Packet (light_on ++ light_on); Lost; Wake; Wake])) = 2%nat.
Proof. vm_compute. repeat split. Qed.

(** ** C39 One object per key *)

(** Two look-ups with any history in between give the same object exactly when
    WHO and WHERE are the same. *)
Theorem C39_same_item : forall v s w1 whr1 i acts w2 whr2 j, NoDup (st_items s) ->
  snd (get_item (st_items s) w1 whr1) = Ok i ->
  snd (get_item (st_items (run v (step v s (Lookup w1 whr1)) acts)) w2 whr2) = Ok j ->
  (i = j <-> w1 = w2 /\ whr1 = whr2).
Proof. exact same_item. Qed.
Print Assumptions C39_same_item.

(** The hypothesis above holds in every history of a new client, and objects are
    only ever added. *)
Theorem C39_items_grow : forall v acts s, NoDup (st_items s) ->
  NoDup (st_items (run v s acts)) /\ exists l, st_items (run v s acts) = st_items s ++ l.
Proof. exact run_items. Qed.
Print Assumptions C39_items_grow.

Example C39_ex : let s := run 12 (enter 12 (connected two)) [Packet light_on; Wake] in
  st_items s = [(LIGHTING, lit "12")] /\ snd (get_item (st_items s) LIGHTING (lit "12")) = Ok 0%nat /\
  snd (get_item (st_items s) LIGHTING (lit "13")) = Ok 1%nat /\ snd (get_item (st_items s) AUTOMATION (lit "12")) = Ok 1%nat.
Proof. vm_compute. repeat split. Qed.

(** ** C40 KeyError *)

Theorem C40_errors : forall its w whr e, Forall tagtext [whr] -> NoDup its -> snd (get_item its w whr) = Err e ->
  ~ In (w, whr) its /\
  ((e = KeyError /\ ~ supported w) \/
   (w = ENERGY_MANAGEMENT /\ (forall t, ~ energy_class whr t) /\
    ((e = IndexError /\ exists r, whr = 55 :: r /\ nohash r) \/ (e = InvalidTag /\ ~ exists r, whr = 55 :: r /\ nohash r)))).
Proof. exact get_item_error. Qed.
Print Assumptions C40_errors.

Theorem C40_key_error_exactly : forall its w whr, tagtext whr -> NoDup its ->
  (snd (get_item its w whr) = Err KeyError <-> ~ In (w, whr) its /\ ~ supported w).
Proof.
  intros its w whr T N1. split.
  - intros H. destruct (get_item_error its w whr KeyError ltac:(constructor; [exact T|constructor]) N1 H) as (A & [[_ B]|(_ & _ & [[B _]|[B _]])]); [auto|discriminate|discriminate].
  - intros [A B]. unfold get_item. apply position_none in A. rewrite A. apply item_types_none in B. rewrite B. reflexivity.
Qed.
Print Assumptions C40_key_error_exactly.

(** A failed look-up leaves the items as they were. *)
Theorem C40_unchanged : forall its w whr e, NoDup its -> snd (get_item its w whr) = Err e -> fst (get_item its w whr) = its.
Proof.
  intros its w whr e N1 H. destruct (get_item its w whr) as [its' x] eqn:G. cbn in *. subst x.
  destruct (get_item_spec _ _ _ _ _ N1 G) as (_ & _ & [-> _]). reflexivity.
Qed.
Print Assumptions C40_unchanged.

Example C40_ex : snd (get_item [] VIDEO_DOOR_ENTRY (lit "20")) = Err KeyError /\ ~ supported VIDEO_DOOR_ENTRY /\
  snd (get_item [] ENERGY_MANAGEMENT (lit "0")) = Err InvalidTag /\ snd (get_item [] ENERGY_MANAGEMENT (lit "71")) = Err IndexError /\
  snd (get_item [] ENERGY_MANAGEMENT (lit "71#0")) = Ok 0%nat.
Proof. repeat split; try reflexivity. cbv. intuition discriminate. Qed.

(** ** C41 The loop survives *)

(** In every history of an open connection without stray events the loop is
    still waiting, and it has read everything it was woken for. *)
Theorem C41_survives_partial : forall v r acts evs q, v < 13 -> observed r acts evs q -> Forall (fun ev => ~ stray (snd ev)) evs ->
  st_loop (run v (enter v (connected r)) acts) = Waiting /\ st_queue (run v (enter v (connected r)) acts) = q.
Proof.
  intros v r acts evs q Hv O NS. destruct (observed_run v r acts evs q Hv O NS) as (_ & its & tss & E & _). rewrite E. split; reflexivity.
Qed.
Print Assumptions C41_survives_partial.

(** One stray event ends the loop with an exception: the events behind it, and
    all later ones, reach no callback. *)
Theorem C41_stray_event_refuted : forall v r acts evs pre m post, v < 13 ->
  observed r acts evs (pre ++ m :: post) -> Forall (fun ev => ~ stray (snd ev)) evs -> Forall (fun m => ~ stray m) pre -> stray m ->
  exists e tss1 tss2 its, (e = IndexError \/ e = InvalidTag) /\
    Forall2 (fun ev ts => made its (fst ev) (snd ev) ts) evs tss1 /\
    Forall2 (fun m ts => made its (registered r acts) m ts) pre tss2 /\
    forall more, st_loop (run v (enter v (connected r)) (acts ++ Wake :: more)) = Failed e /\
      st_started (run v (enter v (connected r)) (acts ++ Wake :: more)) = concat (tss1 ++ tss2).
Proof. exact stray_event. Qed.
Print Assumptions C41_stray_event_refuted.

Lemma stray_ex : stray (MDimRes ENERGY_MANAGEMENT (lit "0") (lit "113") [lit "5"]).
Proof. split; [reflexivity|]. exists (lit "0"). split; [reflexivity|]. intros t H. inversion H. Qed.

Example C41_ex : exists acts evs m,
  observed two acts evs [m] /\ evs = [] /\ stray m /\
  st_loop (run 12 (enter 12 (connected two)) (acts ++ [Wake])) = Failed InvalidTag.
Proof.
  exists [Packet stray_frame], [], (MDimRes ENERGY_MANAGEMENT (lit "0") (lit "113") [lit "5"]).
  split; [apply (O_packet two [] [] [] stray_frame [MDimRes ENERGY_MANAGEMENT (lit "0") (lit "113") [lit "5"]]); [constructor|reflexivity]|].
  split; [reflexivity|]. split; [exact stray_ex|]. vm_compute. reflexivity.
Qed.

(** ** C42 Every callback, every event, once *)

(** Up to Python 3.12: after every history of an open connection without stray
    events, the calls started are, event by event in the order of arrival, those
    the specification prescribes for the callbacks registered when the loop got
    to the event, with the item of the event's WHERE. *)
Theorem C42_calls : forall v r acts evs q, v < 13 -> observed r acts evs q -> Forall (fun ev => ~ stray (snd ev)) evs ->
  exists its tss, st_started (run v (enter v (connected r)) acts) = concat tss /\
    st_items (run v (enter v (connected r)) acts) = its /\ NoDup its /\
    Forall2 (fun ev ts => made its (fst ev) (snd ev) ts) evs tss.
Proof.
  intros v r acts evs q Hv O NS. destruct (observed_run v r acts evs q Hv O NS) as (_ & its & tss & E & [N1 _] & F).
  exists its, tss. rewrite E. auto.
Qed.
Print Assumptions C42_calls.

(** Every such history has exactly one reading. *)
Theorem C42_total : forall r acts, Forall orderly acts -> exists evs q, observed r acts evs q.
Proof. exact observed_total. Qed.
Print Assumptions C42_total.
Theorem C42_determined : forall r acts evs q, observed r acts evs q -> forall evs' q', observed r acts evs' q' -> evs' = evs /\ q' = q.
Proof. exact observed_unique. Qed.
Print Assumptions C42_determined.
Theorem C42_meaning_determined : forall m k args k' args', built m -> reports m k args -> reports m k' args' -> k = k' /\ args = args'.
Proof. exact reports_unique. Qed.
Print Assumptions C42_meaning_determined.

(** When they take the arguments, all callbacks of the event are called, once
    each and in the order of registration; never more than that. *)
Theorem C42_once_each : forall args fs ts, (forall f, In f fs -> cb_takes f (length args) = true) ->
  (calls args fs ts <-> ts = map (fun f => (cb_id f, args)) fs).
Proof.
  intros args fs ts H. split.
  - intros C. eapply calls_unique; [exact C|]. apply calls_all, H.
  - intros ->. apply calls_all, H.
Qed.
Print Assumptions C42_once_each.

Example C42_ex : exists acts evs, observed two acts evs [] /\ length evs = 2%nat /\
  st_started (run 12 (enter 12 (connected two)) acts) =
    [(1, [VItem 0; VBool true]); (2, [VItem 0; VBool true]); (1, [VItem 1; VBool false]); (2, [VItem 1; VBool false]); (3, [VItem 1; VBool false])].
Proof.
  set (f3' := {| cb_id := 3; cb_takes := fun n => (n =? 2)%nat |}).
  exists ((((([] ++ [Packet light_on]) ++ [Wake]) ++ [Register (K_light STATUS_CHANGE) f3']) ++ [Packet (lit "*1*0*13##")]) ++ [Wake]).
  eexists. split; [|split].
  - apply O_wake. apply (O_packet two _ _ [] _ [MNormal LIGHTING (lit "0") (lit "13")]); [|reflexivity]. apply O_register. apply O_wake.
    apply (O_packet two _ _ [] _ [MNormal LIGHTING (lit "1") (lit "12")]); [constructor|reflexivity].
  - reflexivity.
  - vm_compute. reflexivity.
Qed.

(** ** C43 Python 3.13 and later *)

(** No callback is ever called. *)
Theorem C43_silent_refuted : forall v r acts, 13 <= v -> st_started (run v (enter v (connected r)) acts) = [].
Proof. intros v r acts Hv. exact (never_started v (connected r) acts Hv). Qed.
Print Assumptions C43_silent_refuted.

Example C43_ex : st_started (run 14 (enter 14 (connected two)) [Packet light_on; Wake]) = [] /\
  st_items (run 14 (enter 14 (connected two)) [Packet light_on; Wake]) = [(LIGHTING, lit "12")] /\
  length (st_started (run 12 (enter 12 (connected two)) [Packet light_on; Wake])) = 2%nat.
Proof. vm_compute. repeat split. Qed.

(** ** C51 Light events *)

(** An event with the documented dimension of a quantity reaches no callback for
    that quantity, except for HSV. *)
Theorem C51_wrong_dimension_refuted : forall e dim ps whr vs k args, documented_dim e dim -> e <> HSV_CHANGE -> Forall nohash ps ->
  reports (MDimRes LIGHTING whr (with_params dim ps) vs) k args -> k <> K_light e.
Proof. exact light_wrong_dim. Qed.
Print Assumptions C51_wrong_dimension_refuted.

(** A light that is on at some level (2 and more) is reported as off. *)
Theorem C51_dimmed_off_refuted : forall n what whr k args, 2 <= n -> tagnum what n ->
  reports (MNormal LIGHTING what whr) k args -> k = K_light STATUS_CHANGE /\ args = [VBool false].
Proof. exact light_dimmed_off. Qed.
Print Assumptions C51_dimmed_off_refuted.

(** What call_callbacks does, exactly, for all four classes of items. *)
Theorem C51_events_partial : forall c m k args, built m -> msg_who m = Some (class_who c) -> c <> C_Camera ->
  (class_call c m = Ok (Some (k, args)) <-> reports m k args).
Proof. exact reports_iff. Qed.
Print Assumptions C51_events_partial.

Example C51_ex : class_call C_Light (MDimRes LIGHTING (lit "12") (lit "1") [lit "150"; lit "5"; lit "0"]) =
    Ok (Some (K_light LIGHT_TEMPORIZATION, [VInt 150; VInt 5; VInt 0])) /\
  class_call C_Light (MDimRes LIGHTING (lit "12") (lit "2") [lit "0"; lit "1"; lit "30"]) = Ok None /\
  class_call C_Light (MNormal LIGHTING (lit "8") (lit "12")) = Ok (Some (K_light STATUS_CHANGE, [VBool false])) /\
  tagnum (lit "8") 8.
Proof.
  repeat split; try (vm_compute; reflexivity). exists (lit "8"), []. split; [reflexivity|]. split; [constructor|].
  split; [apply digits_all; reflexivity|]. split; [discriminate|]. split; [reflexivity|]. cbn. lia.
Qed.

(** ** C57 Gateway events *)

(** A text is handed over one character per argument, at least two of them. *)
Theorem C57_text_spread_refuted : forall m w args, text_valued w -> reports m (K_gateway w) args ->
  (2 <= length args)%nat /\ exists s, args = map (fun c => VStr [c]) s.
Proof. exact text_spread. Qed.
Print Assumptions C57_text_spread_refuted.

(** So callbacks taking the item and the value are not called. *)
Theorem C57_not_called_refuted : forall its r m w args ts, built m -> text_valued w -> reports m (K_gateway w) args ->
  (forall f, In f (r (K_gateway w)) -> forall n, cb_takes f n = (n =? 2)%nat) -> made its r m ts -> ts = [].
Proof. exact text_not_called. Qed.
Print Assumptions C57_not_called_refuted.

(** The model is also a text: its number, one digit per argument. *)
Theorem C57_model_partial : forall m args, reports m (K_gateway DEVICE_TYPE) args ->
  exists s, known_model s /\ args = map (fun c => VStr [c]) s.
Proof. exact model_spread. Qed.
Print Assumptions C57_model_partial.

(** The other five events are reported with exactly the value that the get
    method would return for the same values. *)
Theorem C57_one_value_partial : forall w whr vs,
  (forall t, time_of vs = Ok t -> reports (MDimRes GATEWAY whr (wg_str TIME) vs) (K_gateway TIME) [VTime t]) /\
  (forall d, date_of vs = Ok d -> reports (MDimRes GATEWAY whr (wg_str DATE) vs) (K_gateway DATE) [VDate d]) /\
  (forall a, ip_of vs = Ok a -> reports (MDimRes GATEWAY whr (wg_str IP_ADDRESS) vs) (K_gateway IP_ADDRESS) [VAddr a]) /\
  (forall t, uptime_of vs = Ok t -> reports (MDimRes GATEWAY whr (wg_str UPTIME) vs) (K_gateway UPTIME) [VDelta t]) /\
  (forall t, datetime_of vs = Ok t -> reports (MDimRes GATEWAY whr (wg_str DATE_TIME) vs) (K_gateway DATE_TIME) [VDateTime t]) /\
  (forall k args, reports (MDimRes GATEWAY whr (wg_str w) vs) k args -> ~ text_valued w -> w <> DEVICE_TYPE -> exists x, args = [x]).
Proof.
  intros w whr vs. repeat (split; [intros t Ht; apply Rep_gateway; constructor; exact Ht|]).
  intros k args R NT ND. remember (MDimRes GATEWAY whr (wg_str w) vs) as m eqn:E.
  destruct R as [| | |w' whr' vs' args G|w' whr' vs' args G|]; try discriminate E. injection E as _ E ->.
  assert (w' = w) as -> by (destruct w, w'; try reflexivity; discriminate).
  destruct G as [vs t H|vs t H|vs t H|vs t H|vs t H|vs t H|vs t H|vs t H|w vs t Hw H]; try (eexists; reflexivity).
  - exfalso. apply NT. cbv. tauto.
  - exfalso. apply NT. cbv. tauto.
  - congruence.
  - exfalso. apply NT. destruct Hw as [<-|[<-|[<-|[]]]]; cbv; tauto.
Qed.
Print Assumptions C57_one_value_partial.

Example C57_ex : class_call C_Gateway (MDimRes GATEWAY [] (lit "16") [lit "1"; lit "0"; lit "7"]) =
    Ok (Some (K_gateway FIRMWARE_VERSION, [VStr (lit "1"); VStr (lit "."); VStr (lit "0"); VStr (lit "."); VStr (lit "7")])) /\
  class_call C_Gateway (MDimRes GATEWAY [] (lit "15") [lit "200"]) = Ok (Some (K_gateway DEVICE_TYPE, [VStr (lit "2"); VStr (lit "0"); VStr (lit "0")])) /\
  class_call C_Gateway (MDimRes GATEWAY [] (lit "15") [lit "4"]) = Ok (Some (K_gateway DEVICE_TYPE, [VStr (lit "4")])).
Proof. repeat split; reflexivity. Qed.

(** ** C59 Energy events with a parameter *)

Theorem C59_unreachable_refuted : forall d m args, parameterised d -> ~ reports m (K_energy d) args.
Proof. exact parameterised_unreported. Qed.
Print Assumptions C59_unreachable_refuted.

Theorem C59_exceptions : forall d whr ps vs, parameterised d -> Forall nohash ps ->
  energy_call (MDimRes ENERGY_MANAGEMENT whr (with_params (de_str d) ps) vs) = Err (match ps with [] => IndexError | _ => ValueError end).
Proof. exact parameterised_fails. Qed.
Print Assumptions C59_exceptions.

(** The events that do reach a callback: one float, one number, the status or
    the actuator flags. *)
Theorem C59_reachable_partial : forall w whr ds vs k args, Forall tagtext vs ->
  (energy_call (MDimRes w whr ds vs) = Ok (Some (k, args)) <-> exists d, ds = de_str d /\ k = K_energy d /\ energy_value d vs args).
Proof. exact energy_reports. Qed.
Print Assumptions C59_reachable_partial.

Example C59_ex : parameterised TOTALIZERS /\
  energy_call (MDimRes ENERGY_MANAGEMENT (lit "51") (lit "72#1") [lit "7"]) = Err ValueError /\
  energy_call (MDimRes ENERGY_MANAGEMENT (lit "51") (lit "72") [lit "7"]) = Err IndexError /\
  energy_call (MDimRes ENERGY_MANAGEMENT (lit "51") (lit "113") [lit "405"]) = Ok (Some (K_energy ACTIVE_POWER, [VFloat (Fin 405)])).
Proof. split; [cbv; tauto|]. repeat split; reflexivity. Qed.

(** ** C79 Camera callbacks *)

Theorem C79_camera_silent_refuted : forall v r acts evs q, v < 13 -> observed r acts evs q ->
  Forall (fun ev => msg_who (snd ev) = Some VIDEO_DOOR_ENTRY) evs -> st_started (run v (enter v (connected r)) acts) = [].
Proof. exact camera_silent. Qed.
Print Assumptions C79_camera_silent_refuted.

Theorem C79_no_camera_item_refuted : forall its whr, sound its -> get_item its VIDEO_DOOR_ENTRY whr = (its, Err KeyError).
Proof. exact camera_no_item. Qed.
Print Assumptions C79_no_camera_item_refuted.

(** Though the class itself would make the calls: exactly for the commands of the
    documentation, with the command and the message. *)
Theorem C79_class : forall m, msg_who m = Some VIDEO_DOOR_ENTRY -> forall k args,
  (class_call C_Camera m = Ok (Some (k, args)) <->
   exists what whr, m = MNormal VIDEO_DOOR_ENTRY what whr /\ camera_what what /\ k = K_cam /\ args = [VStr what; VMsg m]).
Proof. exact camera_class. Qed.
Print Assumptions C79_class.

Example C79_ex : let r := register no_callbacks K_cam {| cb_id := 7; cb_takes := fun n => (n =? 3)%nat |} in
  let m := MNormal VIDEO_DOOR_ENTRY (lit "0") (lit "4000") in
  fst (call_callbacks r C_Camera 0 m) = [(7, [VItem 0; VStr (lit "0"); VMsg m])] /\
  st_queue (run 12 (enter 12 (connected r)) [Packet (lit "*7*0*4000##")]) = [m] /\
  st_started (run 12 (enter 12 (connected r)) [Packet (lit "*7*0*4000##"); Wake]) = [].
Proof. vm_compute. repeat split. Qed.

(** ** C80 A callback that cannot take the arguments *)

(** It takes those registered after it down with it. *)
Theorem C80_refused_stops_refuted : forall args pre f post ts,
  (forall g, In g pre -> cb_takes g (length args) = true) -> cb_takes f (length args) = false ->
  (calls args (pre ++ f :: post) ts <-> ts = map (fun g => (cb_id g, args)) pre).
Proof.
  intros args pre f post ts H E. split.
  - intros C. eapply calls_unique; [exact C|]. apply refused_stops; assumption.
  - intros ->. apply refused_stops; assumption.
Qed.
Print Assumptions C80_refused_stops_refuted.

(** Never are calls made out of order or twice: a prefix is called. *)
Theorem C80_prefix_partial : forall args fs ts, calls args fs ts -> exists n, ts = map (fun f => (cb_id f, args)) (firstn n fs).
Proof. exact calls_prefix. Qed.
Print Assumptions C80_prefix_partial.

Example C80_ex : let r := register (register (register no_callbacks (K_light STATUS_CHANGE) f1) (K_light STATUS_CHANGE) f3) (K_light STATUS_CHANGE) f2 in
  st_started (run 12 (enter 12 (connected r)) [Packet light_on; Wake]) = [(1, [VItem 0; VBool true])].
Proof. vm_compute. reflexivity. Qed.
