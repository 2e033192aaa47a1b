(** * What events mean to callbacks

    The events each callback is called for and its arguments, the calls made,
    and the order in which the loop gets to the events. *)
From Coq Require Import String List NArith ZArith Bool Lia.
From Verif Require Import PyStr PyDate PyFloat Tags Messages SpecMsg SpecTag Protocol LightThms2 Gateway Energy SpecEnergy Dispatch.
Import ListNotations.
Open Scope N_scope.
Open Scope list_scope.

(** The dimension and the number of values of each light event. *)
Inductive light_dim : light_event -> str -> nat -> Prop :=
| LD_temporization : light_dim LIGHT_TEMPORIZATION (lit "1") 3
| LD_luminosity : light_dim LUMINOSITY_CHANGE (lit "8") 2
| LD_hsv : light_dim HSV_CHANGE (lit "12") 3
| LD_white : light_dim WHITE_TEMP_CHANGE (lit "13") 1.

(** The same in the documentation: docs/original/who1.md, DIMENSION Table. *)
Inductive documented_dim : light_event -> str -> Prop :=
| DD_luminosity : documented_dim LUMINOSITY_CHANGE (lit "1")
| DD_temporization : documented_dim LIGHT_TEMPORIZATION (lit "2")
| DD_hsv : documented_dim HSV_CHANGE (lit "12")
| DD_white : documented_dim WHITE_TEMP_CHANGE (lit "14").

(** What the gateway callbacks get: the result of the get method for the values
    of the event (see C53 to C56 and C72 to C74 for these results); a text is
    handed over character by character. *)
Inductive gateway_value : what_gateway -> list str -> list val -> Prop :=
| GV_time vs t : time_of vs = Ok t -> gateway_value TIME vs [VTime t]
| GV_date vs d : date_of vs = Ok d -> gateway_value DATE vs [VDate d]
| GV_ip vs a : ip_of vs = Ok a -> gateway_value IP_ADDRESS vs [VAddr a]
| GV_uptime vs t : uptime_of vs = Ok t -> gateway_value UPTIME vs [VDelta t]
| GV_datetime vs t : datetime_of vs = Ok t -> gateway_value DATE_TIME vs [VDateTime t]
| GV_mask vs s : dotted_of vs = Ok s -> gateway_value NET_MASK vs (map (fun c => VStr [c]) s)
| GV_mac vs s : mac_of vs = Ok s -> gateway_value MAC_ADDRESS vs (map (fun c => VStr [c]) s)
| GV_model vs s : model_of vs = Ok s -> gateway_value DEVICE_TYPE vs (map (fun c => VStr [c]) s)
| GV_version w vs s : In w [FIRMWARE_VERSION; KERNEL_VERSION; DISTRIBUTION_VERSION] -> version_of vs = Ok s ->
    gateway_value w vs (map (fun c => VStr [c]) s).

(** The energy callbacks. *)
Inductive energy_value : dim_energy -> list str -> list val -> Prop :=
| EV_float d v more f :
    In d [ACTIVE_POWER; ENERGY_UNIT_TOTALIZER; PARTIAL_TOTALIZER_CURRENT_MONTH; PARTIAL_TOTALIZER_CURRENT_DAY] ->
    digits v -> v <> [] -> reads (value_of 0 v) f -> energy_value d (v :: more) [VFloat f]
| EV_level v more n : number v n -> energy_value DIFFERENTIAL_CURRENT_LEVEL (v :: more) [VInt (Z.of_N n)]
| EV_stop_go (v : str) more : (13 <= length v)%nat -> digits (firstn 13 v) ->
    energy_value STATUS_STOP_GO_GENERAL (v :: more) [VStatus (map (fun c => Some (negb (c =? 48))) (firstn 13 v))]
| EV_actuator a b c d e f tl more : Forall digitchar [a; b; c; d; e; f] ->
    energy_value ACTUATORS_INFO ((a :: b :: c :: d :: e :: f :: tl) :: more)
      [VActuator {| as_disabled := negb (a =? 48); as_forcing := negb (b =? 48); as_threshold := negb (c =? 48);
                    as_protection := negb (d =? 48); as_phase := negb (e =? 48); as_advanced := (f =? 49) |}].

(** [reports m k args]: the callbacks registered under [k] are to be called for
    the event [m], with [args] after the item. *)
Inductive reports : msg -> evkey -> list val -> Prop :=
| Rep_status what whr b : (b = true <-> what = lit "1") ->
    reports (MNormal LIGHTING what whr) (K_light STATUS_CHANGE) [VBool b]
| Rep_light e dim n ps vs more ns whr : light_dim e dim n -> Forall nohash ps -> Forall2 valnum vs ns -> length ns = n ->
    reports (MDimRes LIGHTING whr (with_params dim ps) (vs ++ more)) (K_light e) (map (fun x => VInt (Z.of_N x)) ns)
| Rep_auto what whr : In what [lit "0"; lit "1"; lit "2"] -> reports (MNormal AUTOMATION what whr) K_auto [VStr what]
| Rep_gateway_set w whr vs args : gateway_value w vs args -> reports (MDimWri GATEWAY whr (wg_str w) vs) (K_gateway w) args
| Rep_gateway w whr vs args : gateway_value w vs args -> reports (MDimRes GATEWAY whr (wg_str w) vs) (K_gateway w) args
| Rep_energy d whr vs args : energy_value d vs args -> reports (MDimRes ENERGY_MANAGEMENT whr (de_str d) vs) (K_energy d) args.

(** What a camera event can say: the video is on, the resources are free, a
    setting is changed up or down, a dial is displayed.  docs/original/who7.md *)
Inductive camera_what : str -> Prop :=
| CW_video : camera_what [48]
| CW_free : camera_what [57]
| CW_setting a b : 50 <= a <= 56 -> 48 <= b <= 49 -> camera_what [49; a; b]
| CW_dial x y : 49 <= x <= 52 -> 49 <= y <= 52 -> camera_what [51; x; y].

(** The calls made for a list of callbacks: one each, in order, up to the first
    that cannot take so many arguments. *)
Inductive calls (args : list val) : list callback -> list task -> Prop :=
| Calls_nil : calls args [] []
| Calls_ok f fs ts : cb_takes f (length args) = true -> calls args fs ts -> calls args (f :: fs) ((cb_id f, args) :: ts)
| Calls_refused f fs : cb_takes f (length args) = false -> calls args (f :: fs) [].

(** [made its r m ts]: [ts] are the calls for the event [m] when the callbacks
    [r] are registered; [its] are the items by number. *)
Inductive made (its : items) (r : registry) (m : msg) : list task -> Prop :=
| Made k args w whr i ts : reports m k args -> msg_who m = Some w -> msg_where m = Some whr ->
    nth_error its i = Some (w, whr) -> calls (VItem i :: args) (r k) ts -> made its r m ts
| Made_none : (forall k args, ~ reports m k args) -> made its r m [].

(** An energy event from an address that is not an energy address. *)
Definition stray (m : msg) : Prop :=
  msg_who m = Some ENERGY_MANAGEMENT /\ exists whr, msg_where m = Some whr /\ forall t, ~ energy_class whr t.

(** The callbacks registered at the end of a history. *)
Fixpoint registered (r : registry) (acts : list act) : registry :=
  match acts with
  | [] => r
  | Register k c :: acts => registered (fun k' => if evkey_eq k k' then r k' ++ [c] else r k') acts
  | _ :: acts => registered r acts
  end.

(** [observed r acts evs q]: in the history [acts] of an open connection the
    loop gets to the events [evs], each with the callbacks registered at that
    time, and [q] is still unread. *)
Inductive observed (r : registry) : list act -> list (registry * msg) -> list msg -> Prop :=
| O_start : observed r [] [] []
| O_packet acts evs q data ms : observed r acts evs q -> packet_messages data = Ok ms ->
    observed r (acts ++ [Packet data]) evs (q ++ ms)
| O_register acts evs q k c : observed r acts evs q -> observed r (acts ++ [Register k c]) evs q
| O_lookup acts evs q w whr : observed r acts evs q -> tagtext whr -> observed r (acts ++ [Lookup w whr]) evs q
| O_wake acts evs q : observed r acts evs q ->
    observed r (acts ++ [Wake]) (evs ++ map (fun m => (registered r acts, m)) q) [].
