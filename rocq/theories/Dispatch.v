(** * Event dispatch: pyown/client/client.py and the call_callbacks methods *)
From Coq Require Import String List NArith ZArith Bool Lia.
From Verif Require Import PyStr PyDate PyFloat Tags Messages Protocol IO Client Items Lighting Gateway Energy.
Import ListNotations.
Open Scope N_scope.
Open Scope list_scope.

(** ** Values passed to callbacks *)

(** An item is the number of the object, in order of creation (see [get_item]);
    an enum member that is a str is its string. *)
Inductive val :=
| VItem (n : nat)
| VInt (z : Z)
| VBool (b : bool)
| VFloat (f : pyfloat)
| VStr (s : str)
| VTime (t : time)
| VDate (d : date)
| VDateTime (t : date * time)
| VAddr (a : N)
| VDelta (us : Z)
| VStatus (s : stop_go_status)
| VActuator (a : actuator_status)
| VMsg (m : msg).

(** A registered callback: its name, and the numbers of arguments with which it
    can be called ([func( *args)] raises TypeError for another number).  Callbacks
    are coroutine functions, so the call itself runs no user code. *)
Record callback := { cb_id : N; cb_takes : nat -> bool }.

(** ** Registries *)

(** lighting/base.py:29-33 LightEvents *)
Inductive light_event := STATUS_CHANGE | LUMINOSITY_CHANGE | LIGHT_TEMPORIZATION | HSV_CHANGE | WHITE_TEMP_CHANGE.

(** The keys of the five dictionaries [_event_callbacks] (automation and camera
    register under ALL only). *)
Inductive evkey :=
| K_light (e : light_event)
| K_auto
| K_cam
| K_gateway (w : what_gateway)
| K_energy (d : dim_energy).

Definition light_event_eq (a b : light_event) : {a = b} + {a <> b}.
Proof. decide equality. Defined.
Definition what_gateway_eq (a b : what_gateway) : {a = b} + {a <> b}.
Proof. decide equality. Defined.
Definition dim_energy_eq (a b : dim_energy) : {a = b} + {a <> b}.
Proof. decide equality. Defined.
Definition evkey_eq (a b : evkey) : {a = b} + {a <> b}.
Proof. decide equality; auto using light_event_eq, what_gateway_eq, dim_energy_eq. Defined.

Definition registry := evkey -> list callback.
Definition no_callbacks : registry := fun _ => [].

(** lighting/base.py:207-226, lighting/dimmer.py (on_luminosity_change,
    on_hsv_change, on_white_temp_change), automation.py:79-92,
    camera.py:240-250, gateway.py:449-460, energy.py:360-543: append to the list
    of the key, which starts empty. *)
Definition register (r : registry) (k : evkey) (c : callback) : registry :=
  fun k' => if evkey_eq k k' then r k' ++ [c] else r k'.

(** ** Tasks *)

(** A call started as a task: which callback with which arguments. *)
Definition task := (N * list val)%type.

(** items/base.py:83-85 _create_tasks: the tasks already created when a callback
    refuses the arguments keep running, but the list is lost. *)
Fixpoint create_tasks (fs : list callback) (args : list val) : list task * res unit :=
  match fs with
  | [] => ([], Ok tt)
  | f :: fs =>
      if cb_takes f (length args) then
        let (ts, r) := create_tasks fs args in ((cb_id f, args) :: ts, r)
      else ([], Err TypeError)
  end.

(** ** The call_callbacks methods

    Each gives the key and the arguments after the item, nothing when the event
    is ignored, or the exception. *)

Definition call := option (evkey * list val).

(** [int(message.values[i].tag)] for i = 0 .. n-1 *)
Definition tag_ints (vs : list str) (n : nat) : res (list val) :=
  mapM (fun i => do z <- int_value vs i; Ok (VInt z)) (seq 0 n).

(** lighting/base.py:228-272 *)
Definition light_call (m : msg) : res call :=
  match m with
  | MDimRes _ _ d vs =>
      let t := twp_tag d in
      if str_eqb t (lit "1") then do l <- tag_ints vs 3; Ok (Some (K_light LIGHT_TEMPORIZATION, l))
      else if str_eqb t (lit "8") then do l <- tag_ints vs 2; Ok (Some (K_light LUMINOSITY_CHANGE, l))
      else if str_eqb t (lit "12") then do l <- tag_ints vs 3; Ok (Some (K_light HSV_CHANGE, l))
      else if str_eqb t (lit "13") then do l <- tag_ints vs 1; Ok (Some (K_light WHITE_TEMP_CHANGE, l))
      else Ok None
  | MNormal _ what _ => Ok (Some (K_light STATUS_CHANGE, [VBool (str_eqb what (lit "1"))]))
  | _ => Err InvalidMessage
  end.

(** automation.py:94-108 *)
Definition auto_call (m : msg) : res call :=
  match m with
  | MNormal _ what _ => do w <- enum_of what_automation_values what; Ok (Some (K_auto, [VStr w]))
  | _ => Err InvalidMessage
  end.

(** camera.py:252-267 *)
Definition cam_call (m : msg) : res call :=
  match m with
  | MNormal _ what _ => do w <- enum_of what_camera_values what; Ok (Some (K_cam, [VStr w; VMsg m]))
  | _ => Err InvalidMessage
  end.

(** gateway.py:509-512: a str is a Sequence and is passed one character per
    argument. *)
Definition spread (s : str) : list val := map (fun c => VStr [c]) s.

(** gateway.py:462-516 with an item that is a Gateway; a DimensionResponse is
    also a DimensionWriting and is rebuilt with the same tags. *)
Definition gateway_call (m : msg) : res call :=
  match m with
  | MDimWri _ _ d vs | MDimRes _ _ d vs =>
      do w <- wg_of d;
      do args <- match w with
                 | TIME => do t <- time_of vs; Ok [VTime t]
                 | DATE => do t <- date_of vs; Ok [VDate t]
                 | IP_ADDRESS => do a <- ip_of vs; Ok [VAddr a]
                 | NET_MASK => do s <- dotted_of vs; Ok (spread s)
                 | MAC_ADDRESS => do s <- mac_of vs; Ok (spread s)
                 | DEVICE_TYPE => do s <- model_of vs; Ok (spread s)
                 | FIRMWARE_VERSION => do s <- version_of vs; Ok (spread s)
                 | UPTIME => do t <- uptime_of vs; Ok [VDelta t]
                 | DATE_TIME => do t <- datetime_of vs; Ok [VDateTime t]
                 | KERNEL_VERSION => do s <- version_of vs; Ok (spread s)
                 | DISTRIBUTION_VERSION => do s <- version_of vs; Ok (spread s)
                 end;
      Ok (Some (K_gateway w, args))
  | _ => Err InvalidMessage
  end.

(** [int(dim.parameters[i])] of a member of DimensionEnergy *)
Definition dim_param (d : dim_energy) (i : nat) : res Z :=
  do p <- index (twp_parameters (de_str d)) i; py_int p.

(** [float(message.values[i].string)] *)
Definition float_at (vs : list str) (i : nat) : res pyfloat := do v <- index vs i; py_float v.
(** [int(message.values[i].string)] *)
Definition int_at (vs : list str) (i : nat) : res Z := do v <- index vs i; py_int v.

(** energy.py:563-582: the four reports *)
Definition report_args (d : dim_energy) (vs : list str) : res (list val) :=
  do month <- dim_param d 0; do hour <- int_at vs 0; do v <- float_at vs 1;
  Ok [VInt month; VInt hour; VFloat v].

(** energy.py:545-631 with an item that is an EnergyManagement *)
Definition energy_call (m : msg) : res call :=
  match m with
  | MDimRes _ _ ds vs =>
      do d <- de_of ds;
      match d with
      | DAILY_TOTALIZERS_HOURLY_16BIT | MONTHLY_AVERAGE_HOURLY_16BIT
      | MONTHLY_TOTALIZERS_CURRENT_YEAR_32BIT | MONTHLY_TOTALIZERS_LAST_YEAR_32BIT =>
          do l <- report_args d vs; Ok (Some (K_energy d, l))
      | STATUS_STOP_GO_GENERAL => do s <- status_of_event vs; Ok (Some (K_energy d, [VStatus s]))
      | ACTUATORS_INFO => do a <- actuator_of vs; Ok (Some (K_energy d, [VActuator a]))
      | ACTIVE_POWER | ENERGY_UNIT_TOTALIZER | PARTIAL_TOTALIZER_CURRENT_MONTH | PARTIAL_TOTALIZER_CURRENT_DAY =>
          do f <- float_at vs 0; Ok (Some (K_energy d, [VFloat f]))
      | ENERGY_UNIT_PER_MONTH =>
          do month <- dim_param d 1; do year <- dim_param d 0; do e <- float_at vs 0;
          Ok (Some (K_energy d, [VInt month; VInt year; VFloat e]))
      | TOTALIZERS =>
          do n <- dim_param d 0; do t <- totalizer_of vs;
          Ok (Some (K_energy d, [VDateTime (fst t); VFloat (snd t)]))
      | DIFFERENTIAL_CURRENT_LEVEL => do z <- int_at vs 0; Ok (Some (K_energy d, [VInt z]))
      | _ => Ok None
      end
  | _ => Err InvalidMessage
  end.

(** ** The dispatcher *)

(** [BaseItem.__subclasses__()], in the order of the imports of
    items/__init__.py. *)
Inductive item_class := C_Automation | C_Camera | C_Energy | C_Gateway | C_Light.
Definition subclasses : list item_class := [C_Automation; C_Camera; C_Energy; C_Gateway; C_Light].

(** The class attribute [_who]: automation.py:51, camera.py:135, energy.py:29,
    gateway.py:95, lighting/base.py:120 *)
Definition class_who (c : item_class) : who :=
  match c with
  | C_Automation => AUTOMATION | C_Camera => VIDEO_DOOR_ENTRY | C_Energy => ENERGY_MANAGEMENT
  | C_Gateway => GATEWAY | C_Light => LIGHTING
  end.

(** items/base.py:68-72, [item_obj.who]: classmethod around property.  Up to
    Python 3.12 the property is called with the class; from 3.13 on (3.[v]) the
    result is a method object, which is equal to no WHO. *)
Definition item_who (v : N) (c : item_class) : option who := if v <? 13 then Some (class_who c) else None.

Definition class_call (c : item_class) : msg -> res call :=
  match c with
  | C_Automation => auto_call | C_Camera => cam_call | C_Energy => energy_call
  | C_Gateway => gateway_call | C_Light => light_call
  end.

(** [await item_obj.call_callbacks(item, message)]; [it] is the number of the
    item object. *)
Definition call_callbacks (r : registry) (c : item_class) (it : nat) (m : msg) : list task * res unit :=
  match class_call c m with
  | Ok (Some (k, args)) => create_tasks (r k) (VItem it :: args)
  | Ok None => ([], Ok tt)
  | Err e => ([], Err e)
  end.

(** client.py:145-171 _dispatch_callbacks: every exception is logged and the
    search goes on; a success ends it.  The result is the tasks started. *)
Fixpoint dispatch (v : N) (r : registry) (cs : list item_class) (it : nat) (m : msg) : list task :=
  match cs with
  | [] => []
  | c :: cs =>
      match item_who v c, msg_who m with
      | Some w, Some w' =>
          if who_eqb w' w then
            let (ts, x) := call_callbacks r c it m in
            ts ++ match x with Ok _ => [] | Err _ => dispatch v r cs it m end
          else dispatch v r cs it m
      | _, _ => dispatch v r cs it m
      end
  end.

(** ** The items of a client *)

(** items/utils.py:12-17 ITEM_TYPES: the class of the item, and the WHERE of the
    object (the gateway's is empty). *)
Inductive factory := F_Light | F_Automation | F_Gateway | F_Energy.
Definition item_types (w : who) : option factory :=
  match w with
  | LIGHTING => Some F_Light | AUTOMATION => Some F_Automation | GATEWAY => Some F_Gateway
  | ENERGY_MANAGEMENT => Some F_Energy | _ => None
  end.

(** [factory(client, where)]: only the energy items check the WHERE. *)
Definition construct (f : factory) (whr : str) : res unit :=
  match f with
  | F_Energy => do t <- get_type whr; Ok tt
  | _ => Ok tt
  end.

(** The dictionary [_items]: its keys in order of insertion; the item object
    made for the n-th key has number n.  Objects are never removed. *)
Definition items := list (who * str).

Definition key_eqb (a b : who * str) : bool := who_eqb (fst a) (fst b) && str_eqb (snd a) (snd b).

Fixpoint position (k : who * str) (l : items) : option nat :=
  match l with
  | [] => None
  | x :: l => if key_eqb k x then Some O else match position k l with Some n => Some (S n) | None => None end
  end.

(** client.py:55-77 get_item *)
Definition get_item (its : items) (w : who) (whr : str) : items * res nat :=
  match position (w, whr) its with
  | Some n => (its, Ok n)
  | None =>
      match item_types w with
      | Some f => match construct f whr with
                  | Ok _ => (its ++ [(w, whr)], Ok (length its))
                  | Err e => (its, Err e)
                  end
      | None => (its, Err KeyError)
      end
  end.

(** ** The event loop *)

(** client.py:123-143: one message, read without error.  The result is the
    items, the tasks started and the exception that leaves the loop. *)
Definition handle (v : N) (r : registry) (its : items) (m : msg) : items * list task * option exn :=
  match msg_type m with
  | T_ACK | T_NACK | T_GENERIC => (its, [], None)
  | _ =>
      match msg_who m, msg_where m with
      | Some w, Some whr =>
          match get_item its w whr with
          | (its', Ok n) => (its', dispatch v r subclasses n m, None)
          | (its', Err KeyError) => (its', [], None)
          | (its', Err e) => (its', [], Some e)
          end
      | _, _ => (its, [], None)
      end
  end.

Inductive status := Idle | Waiting | Returned | Failed (e : exn).

(** [st_trans]: None is [self._transport is None], Some b a transport with
    [is_closing() = b]. *)
Record state := {
  st_session : session; st_trans : option bool; st_queue : list msg; st_items : items;
  st_reg : registry; st_started : list task; st_loop : status }.

(** client.py:115-143 from the point where read_message has something to
    return: the queue is emptied without giving up control, since get() on a
    non-empty queue, asyncio.timeout(None) and call_callbacks never suspend; the
    transport is looked at after each message. *)
Fixpoint drain (v : N) (r : registry) (trans : option bool) (q : list msg) (its : items) (ts : list task)
  : list msg * items * list task * status :=
  match q with
  | [] => ([], its, ts, Waiting)
  | m :: q =>
      match handle v r its m with
      | (its', ts', Some e) => (q, its', ts ++ ts', Failed e)
      | (its', ts', None) =>
          match trans with
          | None => (q, its', ts ++ ts', Failed AttributeError)
          | Some true => (q, its', ts ++ ts', Returned)
          | Some false => drain v r trans q its' (ts ++ ts')
          end
      end
  end.

Definition drained (v : N) (s : state) : state :=
  match drain v (st_reg s) (st_trans s) (st_queue s) (st_items s) (st_started s) with
  | (q, its, ts, l) =>
      {| st_session := st_session s; st_trans := st_trans s; st_queue := q; st_items := its;
         st_reg := st_reg s; st_started := ts; st_loop := l |}
  end.

Definition with_loop (s : state) (l : status) : state :=
  {| st_session := st_session s; st_trans := st_trans s; st_queue := st_queue s; st_items := st_items s;
     st_reg := st_reg s; st_started := st_started s; st_loop := l |}.

(** client.py:105-118: the call of loop() *)
Definition enter (v : N) (s : state) : state :=
  if is_cmd_session {| cl_session := st_session s; cl_proto := true |} then with_loop s (Failed InvalidSession)
  else match st_trans s with
       | None => with_loop s (Failed InvalidSession)
       | Some true => with_loop s Returned
       | Some false => drained v s
       end.

(** What can happen while the loop waits, each one atomic: a packet arrives, the
    connection is lost, close() is called, a callback is registered, get_item is
    called, or the waiting loop is resumed because the queue is not empty. *)
Inductive act :=
| Packet (data : list N)
| Lost
| Close
| Register (k : evkey) (c : callback)
| Lookup (w : who) (whr : str)
| Wake.

Definition with_conn (s : state) (t : option bool) (q : list msg) : state :=
  {| st_session := st_session s; st_trans := t; st_queue := q; st_items := st_items s;
     st_reg := st_reg s; st_started := st_started s; st_loop := st_loop s |}.

Definition step (v : N) (s : state) (a : act) : state :=
  match a with
  | Packet data =>                 (* protocol.py:64-95; an exception closes the transport *)
      match st_trans s with
      | Some false =>
          match data_received (st_queue s) data with
          | (q, None) => with_conn s (Some false) q
          | (q, Some _) => with_conn s (Some true) q
          end
      | _ => s
      end
  | Lost => match st_trans s with Some _ => with_conn s (Some true) (st_queue s) | None => s end
  | Close => with_conn s None (st_queue s)                       (* client/base.py:243-249 *)
  | Register k c =>
      {| st_session := st_session s; st_trans := st_trans s; st_queue := st_queue s; st_items := st_items s;
         st_reg := register (st_reg s) k c; st_started := st_started s; st_loop := st_loop s |}
  | Lookup w whr =>
      {| st_session := st_session s; st_trans := st_trans s; st_queue := st_queue s;
         st_items := fst (get_item (st_items s) w whr);
         st_reg := st_reg s; st_started := st_started s; st_loop := st_loop s |}
  | Wake =>
      match st_loop s, st_queue s with
      | Waiting, _ :: _ => drained v s
      | _, _ => s
      end
  end.

Definition run (v : N) (s : state) (acts : list act) : state := fold_left (step v) acts s.

(** A connected client in an event session, nothing received yet. *)
Definition connected (r : registry) : state :=
  {| st_session := Event; st_trans := Some false; st_queue := []; st_items := []; st_reg := r;
     st_started := []; st_loop := Idle |}.
