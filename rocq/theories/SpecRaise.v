(** * The exceptions of each method

    Of the model only the names of the methods are used. *)
From Coq Require Import String List NArith ZArith Bool Lia.
From Verif Require Import PyStr Tags Messages SpecMsg SpecTag IO Client Items Lighting PyDate SpecGateway Gateway PyFloat Energy SpecEnergy.
Import ListNotations.
Open Scope N_scope.
Open Scope list_scope.

(** The methods, without their arguments. *)
Inductive method :=
(* items/base.py *)
| Normal | Status | Dim_request | Dim_writing
(* items/lighting *)
| Light (c : base_cmd) | Blink (c : blink_cmd) | Level (c : level_cmd) | Dimmer_on | Dimmer_off | Up_percent | Down_percent
| Temporization | Brightness | Hsv | White
| Light_status | Dimmer_status | Temporization_request | Working_time | Brightness_request | Hsv_request | White_request
(* items/automation, items/camera *)
| Shutter (c : auto_cmd) | Shutter_status | Video | Camera (c : cam_cmd) | Dial
(* items/gateway *)
| Get_time | Get_date | Get_ip | Get_netmask | Get_mac | Get_netinfo | Get_model | Get_firmware | Get_uptime | Get_datetime | Get_kernel
| Get_distribution | Set_time | Set_date | Set_datetime
(* items/energy *)
| Daily | Average | This_year | Last_year | Enable | Force_on | Force_off | Reset | Auto_reset_on | Auto_reset_off
| Active_power | Unit_totalizer | Per_month | Partial_month | Partial_day | Actuators | Totalizers | Differential
| Start_power | Stop_power | Stop_go_status (d : dim_energy).

(** [runs it k Y A x]: [x] is a call of the method [k] of [it] with some
    arguments of the annotated types. *)
Inductive runs (it : item) : method -> forall Y A : Type, io Y A -> Prop :=
| R_normal what : runs it Normal Empty_set unit (send_normal_message it what)
| R_status : runs it Status msg unit (send_status_request it as_is)
| R_dim_request d : runs it Dim_request msg unit (send_dimension_request it d as_is)
| R_dim_writing d vs : Forall tagtext vs -> runs it Dim_writing Empty_set unit (send_dimension_writing it d vs)
| R_light c : runs it (Light c) Empty_set unit (run_base it c)
| R_blink c : runs it (Blink c) Empty_set unit (run_blink it c)
| R_level c : runs it (Level c) Empty_set unit (run_level it c)
| R_on v : runs it Dimmer_on Empty_set unit (dimmer_turn_on it v)
| R_off v : runs it Dimmer_off Empty_set unit (dimmer_turn_off it v)
| R_up v w : runs it Up_percent Empty_set unit (up_percent it v w)
| R_down v w : runs it Down_percent Empty_set unit (down_percent it v w)
| R_temporization h m s : runs it Temporization Empty_set unit (temporization_command it h m s)
| R_brightness b v : runs it Brightness Empty_set unit (set_brightness_with_speed it b v)
| R_hsv h s v : runs it Hsv Empty_set unit (set_hsv it h s v)
| R_white t : runs it White Empty_set unit (set_white_temperature it t)
| R_light_status : runs it Light_status _ _ (light_get_status it)
| R_dimmer_status : runs it Dimmer_status _ _ (dimmer_get_status it)
| R_temporization_request : runs it Temporization_request _ _ (temporization_request it)
| R_working_time : runs it Working_time _ _ (request_working_time_lamp it)
| R_brightness_request : runs it Brightness_request _ _ (request_current_brightness_speed it)
| R_hsv_request : runs it Hsv_request _ _ (request_current_hsv it)
| R_white_request : runs it White_request _ _ (request_current_white_temperature it)
| R_shutter c : runs it (Shutter c) Empty_set unit (run_auto it c)
| R_shutter_status : runs it Shutter_status _ _ (auto_get_status it)
| R_video : runs it Video Empty_set unit (receive_video it)
| R_camera c : runs it (Camera c) Empty_set unit (run_cam it c)
| R_dial x y : runs it Dial Empty_set unit (display_dial it x y)
| R_get_time : runs it Get_time Empty_set _ (get_time it)
| R_get_date : runs it Get_date Empty_set _ (get_date it)
| R_get_ip : runs it Get_ip Empty_set _ (get_ip it)
| R_get_netmask : runs it Get_netmask Empty_set _ (get_netmask it)
| R_get_mac : runs it Get_mac Empty_set _ (get_macaddress it)
| R_get_netinfo : runs it Get_netinfo Empty_set _ (get_netinfo it)
| R_get_model : runs it Get_model Empty_set _ (get_model it)
| R_get_firmware : runs it Get_firmware Empty_set _ (get_firmware it)
| R_get_uptime : runs it Get_uptime Empty_set _ (get_uptime it)
| R_get_datetime : runs it Get_datetime Empty_set _ (get_datetime it)
| R_get_kernel : runs it Get_kernel Empty_set _ (get_kernel_version it)
| R_get_distribution : runs it Get_distribution Empty_set _ (get_distribution_version it)
| R_set_time h m s tz : (0 <= h <= 23)%Z -> (0 <= m <= 59)%Z -> (0 <= s <= 59)%Z -> runs it Set_time Empty_set unit (set_time it h m s tz)
| R_set_date dt : calendar_date dt -> runs it Set_date Empty_set unit (set_date it dt)
| R_set_datetime dt h m s tz : calendar_date dt -> (0 <= h <= 23)%Z -> (0 <= m <= 59)%Z -> (0 <= s <= 59)%Z ->
    runs it Set_datetime Empty_set unit (set_datetime it dt h m s tz)
| R_daily d m n1 n2 : calendar_date n1 -> calendar_date n2 ->
    runs it Daily Empty_set unit (run_energy it (start_sending_daily_totalizers_hourly d m n1 n2))
| R_average m n : calendar_date n -> runs it Average Empty_set unit (run_energy it (start_sending_monthly_average_hourly m n))
| R_this_year m n : calendar_date n -> runs it This_year Empty_set unit (run_energy it (start_sending_monthly_totalizers_current_year m n))
| R_last_year m n : calendar_date n -> runs it Last_year Empty_set unit (run_energy it (start_sending_monthly_totalizers_last_year m n))
| R_enable : runs it Enable Empty_set unit (run_energy it enable_actuator)
| R_force_on t : runs it Force_on Empty_set unit (run_energy it (force_actuator_on t))
| R_force_off : runs it Force_off Empty_set unit (run_energy it force_actuator_off)
| R_reset n : runs it Reset Empty_set unit (run_energy it (reset_totalizers n))
| R_auto_reset_on : runs it Auto_reset_on Empty_set unit (run_energy it enable_automatic_reset)
| R_auto_reset_off : runs it Auto_reset_off Empty_set unit (run_energy it disable_automatic_reset)
| R_active_power : runs it Active_power Empty_set _ (get_active_power it)
| R_unit_totalizer : runs it Unit_totalizer Empty_set _ (get_energy_unit_totalizer it)
| R_per_month m y n1 n2 : calendar_date n1 -> calendar_date n2 -> runs it Per_month Empty_set _ (get_energy_unit_per_month it m y n1 n2)
| R_partial_month : runs it Partial_month Empty_set _ (get_partial_totalizer_current_month it)
| R_partial_day : runs it Partial_day Empty_set _ (get_partial_totalizer_current_day it)
| R_actuators : runs it Actuators Empty_set _ (get_actuators_info it)
| R_totalizers n : runs it Totalizers Empty_set _ (get_totalizers it n)
| R_differential : runs it Differential Empty_set _ (get_differential_current_level it)
| R_start_power t p : runs it Start_power Empty_set unit (start_sending_instant_power it t p)
| R_stop_power p : runs it Stop_power Empty_set unit (stop_sending_instant_power it p)
| R_stop_go d : runs it (Stop_go_status d) Empty_set _ (request_status it d).

(** Every method that talks to the gateway. *)
Definition common : list exn := [InvalidSession; TimeoutError; ResponseError].

Definition raises (k : method) : list exn :=
  common ++
  match k with
  | Light _ | Blink _ | Level _ | Shutter _ | Video | Camera _ | Set_date | Enable | Force_off | Auto_reset_on | Auto_reset_off
  | Status | Light_status => []
  | Normal | Dim_request | Dim_writing => [InvalidTag]
  | Dimmer_on | Dimmer_off | Up_percent | Down_percent | Hsv | White | Dial | Set_time | Set_datetime => [ValueError]
  | Temporization | Brightness | Daily | Average | This_year | Last_year | Force_on | Reset | Start_power | Stop_power => [ValueError; InvalidTag]
  | Dimmer_status | Shutter_status | Get_ip | Get_netmask | Get_mac | Get_netinfo => [ValueError]
  | Get_model | Get_firmware | Get_kernel | Get_distribution => [IndexError]
  | Temporization_request | Working_time | Brightness_request | Hsv_request | White_request
  | Active_power | Unit_totalizer | Partial_month | Partial_day | Actuators | Differential => [IndexError; ValueError]
  | Get_time | Get_date => [ValueError; OverflowError]
  | Get_uptime | Get_datetime => [IndexError; ValueError; OverflowError]
  | Per_month => [InvalidTag; IndexError; ValueError]
  | Totalizers => [InvalidTag; IndexError; ValueError; OverflowError]
  | Stop_go_status _ => [IndexError; ValueError; InvalidMessage]
  end.

(** The sections "Raises" of the docstrings: gateway.py:168, 391,
    energy.py:75-349, stop_go.py:59, items/base.py:206-278. *)
Definition documented (k : method) : option (list exn) :=
  match k with
  | Normal | Status | Dim_request | Dim_writing => Some [ResponseError]
  | Set_time | Set_datetime => Some [ValueError]
  | Daily | Average | This_year | Last_year | Enable | Force_on | Force_off | Reset | Start_power | Stop_power
  | Active_power | Unit_totalizer | Per_month | Partial_month | Partial_day | Actuators | Totalizers | Differential => Some [ResponseError]
  | Stop_go_status _ => Some [InvalidMessage]
  | _ => None
  end.

(** exceptions.py: the subclasses of OWNException, "useful for catching all
    exceptions in the package". *)
Definition own : list exn := [InvalidMessage; InvalidTag; InvalidSession; InvalidAuthentication; ResponseError].

(** A message that can arrive: some text is parsed into it. *)
Definition heard (m : msg) : Prop := exists text, parse_message text = Ok m.
Definition arrives (o : option msg) : Prop := match o with Some m => heard m | None => True end.
