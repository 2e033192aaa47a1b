(** * The methods of items that write to the gateway

    A list, by name, of the public methods of the item classes that write
    frames, with the kind of message each of them means to send.  Nothing about
    their bodies is used here. *)
From Coq Require Import String List NArith ZArith Bool Lia.
From Verif Require Import PyStr Tags Messages SpecMsg IO Client Items Lighting PyDate Gateway PyFloat Energy.
Import ListNotations.
Open Scope N_scope.
Open Scope list_scope.

(** The messages an item can mean: they carry its WHO and its WHERE, except
    those of the camera without WHERE. *)
Inductive addressed (it : item) : msg -> Prop :=
| A_command a : addressed it (MNormal (it_who it) a (it_where it))
| A_status : addressed it (MStatus (it_who it) (it_where it))
| A_request d : addressed it (MDimReq (it_who it) (it_where it) d)
| A_write d vs : addressed it (MDimWri (it_who it) (it_where it) d vs)
| A_camera a : addressed it (MGeneric [who_str (it_who it); a]).

(** The text handed over as a tag, for the methods that take any text or any
    integer: an integer always gives a tag that can travel. *)
Definition plain_arg (a : pyarg) : Prop := match a with AStr s => wiretag s | _ => True end.

Inductive method (it : item) : forall Y A : Type, io Y A -> mtype -> Prop :=
(* items/base.py *)
| M_normal Y what : wiretag what -> method it Y unit (send_normal_message it what) T_NORMAL
| M_status Y body : method it Y unit (send_status_request it body) T_STATUS
| M_request Y dim body : digits dim -> method it Y unit (send_dimension_request it dim body) T_DIMREQ
| M_write Y dim args : digits dim -> Forall wiretag args -> args <> [] ->
    method it Y unit (send_dimension_writing it dim args) T_DIMWRI
(* items/lighting *)
| M_light Y c : method it Y unit (run_base it c) T_NORMAL
| M_blink Y c : method it Y unit (run_blink it c) T_NORMAL
| M_level Y c : method it Y unit (run_level it c) T_NORMAL
| M_on Y v : method it Y unit (dimmer_turn_on it v) T_NORMAL
| M_off Y v : method it Y unit (dimmer_turn_off it v) T_NORMAL
| M_up Y v w : method it Y unit (up_percent it v w) T_NORMAL
| M_down Y v w : method it Y unit (down_percent it v w) T_NORMAL
| M_temporization Y h m s : method it Y unit (temporization_command it h m s) T_DIMWRI
| M_brightness Y b v : plain_arg b -> plain_arg v -> method it Y unit (set_brightness_with_speed it b v) T_DIMWRI
| M_hsv Y h s v : method it Y unit (set_hsv it h s v) T_DIMWRI
| M_white Y t : method it Y unit (set_white_temperature it t) T_DIMWRI
| M_light_status : method it _ _ (light_get_status it) T_STATUS
| M_dimmer_status : method it _ _ (dimmer_get_status it) T_STATUS
| M_temporization_request : method it _ _ (temporization_request it) T_DIMREQ
| M_working_time : method it _ _ (request_working_time_lamp it) T_DIMREQ
| M_brightness_request : method it _ _ (request_current_brightness_speed it) T_DIMREQ
| M_hsv_request : method it _ _ (request_current_hsv it) T_DIMREQ
| M_white_request : method it _ _ (request_current_white_temperature it) T_DIMREQ
(* items/automation *)
| M_auto Y c : method it Y unit (run_auto it c) T_NORMAL
| M_auto_status : method it _ _ (auto_get_status it) T_STATUS
(* items/video *)
| M_video Y : method it Y unit (receive_video it) T_NORMAL
| M_camera Y c : method it Y unit (run_cam it c) T_GENERIC
| M_dial Y x y : method it Y unit (display_dial it x y) T_GENERIC
(* items/gateway *)
| M_get_time Y : method it Y _ (get_time it) T_DIMREQ
| M_get_date Y : method it Y _ (get_date it) T_DIMREQ
| M_get_ip Y : method it Y _ (get_ip it) T_DIMREQ
| M_get_netmask Y : method it Y _ (get_netmask it) T_DIMREQ
| M_get_mac Y : method it Y _ (get_macaddress it) T_DIMREQ
| M_get_netinfo Y : method it Y _ (get_netinfo it) T_DIMREQ
| M_get_model Y : method it Y _ (get_model it) T_DIMREQ
| M_get_firmware Y : method it Y _ (get_firmware it) T_DIMREQ
| M_get_uptime Y : method it Y _ (get_uptime it) T_DIMREQ
| M_get_datetime Y : method it Y _ (get_datetime it) T_DIMREQ
| M_get_kernel Y : method it Y _ (get_kernel_version it) T_DIMREQ
| M_get_distribution Y : method it Y _ (get_distribution_version it) T_DIMREQ
| M_set_time Y h m s tz : method it Y unit (set_time it h m s tz) T_DIMWRI
| M_set_date Y dt : method it Y unit (set_date it dt) T_DIMWRI
| M_set_datetime Y dt h m s tz : method it Y unit (set_datetime it dt h m s tz) T_DIMWRI
(* items/energy, without the methods of [parameterised] *)
| M_energy Y c : method it Y unit (run_energy it c) T_NORMAL
| M_active_power Y : method it Y _ (get_active_power it) T_DIMREQ
| M_unit_totalizer Y : method it Y _ (get_energy_unit_totalizer it) T_DIMREQ
| M_partial_month Y : method it Y _ (get_partial_totalizer_current_month it) T_DIMREQ
| M_partial_day Y : method it Y _ (get_partial_totalizer_current_day it) T_DIMREQ
| M_actuators Y : method it Y _ (get_actuators_info it) T_DIMREQ
| M_differential Y : method it Y _ (get_differential_current_level it) T_DIMREQ
| M_stop_go Y d : method it Y _ (request_status it d) T_DIMREQ.

(** The methods of EnergyManagement whose dimension carries parameters. *)
Inductive parameterised (it : item) : forall Y A : Type, io Y A -> mtype -> Prop :=
| P_start Y t p : parameterised it Y unit (start_sending_instant_power it t p) T_DIMWRI
| P_stop Y p : parameterised it Y unit (stop_sending_instant_power it p) T_DIMWRI
| P_per_month Y m y n1 n2 : parameterised it Y _ (get_energy_unit_per_month it m y n1 n2) T_DIMREQ
| P_totalizers Y n : parameterised it Y _ (get_totalizers it n) T_DIMREQ.
