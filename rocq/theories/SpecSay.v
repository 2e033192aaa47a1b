(** * What an item can say

    The frames that the methods of the item classes can write, and the frames
    that docs/original/who1.md, who2.md, who7.md, who13.md and who18.md tell a
    client to send.  Of the model only the names of the methods are used. *)
From Coq Require Import String List NArith ZArith Bool Lia.
From Verif Require Import PyStr Tags SpecMsg SpecTag IO Client Items Lighting PyDate SpecGateway Gateway PyFloat Energy SpecEnergy.
Import ListNotations.
Open Scope N_scope.
Open Scope list_scope.

(** The methods of the classes of each system that write frames, with any
    arguments Python accepts: the fields of a time are in range and a date is a
    date.  Left out are the four methods of items/base.py, which take any WHAT
    or dimension. *)
Inductive named (it : item) : who -> forall Y A : Type, io Y A -> Prop :=
(* items/lighting *)
| N_light Y c : named it LIGHTING Y unit (run_base it c)
| N_blink Y c : named it LIGHTING Y unit (run_blink it c)
| N_level Y c : named it LIGHTING Y unit (run_level it c)
| N_on Y v : named it LIGHTING Y unit (dimmer_turn_on it v)
| N_off Y v : named it LIGHTING Y unit (dimmer_turn_off it v)
| N_up Y v w : named it LIGHTING Y unit (up_percent it v w)
| N_down Y v w : named it LIGHTING Y unit (down_percent it v w)
| N_temporization Y h m s : named it LIGHTING Y unit (temporization_command it h m s)
| N_brightness Y b v : named it LIGHTING Y unit (set_brightness_with_speed it b v)
| N_hsv Y h s v : named it LIGHTING Y unit (set_hsv it h s v)
| N_white Y t : named it LIGHTING Y unit (set_white_temperature it t)
| N_light_status : named it LIGHTING _ _ (light_get_status it)
| N_dimmer_status : named it LIGHTING _ _ (dimmer_get_status it)
| N_temporization_request : named it LIGHTING _ _ (temporization_request it)
| N_working_time : named it LIGHTING _ _ (request_working_time_lamp it)
| N_brightness_request : named it LIGHTING _ _ (request_current_brightness_speed it)
| N_hsv_request : named it LIGHTING _ _ (request_current_hsv it)
| N_white_request : named it LIGHTING _ _ (request_current_white_temperature it)
(* items/automation *)
| N_auto Y c : named it AUTOMATION Y unit (run_auto it c)
| N_auto_status : named it AUTOMATION _ _ (auto_get_status it)
(* items/camera *)
| N_video Y : named it VIDEO_DOOR_ENTRY Y unit (receive_video it)
| N_camera Y c : named it VIDEO_DOOR_ENTRY Y unit (run_cam it c)
| N_dial Y x y : named it VIDEO_DOOR_ENTRY Y unit (display_dial it x y)
(* items/gateway *)
| N_get_time Y : named it GATEWAY Y _ (get_time it)
| N_get_date Y : named it GATEWAY Y _ (get_date it)
| N_get_ip Y : named it GATEWAY Y _ (get_ip it)
| N_get_netmask Y : named it GATEWAY Y _ (get_netmask it)
| N_get_mac Y : named it GATEWAY Y _ (get_macaddress it)
| N_get_netinfo Y : named it GATEWAY Y _ (get_netinfo it)
| N_get_model Y : named it GATEWAY Y _ (get_model it)
| N_get_firmware Y : named it GATEWAY Y _ (get_firmware it)
| N_get_uptime Y : named it GATEWAY Y _ (get_uptime it)
| N_get_datetime Y : named it GATEWAY Y _ (get_datetime it)
| N_get_kernel Y : named it GATEWAY Y _ (get_kernel_version it)
| N_get_distribution Y : named it GATEWAY Y _ (get_distribution_version it)
| N_set_time Y h m s tz : (0 <= h <= 23)%Z -> (0 <= m <= 59)%Z -> (0 <= s <= 59)%Z ->
    named it GATEWAY Y unit (set_time it h m s tz)
| N_set_date Y dt : calendar_date dt -> named it GATEWAY Y unit (set_date it dt)
| N_set_datetime Y dt h m s tz : calendar_date dt -> (0 <= h <= 23)%Z -> (0 <= m <= 59)%Z -> (0 <= s <= 59)%Z ->
    named it GATEWAY Y unit (set_datetime it dt h m s tz)
(* items/energy *)
| N_energy Y c : named it ENERGY_MANAGEMENT Y unit (run_energy it c)
| N_active_power Y : named it ENERGY_MANAGEMENT Y _ (get_active_power it)
| N_unit_totalizer Y : named it ENERGY_MANAGEMENT Y _ (get_energy_unit_totalizer it)
| N_partial_month Y : named it ENERGY_MANAGEMENT Y _ (get_partial_totalizer_current_month it)
| N_partial_day Y : named it ENERGY_MANAGEMENT Y _ (get_partial_totalizer_current_day it)
| N_actuators Y : named it ENERGY_MANAGEMENT Y _ (get_actuators_info it)
| N_differential Y : named it ENERGY_MANAGEMENT Y _ (get_differential_current_level it)
| N_stop_go Y d : named it ENERGY_MANAGEMENT Y _ (request_status it d)
| N_start Y t p : named it ENERGY_MANAGEMENT Y unit (start_sending_instant_power it t p)
| N_stop Y p : named it ENERGY_MANAGEMENT Y unit (stop_sending_instant_power it p)
| N_per_month Y m y n1 n2 : named it ENERGY_MANAGEMENT Y _ (get_energy_unit_per_month it m y n1 n2)
| N_totalizers Y n : named it ENERGY_MANAGEMENT Y _ (get_totalizers it n).

(** WHAT values of lights and of cameras, dimensions of the gateway and of
    energy items. *)
Definition light_whats : list N :=
  [0; 1; 2; 3; 4; 5; 6; 7; 8; 9; 10; 11; 12; 13; 14; 15; 16; 17; 18; 20; 21; 22; 23; 24; 25; 26; 27; 28; 29; 30; 31].
Definition camera_whats : list N := [120; 121; 130; 131; 140; 141; 150; 151; 160; 161; 170; 171; 180; 181].
Definition gateway_dims : list N := [0; 1; 10; 11; 12; 15; 16; 19; 22; 23; 24].
Definition meter_dims : list N :=
  [113; 51; 53; 54; 71; 73; 250; 251; 252; 253; 254; 255; 256; 257; 258; 259; 260; 261; 262; 263].
Definition bare_dims : list N := [52; 72; 1200; 511; 512; 513; 514].

(** The zone that is sent: a sign and three digits for hours below 24. *)
Inductive zone4 : str -> Prop :=
| Zone4 c s h : c = 48 \/ c = 49 -> fixed 3 s h -> (h < 24)%Z -> zone4 (c :: s).

Definition clock (h m s : str) : Prop :=
  exists nh nm ns, fixed 2 h nh /\ fixed 2 m nm /\ fixed 2 s ns /\ (nh <= 23 /\ nm <= 59 /\ ns <= 59)%Z.

(** The fields of a date: day of the week, day, month, year. *)
Definition day_fields (w d m y : str) : Prop :=
  exists nw nd nm ny, calendar_date (ny, nm, nd) /\ falls_on (ny, nm, nd) nw /\
    fixed 2 w nw /\ fixed 2 d nd /\ fixed 2 m nm /\ numeral (Z.to_N ny) y.

(** [says w whr tags]: an item of the system [w] at [whr] has a method that
    writes the frame of [tags]. *)
Inductive says : who -> str -> list str -> Prop :=
| S_light whr n : In n light_whats -> says LIGHTING whr [lit "1"; dec n; whr]
| S_light_status whr : says LIGHTING whr [lit "#1"; whr]
| S_light_ask whr d : In d [1; 2; 3; 12; 14] -> says LIGHTING whr [lit "#1"; whr; dec d]
| S_brightness whr b v : tagtext b -> tagtext v -> says LIGHTING whr [lit "#1"; whr; lit "#1"; b; v]
| S_timer whr h m s : h < 24 -> m < 60 -> s < 60 -> says LIGHTING whr [lit "#1"; whr; lit "#2"; dec h; dec m; dec s]
| S_hsv whr h s v : h < 360 -> s <= 100 -> v <= 100 -> says LIGHTING whr [lit "#1"; whr; lit "#12"; dec h; dec s; dec v]
| S_white whr t : 1 <= t <= 65534 -> says LIGHTING whr [lit "#1"; whr; lit "#13"; dec t]
| S_shutter whr n : n <= 2 -> says AUTOMATION whr [lit "2"; dec n; whr]
| S_shutter_status whr : says AUTOMATION whr [lit "#2"; whr]
| S_video whr : says VIDEO_DOOR_ENTRY whr [lit "7"; lit "0"; whr]
| S_camera whr n : n = 9 \/ In n camera_whats -> says VIDEO_DOOR_ENTRY whr [lit "7"; dec n]
| S_dial whr x y : 1 <= x <= 4 -> 1 <= y <= 4 -> says VIDEO_DOOR_ENTRY whr [lit "7"; dec (300 + 10 * x + y)]
| S_gateway_ask whr d : In d gateway_dims -> says GATEWAY whr [lit "#13"; whr; dec d]
| S_set_time whr h m s z : clock h m s -> zone4 z -> says GATEWAY whr [lit "#13"; whr; lit "#0"; h; m; s; z]
| S_set_date whr w d m y : day_fields w d m y -> says GATEWAY whr [lit "#13"; whr; lit "#1"; w; d; m; y]
| S_set_datetime whr h n s z w d m y : clock h n s -> zone4 z -> day_fields w d m y ->
    says GATEWAY whr [lit "#13"; whr; lit "#22"; h; n; s; z; d; m; y]
| S_meter whr n : In n [26; 27; 71; 73; 74] -> says ENERGY_MANAGEMENT whr [lit "18"; dec n; whr]
| S_meter_number whr n x t : In n [58; 59; 510; 73; 75] -> shown x t -> says ENERGY_MANAGEMENT whr [lit "18"; dec n ++ lit "#" ++ t; whr]
| S_daily whr x y a b : shown x a -> shown y b -> says ENERGY_MANAGEMENT whr [lit "18"; lit "57#" ++ a ++ lit "#" ++ b; whr]
| S_power whr x y t p : shown x t -> shown y p -> says ENERGY_MANAGEMENT whr [lit "#18"; whr; lit "#1200#" ++ p; t]
| S_meter_ask whr d : In d (meter_dims ++ bare_dims) -> says ENERGY_MANAGEMENT whr [lit "#18"; whr; dec d]
| S_per_month whr x y a b : shown x a -> shown y b -> says ENERGY_MANAGEMENT whr [lit "#18"; whr; lit "52#" ++ a ++ lit "#" ++ b]
| S_totalizers whr x n : shown x n -> says ENERGY_MANAGEMENT whr [lit "#18"; whr; lit "72#" ++ n].

(** ** The commands of the documentation

    [command w whr can tags]: the frame of [tags] is one a client may send to an
    item of [w] at [whr], and [can] is true when some method writes it.  The
    documentation leaves out a star before the dimensions 1, 12 and 14 of who1
    and puts one too many in the advanced stop of who2; they are put right.
    For the writings of who13 both the text there, which has no '#', and the
    form with '#' of all other writings are listed. *)
Inductive command : who -> str -> bool -> list str -> Prop :=
(* who1.md *)
| D_light whr n : In n light_whats -> command LIGHTING whr true [lit "1"; dec n; whr]                 (* 101-263, 315-487 *)
| D_translation whr n : In n light_whats -> command LIGHTING whr false [lit "1"; lit "1000#" ++ dec n; whr]  (* 271 *)
| D_speed whr n v : n <= 1 -> v <= 255 -> command LIGHTING whr false [lit "1"; dec n ++ lit "#" ++ dec v; whr] (* 297, 305 *)
| D_step whr n l v : n = 30 \/ n = 31 -> 2 <= l <= 10 -> v <= 255 ->
    command LIGHTING whr false [lit "1"; dec n ++ lit "#" ++ dec l ++ lit "#" ++ dec v; whr]          (* 479, 495 *)
| D_light_status whr : command LIGHTING whr true [lit "#1"; whr]                                      (* 505 *)
| D_brightness whr l v : 100 <= l <= 200 -> v <= 255 -> command LIGHTING whr true [lit "#1"; whr; lit "#1"; dec l; dec v] (* 525 *)
| D_timer whr h m s can : h <= 255 -> m <= 59 -> s <= 59 -> (can = true <-> h < 24) ->
    command LIGHTING whr can [lit "#1"; whr; lit "#2"; dec h; dec m; dec s]                     (* 533 *)
| D_lifetime whr t : 1 <= t <= 100000 -> command LIGHTING whr false [lit "#1"; whr; lit "#9"; dec t]  (* 542 *)
| D_hsv whr h s v : h <= 359 -> s <= 100 -> v <= 100 -> command LIGHTING whr true [lit "#1"; whr; lit "#12"; dec h; dec s; dec v] (* 550 *)
| D_white whr t : 1 <= t <= 65534 -> command LIGHTING whr false [lit "#1"; whr; lit "#14"; dec t]     (* 558 *)
| D_light_ask whr d : In d [1; 2; 3; 12; 14] -> command LIGHTING whr true [lit "#1"; whr; dec d]      (* 568-584, 611, 619 *)
| D_light_hours whr d : d = 8 \/ d = 9 -> command LIGHTING whr false [lit "#1"; whr; dec d]           (* 593, 602 *)
(* who2.md *)
| D_shutter whr n : n <= 2 -> command AUTOMATION whr true [lit "2"; dec n; whr]                       (* 59-77 *)
| D_advanced_stop whr p : digits p -> command AUTOMATION whr false [lit "2"; lit "10#" ++ p; whr]     (* 125 *)
| D_advanced whr n s p : n = 11 \/ n = 12 -> digits s -> digits p ->
    command AUTOMATION whr false [lit "2"; dec n ++ lit "#" ++ s ++ lit "#" ++ p; whr]                (* 136, 149 *)
| D_shutter_status whr : command AUTOMATION whr true [lit "#2"; whr]                                  (* 164 *)
| D_shutter_ask whr : command AUTOMATION whr false [lit "#2"; whr; lit "10"]                          (* 185 *)
| D_goto whr p l : digits p -> l <= 100 -> command AUTOMATION whr false [lit "#2"; whr; lit "#11#" ++ p; dec l] (* 197 *)
(* who7.md *)
| D_video whr : command VIDEO_DOOR_ENTRY whr true [lit "7"; lit "0"; whr]                             (* 71 *)
| D_free whr : command VIDEO_DOOR_ENTRY whr false [lit "7"; lit "9"; []]                              (* 79 *)
| D_camera whr n : In n camera_whats -> command VIDEO_DOOR_ENTRY whr true [lit "7"; dec n]            (* 87-191 *)
| D_dial whr x y : 1 <= x <= 4 -> 1 <= y <= 4 -> command VIDEO_DOOR_ENTRY whr true [lit "7"; dec (300 + 10 * x + y)] (* 199 *)
(* who13.md *)
| D_gateway_ask d : In d gateway_dims -> command GATEWAY [] true [lit "#13"; []; dec d]               (* 35-214 *)
| D_set_time mark h m s z k : mark = [] \/ mark = lit "#" -> clock h m s -> zone z k ->
    command GATEWAY [] false [lit "#13"; []; mark ++ lit "0"; h; m; s; z]                             (* 233 *)
| D_set_date w d m y : day_fields w d m y -> command GATEWAY [] true [lit "#13"; []; lit "#1"; w; d; m; y]
| D_set_date_bare w d m y : day_fields w d m y -> command GATEWAY [] false [lit "#13"; []; lit "1"; w; d; m; y] (* 244 *)
| D_set_datetime mark h n s z k w d m y : mark = [] \/ mark = lit "#" -> clock h n s -> zone z k -> day_fields w d m y ->
    command GATEWAY [] false [lit "#13"; []; mark ++ lit "22"; h; n; s; z; w; d; m; y]                (* 255 *)
(* who18.md *)
| D_meter whr n : In n [26; 27; 71; 73; 74] -> command ENERGY_MANAGEMENT whr true [lit "18"; dec n; whr] (* 82, 89, 185-208 *)
| D_daily whr m d : 1 <= m <= 12 -> 1 <= d <= 31 ->
    command ENERGY_MANAGEMENT whr true [lit "18"; lit "57#" ++ dec m ++ lit "#" ++ dec d; whr]        (* 98 *)
| D_monthly whr n m : In n [58; 59; 510] -> 1 <= m <= 12 ->
    command ENERGY_MANAGEMENT whr true [lit "18"; dec n ++ lit "#" ++ dec m; whr]                     (* 122-163 *)
| D_force whr t : 1 <= t <= 254 -> command ENERGY_MANAGEMENT whr true [lit "18"; lit "73#" ++ dec t; whr] (* 192 *)
| D_reset whr n : 1 <= n <= 2 -> command ENERGY_MANAGEMENT whr true [lit "18"; lit "75#" ++ dec n; whr] (* 215 *)
| D_meter_ask whr d : In d meter_dims -> command ENERGY_MANAGEMENT whr true [lit "#18"; whr; dec d]   (* 226, 277, 320-415 *)
| D_power whr t : t <= 255 -> command ENERGY_MANAGEMENT whr true [lit "#18"; whr; lit "#1200#1"; dec t] (* 291, 311 *)
| D_per_month whr y ny m can : fixed 2 y ny -> 1 <= m <= 12 -> (can = true <-> (10 <= ny)%Z) ->
    command ENERGY_MANAGEMENT whr can [lit "#18"; whr; lit "52#" ++ y ++ lit "#" ++ dec m]  (* 338 *)
| D_totalizers whr n : 1 <= n <= 2 -> command ENERGY_MANAGEMENT whr true [lit "#18"; whr; lit "72#" ++ dec n]. (* 397 *)

(** Frames that methods write and the documentation does not have. *)
Inductive unlisted : who -> str -> list str -> Prop :=
| U_white whr t : 1 <= t <= 65534 -> unlisted LIGHTING whr [lit "#1"; whr; lit "#13"; dec t]
| U_free whr : unlisted VIDEO_DOOR_ENTRY whr [lit "7"; lit "9"]
| U_set_time h m s z : clock h m s -> zone4 z -> unlisted GATEWAY [] [lit "#13"; []; lit "#0"; h; m; s; z]
| U_set_datetime h n s z w d m y : clock h n s -> zone4 z -> day_fields w d m y ->
    unlisted GATEWAY [] [lit "#13"; []; lit "#22"; h; n; s; z; d; m; y]
| U_bare whr d : In d bare_dims -> unlisted ENERGY_MANAGEMENT whr [lit "#18"; whr; dec d].
