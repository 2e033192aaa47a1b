(** * Lights, automations and cameras: pyown/items/lighting/*.py,
    pyown/items/automation/automation.py, pyown/items/camera/camera.py *)
From Coq Require Import String List NArith ZArith Bool Lia.
From Verif Require Import PyStr Tags Messages IO Client Items.
Import ListNotations.
Open Scope N_scope.
Open Scope list_scope.

(** ** WHAT enums *)

(** lighting/base.py:76-114 WhatLight, the values of the members. *)
Definition what_light_values : list str :=
  map lit ["0"; "1"; "2"; "3"; "4"; "5"; "6"; "7"; "8"; "9"; "10"; "11"; "12"; "13"; "14"; "15"; "16"; "17"; "18";
           "20"; "21"; "22"; "23"; "24"; "25"; "26"; "27"; "28"; "29"; "30"; "31"; "1000"]%string.
(** automation/automation.py:34-45 WhatAutomation *)
Definition what_automation_values : list str := map lit ["0"; "1"; "2"]%string.
(** camera/camera.py:69-100 WhatCamera *)
Definition what_camera_values : list str :=
  map lit ["0"; "9"; "120"; "121"; "130"; "131"; "140"; "141"; "150"; "151"; "160"; "161"; "170"; "171"; "180"; "181";
           "311"; "312"; "313"; "314"; "321"; "322"; "323"; "324"; "331"; "332"; "333"; "334"; "341"; "342"; "343"; "344"]%string.

(** [WhatX(s)]: enum lookup by value; a member is represented by its value. *)
Definition enum_of (values : list str) (s : str) : res str :=
  if str_in s values then Ok s else Err ValueError.

(** [member.with_parameter(p)] (tags/base.py:110-112) on an enum member:
    [self.__class__] is the enum, so this is a lookup. *)
Definition enum_with_parameter (values : list str) (s : str) (p : Z) : res str :=
  do t <- py_str_int p;
  enum_of values (s ++ [c_hash] ++ t).

(** ** Commands without arguments *)

(** lighting/base.py:124-162 and light.py:14-20 (the same two again) *)
Inductive base_cmd :=
| turn_on | turn_off | turn_on_1_min | turn_on_2_min | turn_on_3_min | turn_on_4_min | turn_on_5_min
| turn_on_15_min | turn_on_30_min | turn_on_0_5_sec.
Definition base_what (c : base_cmd) : str :=
  lit match c with
  | turn_on => "1"            (* WhatLight.ON *)
  | turn_off => "0"           (* WhatLight.OFF *)
  | turn_on_1_min => "11"     (* WhatLight.ON_1_MIN *)
  | turn_on_2_min => "12"     (* WhatLight.ON_2_MIN *)
  | turn_on_3_min => "13"     (* WhatLight.ON_3_MIN *)
  | turn_on_4_min => "14"     (* WhatLight.ON_4_MIN *)
  | turn_on_5_min => "15"     (* WhatLight.ON_5_MIN *)
  | turn_on_15_min => "16"    (* WhatLight.ON_15_MIN *)
  | turn_on_30_min => "17"    (* WhatLight.ON_30_MIN *)
  | turn_on_0_5_sec => "18"   (* WhatLight.ON_0_5_SEC *)
  end%string.
Definition run_base {Y} (it : item) (c : base_cmd) : io Y unit := send_normal_message it (base_what c).

(** light.py:22-60 *)
Inductive blink_cmd :=
| blink_0_5_sec | blink_1_0_sec | blink_1_5_sec | blink_2_0_sec | blink_2_5_sec
| blink_3_0_sec | blink_3_5_sec | blink_4_0_sec | blink_4_5_sec | blink_5_0_sec.
Definition blink_what (c : blink_cmd) : str :=
  lit match c with
  | blink_0_5_sec => "20" | blink_1_0_sec => "21" | blink_1_5_sec => "22" | blink_2_0_sec => "23" | blink_2_5_sec => "24"
  | blink_3_0_sec => "25" | blink_3_5_sec => "26" | blink_4_0_sec => "27" | blink_4_5_sec => "28" | blink_5_0_sec => "29"
  end%string.
Definition run_blink {Y} (it : item) (c : blink_cmd) : io Y unit := send_normal_message it (blink_what c).

(** dimmer.py:45-79 *)
Inductive level_cmd :=
| set_20_percent | set_30_percent | set_40_percent | set_50_percent | set_60_percent
| set_70_percent | set_80_percent | set_90_percent | set_100_percent.
Definition level_what (c : level_cmd) : str :=
  lit match c with
  | set_20_percent => "2" | set_30_percent => "3" | set_40_percent => "4" | set_50_percent => "5" | set_60_percent => "6"
  | set_70_percent => "7" | set_80_percent => "8" | set_90_percent => "9" | set_100_percent => "10"
  end%string.
Definition run_level {Y} (it : item) (c : level_cmd) : io Y unit := send_normal_message it (level_what c).

(** automation.py:55-65 *)
Inductive auto_cmd := stop | up | down.
Definition auto_what (c : auto_cmd) : str :=
  lit match c with stop => "0" | up => "1" | down => "2" end%string.
Definition run_auto {Y} (it : item) (c : auto_cmd) : io Y unit := send_normal_message it (auto_what c).

(** camera.py:139-145 receive_video *)
Definition receive_video {Y} (it : item) : io Y unit := send_normal_message it (lit "0").

(** camera.py:147-159 _send_command_without_where: the constructor of
    GenericMessage stores the given list (messages/base.py:157-158). *)
Definition send_command_without_where {Y} (it : item) (what : str) : io Y unit :=
  let* _ := item_send it (MGeneric [who_str (it_who it); what]) in
  let* resp := item_read it in
  check_ack resp.

(** camera.py:161-223 *)
Inductive cam_cmd :=
| free_resources | zoom_in | zoom_out | increase_x | decrease_x | increase_y | decrease_y
| increase_luminosity | decrease_luminosity | increase_contrast | decrease_contrast
| increase_color | decrease_color | increase_quality | decrease_quality.
Definition cam_what (c : cam_cmd) : str :=
  lit match c with
  | free_resources => "9" | zoom_in => "120" | zoom_out => "121"
  | increase_x => "130" | decrease_x => "131" | increase_y => "140" | decrease_y => "141"
  | increase_luminosity => "150" | decrease_luminosity => "151"
  | increase_contrast => "160" | decrease_contrast => "161"
  | increase_color => "170" | decrease_color => "171"
  | increase_quality => "180" | decrease_quality => "181"
  end%string.
Definition run_cam {Y} (it : item) (c : cam_cmd) : io Y unit := send_command_without_where it (cam_what c).

(** ** Commands with arguments *)

Open Scope Z_scope.

(** camera.py:103-120 dial_map, by rows *)
Definition dial_map : list ((Z * Z) * str) :=
  map (fun p => (fst p, lit (snd p)))
  [ ((1, 1), "311"); ((1, 2), "312"); ((1, 3), "313"); ((1, 4), "314");
    ((2, 1), "321"); ((2, 2), "322"); ((2, 3), "323"); ((2, 4), "324");
    ((3, 1), "331"); ((3, 2), "332"); ((3, 3), "333"); ((3, 4), "334");
    ((4, 1), "341"); ((4, 2), "342"); ((4, 3), "343"); ((4, 4), "344") ]%string.
Definition dial_get (x y : Z) : res str :=
  match find (fun p => (fst (fst p) =? x) && (snd (fst p) =? y))%Z dial_map with
  | Some p => Ok (snd p)
  | None => Err KeyError
  end.

(** camera.py:225-238 display_dial *)
Definition display_dial {Y} (it : item) (x y : Z) : io Y unit :=
  if negb ((1 <=? x) && (x <? 5)) || negb ((1 <=? y) && (y <? 5)) then raise ValueError
  else let* w := lift (dial_get x y) in send_command_without_where it w.

(** [Value(n)] for an int *)
Definition value_int (z : Z) : res str := tag_make (AInt z).

(** lighting/base.py:169-182 temporization_command; the arguments of the call
    are evaluated from left to right before it. *)
Definition temporization_command {Y} (it : item) (hour minute second : Z) : io Y unit :=
  if (24 <=? hour) || (60 <=? minute) || (60 <=? second) then raise ValueError
  else
    let* h := lift (value_int hour) in
    let* m := lift (value_int minute) in
    let* s := lift (value_int second) in
    send_dimension_writing it (lit "2") [h; m; s].

(** dimmer.py:14-43 turn_on and turn_off *)
Definition dimmer_speed {Y} (it : item) (what : str) (speed : option Z) : io Y unit :=
  match speed with
  | Some v =>
      if (v <? 0) || (255 <? v) then raise ValueError
      else let* w := lift (enum_with_parameter what_light_values what v) in send_normal_message it w
  | None => send_normal_message it what
  end.
Definition dimmer_turn_on {Y} it speed : io Y unit := dimmer_speed it (lit "1") speed.
Definition dimmer_turn_off {Y} it speed : io Y unit := dimmer_speed it (lit "0") speed.

(** dimmer.py:81-117 up_percent and down_percent; the class of the tag after
    the first with_parameter is the enum again. *)
Definition dimmer_step {Y} (it : item) (what : str) (value speed : option Z) : io Y unit :=
  if match value with Some v => (v <? 0) || (100 <? v) | None => false end then raise ValueError
  else
    let* w1 := lift (match value with Some v => enum_with_parameter what_light_values what v | None => Ok what end) in
    let* w2 := lift (match speed with Some v => enum_with_parameter what_light_values w1 v | None => Ok w1 end) in
    send_normal_message it w2.
Definition up_percent {Y} it value speed : io Y unit := dimmer_step it (lit "30") value speed.
Definition down_percent {Y} it value speed : io Y unit := dimmer_step it (lit "31") value speed.

(** dimmer.py:129-136 set_brightness_with_speed *)
Definition set_brightness_with_speed {Y} (it : item) (brightness speed : pyarg) : io Y unit :=
  let* b := lift (tag_make brightness) in
  let* s := lift (tag_make speed) in
  send_dimension_writing it (lit "1") [b; s].

(** dimmer.py:138-155 set_hsv *)
Definition set_hsv {Y} (it : item) (hue saturation value : Z) : io Y unit :=
  if (hue <? 0) || (359 <? hue) then raise ValueError
  else if (saturation <? 0) || (100 <? saturation) then raise ValueError
  else if (value <? 0) || (100 <? value) then raise ValueError
  else
    let* h := lift (value_int hue) in
    let* s := lift (value_int saturation) in
    let* v := lift (value_int value) in
    send_dimension_writing it (lit "12") [h; s; v].

(** dimmer.py:157-166 set_white_temperature *)
Definition set_white_temperature {Y} (it : item) (temperature : Z) : io Y unit :=
  if (temperature <? 1) || (65534 <? temperature) then raise ValueError
  else let* t := lift (value_int temperature) in send_dimension_writing it (lit "13") [t].

(** ** Requests *)

(** light.py:62-72 Light.get_status *)
Definition light_status_body (m : msg) : res (list (str * bool)) :=
  do what <- get_what m;
  do whr <- get_where m;
  if str_eqb what (lit "1") then Ok [(whr, true)]
  else if str_eqb what (lit "0") then Ok [(whr, false)]
  else Ok [].
Definition light_get_status (it : item) : io (str * bool) unit := send_status_request it light_status_body.

(** dimmer.py:119-127 Dimmer.get_status *)
Definition dimmer_status_body (m : msg) : res (list (str * Z)) :=
  do whr <- get_where m;
  do what <- get_what m;
  do n <- py_int (twp_tag what);
  Ok [(whr, n * 10)].
Definition dimmer_get_status (it : item) : io (str * Z) unit := send_status_request it dimmer_status_body.

(** automation.py:67-77 get_status *)
Definition auto_status_body (m : msg) : res (list (str * str)) :=
  do whr <- get_where m;
  do what <- get_what m;
  do w <- enum_of what_automation_values what;
  Ok [(whr, w)].
Definition auto_get_status (it : item) : io (str * str) unit := send_status_request it auto_status_body.

(** The requests that decode the first [n] values as integers:
    [int(message.values[i].tag)] for i = 0 .. n-1. *)
Definition ints_body (n : nat) (m : msg) : res (list (str * list Z)) :=
  do vs <- get_values m;
  do zs <- mapM (int_value vs) (seq 0 n);
  do whr <- get_where m;
  Ok [(whr, zs)].
(** lighting/base.py:184-194 temporization_request *)
Definition temporization_request (it : item) : io (str * list Z) unit := send_dimension_request it (lit "2") (ints_body 3).
(** lighting/base.py:196-204 request_working_time_lamp *)
Definition request_working_time_lamp (it : item) : io (str * list Z) unit := send_dimension_request it (lit "3") (ints_body 1).
(** dimmer.py:168-181 request_current_brightness_speed *)
Definition request_current_brightness_speed (it : item) : io (str * list Z) unit := send_dimension_request it (lit "1") (ints_body 2).
(** dimmer.py:183-196 request_current_hsv *)
Definition request_current_hsv (it : item) : io (str * list Z) unit := send_dimension_request it (lit "12") (ints_body 3).
(** dimmer.py:198-208 request_current_white_temperature *)
Definition request_current_white_temperature (it : item) : io (str * list Z) unit := send_dimension_request it (lit "14") (ints_body 1).
