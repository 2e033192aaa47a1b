(** * Energy items: pyown/items/energy/energy.py, stop_go.py, enums.py *)
From Coq Require Import String List NArith ZArith Bool Lia.
From Verif Require Import PyStr PyDate PyFloat Tags Messages IO Client Items.
Import ListNotations.
Open Scope N_scope.
Open Scope list_scope.

(** ** Enums *)

(** enums.py:97-106 WhatEnergy *)
Inductive what_energy :=
| AUTO_RESET_ON | AUTO_RESET_OFF | SEND_DAILY_REPORT | SEND_MONTHLY_REPORT | SEND_YEARLY_REPORT
| SEND_LAST_YEAR_REPORT | ENABLE_ACTUATOR | FORCE_ACTUATOR_ON | FORCE_ACTUATOR_OFF | RESET_REPORT.
Definition we_str (w : what_energy) : str :=
  lit match w with
  | AUTO_RESET_ON => "26" | AUTO_RESET_OFF => "27" | SEND_DAILY_REPORT => "57" | SEND_MONTHLY_REPORT => "58"
  | SEND_YEARLY_REPORT => "59" | SEND_LAST_YEAR_REPORT => "510" | ENABLE_ACTUATOR => "71" | FORCE_ACTUATOR_ON => "73"
  | FORCE_ACTUATOR_OFF => "74" | RESET_REPORT => "75"
  end%string.

(** enums.py:45-71 DimensionEnergy; [STATUS_STOP_GO i] are the members 251
    (i = 0) to 263 (i = 12), in the order of the source. *)
Inductive dim_energy :=
| ACTIVE_POWER | END_AUTOMATIC_UPDATE_SIZE | ENERGY_UNIT_TOTALIZER | ENERGY_UNIT_PER_MONTH
| PARTIAL_TOTALIZER_CURRENT_MONTH | PARTIAL_TOTALIZER_CURRENT_DAY | ACTUATORS_INFO | TOTALIZERS
| DIFFERENTIAL_CURRENT_LEVEL | STATUS_STOP_GO_GENERAL
| SG_OPEN_CLOSE | SG_FAILURE | SG_BLOCK | SG_OPEN_CC | SG_GROUND_FAULT | SG_OPEN_VMAX | SG_SELF_TEST
| SG_AUTO_RESET | SG_CHECK_OFF | SG_WAITING | SG_FIRST_24H | SG_POWER_DOWN | SG_POWER_UP
| DAILY_TOTALIZERS_HOURLY_16BIT | MONTHLY_AVERAGE_HOURLY_16BIT | MONTHLY_TOTALIZERS_CURRENT_YEAR_32BIT
| MONTHLY_TOTALIZERS_LAST_YEAR_32BIT.
Definition de_str (d : dim_energy) : str :=
  lit match d with
  | ACTIVE_POWER => "113" | END_AUTOMATIC_UPDATE_SIZE => "1200" | ENERGY_UNIT_TOTALIZER => "51"
  | ENERGY_UNIT_PER_MONTH => "52" | PARTIAL_TOTALIZER_CURRENT_MONTH => "53" | PARTIAL_TOTALIZER_CURRENT_DAY => "54"
  | ACTUATORS_INFO => "71" | TOTALIZERS => "72" | DIFFERENTIAL_CURRENT_LEVEL => "73" | STATUS_STOP_GO_GENERAL => "250"
  | SG_OPEN_CLOSE => "251" | SG_FAILURE => "252" | SG_BLOCK => "253" | SG_OPEN_CC => "254" | SG_GROUND_FAULT => "255"
  | SG_OPEN_VMAX => "256" | SG_SELF_TEST => "257" | SG_AUTO_RESET => "258" | SG_CHECK_OFF => "259" | SG_WAITING => "260"
  | SG_FIRST_24H => "261" | SG_POWER_DOWN => "262" | SG_POWER_UP => "263"
  | DAILY_TOTALIZERS_HOURLY_16BIT => "511" | MONTHLY_AVERAGE_HOURLY_16BIT => "512"
  | MONTHLY_TOTALIZERS_CURRENT_YEAR_32BIT => "513" | MONTHLY_TOTALIZERS_LAST_YEAR_32BIT => "514"
  end%string.
Definition all_de : list dim_energy :=
  [ACTIVE_POWER; END_AUTOMATIC_UPDATE_SIZE; ENERGY_UNIT_TOTALIZER; ENERGY_UNIT_PER_MONTH;
   PARTIAL_TOTALIZER_CURRENT_MONTH; PARTIAL_TOTALIZER_CURRENT_DAY; ACTUATORS_INFO; TOTALIZERS;
   DIFFERENTIAL_CURRENT_LEVEL; STATUS_STOP_GO_GENERAL;
   SG_OPEN_CLOSE; SG_FAILURE; SG_BLOCK; SG_OPEN_CC; SG_GROUND_FAULT; SG_OPEN_VMAX; SG_SELF_TEST;
   SG_AUTO_RESET; SG_CHECK_OFF; SG_WAITING; SG_FIRST_24H; SG_POWER_DOWN; SG_POWER_UP;
   DAILY_TOTALIZERS_HOURLY_16BIT; MONTHLY_AVERAGE_HOURLY_16BIT; MONTHLY_TOTALIZERS_CURRENT_YEAR_32BIT;
   MONTHLY_TOTALIZERS_LAST_YEAR_32BIT].
(** [DimensionEnergy(s)] *)
Definition de_of (s : str) : res dim_energy :=
  match find (fun d => str_eqb (de_str d) s) all_de with Some d => Ok d | None => Err ValueError end.

(** ** Construction *)

Inductive type_energy := POWER_METER | ACTUATOR | STOP_GO.

(** [s.isnumeric()] for text of digits and hashes *)
Definition isnumeric (s : str) : bool := negb (str_eqb s []) && all_digits s.

(** energy.py:47-67 get_type; [and] evaluates from left to right, so
    [parameters[0]] is only read for a WHERE that starts with 7. *)
Definition get_type (whr : str) : res type_energy :=
  if startswith (lit "1") whr && isnumeric (skipn 1 whr) then Ok STOP_GO
  else if startswith (lit "5") whr && isnumeric (skipn 1 whr) then Ok POWER_METER
  else if startswith (lit "7") whr then
    do p <- index (twp_parameters whr) 0;
    if str_eqb p (lit "0") && isnumeric (skipn 1 (twp_tag whr)) then Ok ACTUATOR else Err InvalidTag
  else Err InvalidTag.

(** energy.py:33-45 __init__ with a WHERE given as text ([Where(where)]
    validates it) and no [who]. *)
Definition energy_management (c : client) (whr : str) : res item :=
  do w <- mk whr;
  do _ <- get_type w;
  Ok {| it_client := c; it_who := ENERGY_MANAGEMENT; it_where := w |}.

(** stop_go.py:19-32 StopGo.__init__ *)
Definition stop_go (c : client) (whr : str) : res item :=
  do it <- energy_management c whr;
  do t <- get_type (it_where it);
  match t with STOP_GO => Ok it | _ => Err InvalidTag end.

(** ** Commands *)

(** [member.with_parameter(p)] (enums.py:74-76, 109-111): a plain tag. *)
Definition param (s : str) (p : Z) : res str := with_parameter s (AInt p).

(** [datetime.now()], a date read when the argument is None; two arguments
    that are None read the clock twice. *)
Definition or_now (a : option Z) (now : Z) : Z := match a with Some z => z | None => now end.

Inductive energy_cmd :=
| start_sending_daily_totalizers_hourly (day month : option Z) (now1 now2 : date)
| start_sending_monthly_average_hourly (month : option Z) (now : date)
| start_sending_monthly_totalizers_current_year (month : option Z) (now : date)
| start_sending_monthly_totalizers_last_year (month : option Z) (now : date)
| enable_actuator
| force_actuator_on (time : option Z)
| force_actuator_off
| reset_totalizers (tot_n : Z)
| enable_automatic_reset
| disable_automatic_reset.

Definition day_of (d : date) : Z := snd d.
Definition month_of (d : date) : Z := snd (fst d).
Definition year_of (d : date) : Z := fst (fst d).

(** The WHAT of each command. *)
Definition energy_what (c : energy_cmd) : res str :=
  match c with
  | start_sending_daily_totalizers_hourly day month now1 now2 =>   (* energy.py:69-85 *)
      do w <- param (we_str SEND_DAILY_REPORT) (or_now day (day_of now1));
      with_parameter w (AInt (or_now month (month_of now2)))
  | start_sending_monthly_average_hourly month now =>              (* energy.py:87-99 *)
      param (we_str SEND_MONTHLY_REPORT) (or_now month (month_of now))
  | start_sending_monthly_totalizers_current_year month now =>     (* energy.py:101-113 *)
      param (we_str SEND_YEARLY_REPORT) (or_now month (month_of now))
  | start_sending_monthly_totalizers_last_year month now =>        (* energy.py:115-127 *)
      param (we_str SEND_LAST_YEAR_REPORT) (or_now month (month_of now))
  | enable_actuator => Ok (we_str ENABLE_ACTUATOR)                 (* energy.py:129-135 *)
  | force_actuator_on None => Ok (we_str FORCE_ACTUATOR_ON)        (* energy.py:137-149 *)
  | force_actuator_on (Some t) => param (we_str FORCE_ACTUATOR_ON) t
  | force_actuator_off => Ok (we_str FORCE_ACTUATOR_OFF)           (* energy.py:151-157 *)
  | reset_totalizers n => param (we_str RESET_REPORT) n            (* energy.py:159-168 *)
  | enable_automatic_reset => Ok (we_str AUTO_RESET_ON)            (* stop_go.py:34-36 *)
  | disable_automatic_reset => Ok (we_str AUTO_RESET_OFF)          (* stop_go.py:38-40 *)
  end.
Definition run_energy {Y} (it : item) (c : energy_cmd) : io Y unit :=
  let* w := lift (energy_what c) in send_normal_message it w.

(** energy.py:170-186 start_sending_instant_power *)
Definition start_sending_instant_power {Y} (it : item) (time power_type : Z) : io Y unit :=
  let* d := lift (param (de_str END_AUTOMATIC_UPDATE_SIZE) power_type) in
  let* v := lift (tag_make (AInt time)) in
  send_dimension_writing it d [v].

(** energy.py:188-203 stop_sending_instant_power *)
Definition stop_sending_instant_power {Y} (it : item) (power_type : Z) : io Y unit :=
  let* d := lift (param (de_str END_AUTOMATIC_UPDATE_SIZE) power_type) in
  let* v := lift (tag_make (AInt 0)) in
  send_dimension_writing it d [v].

(** ** Requests *)

(** [float(message.values[0].string)], [int(message.values[0].string)] *)
Definition float0 (vs : list str) : res pyfloat := do v <- index vs 0; py_float v.
Definition int0 (vs : list str) : res Z := do v <- index vs 0; py_int v.

(** The first response to the request, decoded. *)
Definition ask_energy {Y A} (it : item) (dim : res str) (decode : list str -> res A) : io Y A :=
  let* d := lift dim in
  let* resp := single_dim_req it d in
  lift (do vs <- get_values resp; decode vs).

(** energy.py:205-216 *)
Definition get_active_power {Y} (it : item) : io Y pyfloat := ask_energy it (Ok (de_str ACTIVE_POWER)) float0.
(** energy.py:218-229 *)
Definition get_energy_unit_totalizer {Y} (it : item) : io Y pyfloat :=
  ask_energy it (Ok (de_str ENERGY_UNIT_TOTALIZER)) float0.
(** energy.py:231-258; the month is read from the clock before the year *)
Definition get_energy_unit_per_month {Y} (it : item) (month year : option Z) (now1 now2 : date) : io Y pyfloat :=
  ask_energy it
    (do d <- param (de_str ENERGY_UNIT_PER_MONTH) (or_now year (year_of now2 mod 100));
     with_parameter d (AInt (or_now month (month_of now1)))) float0.
(** energy.py:260-273 *)
Definition get_partial_totalizer_current_month {Y} (it : item) : io Y pyfloat :=
  ask_energy it (Ok (de_str PARTIAL_TOTALIZER_CURRENT_MONTH)) float0.
(** energy.py:275-286 *)
Definition get_partial_totalizer_current_day {Y} (it : item) : io Y pyfloat :=
  ask_energy it (Ok (de_str PARTIAL_TOTALIZER_CURRENT_DAY)) float0.

(** dataclass.py:7-24 ActuatorStatus *)
Record actuator_status := {
  as_disabled : bool; as_forcing : bool; as_threshold : bool; as_protection : bool; as_phase : bool; as_advanced : bool }.

(** [int(message.values[0].string[i])]: one character *)
Definition char0 (vs : list str) (i : nat) : res Z :=
  do v <- index vs 0; do c <- index v i; py_int [c].
(** [bool(int(message.values[0].string[i]))] *)
Definition flag0 (vs : list str) (i : nat) : res bool :=
  do z <- char0 vs i; Ok (negb (z =? 0)%Z).

(** energy.py:304-311 *)
Definition actuator_of (vs : list str) : res actuator_status :=
  do a <- flag0 vs 0; do b <- flag0 vs 1; do c <- flag0 vs 2; do d <- flag0 vs 3; do e <- flag0 vs 4;
  do f <- char0 vs 5;
  Ok {| as_disabled := a; as_forcing := b; as_threshold := c; as_protection := d; as_phase := e;
        as_advanced := negb (negb (f - 1 =? 0)%Z) |}.
(** energy.py:288-311 get_actuators_info *)
Definition get_actuators_info {Y} (it : item) : io Y actuator_status :=
  ask_energy it (Ok (de_str ACTUATORS_INFO)) actuator_of.

(** energy.py:332-339; the date without time zone: the offset of the model's
    time is 0. *)
Definition totalizer_of (vs : list str) : res (date * time * pyfloat) :=
  do energy <- float0 vs;
  do d <- index vs 1; do m <- index vs 2; do y <- index vs 3; do h <- index vs 4; do mi <- index vs 5;
  do y <- py_int y; do m <- py_int m; do d <- py_int d; do h <- py_int h; do mi <- py_int mi;
  do t <- mk_datetime y m d h mi 0 0;
  Ok (t, energy).
(** energy.py:313-339 get_totalizers *)
Definition get_totalizers {Y} (it : item) (tot_n : Z) : io Y (date * time * pyfloat) :=
  ask_energy it (param (de_str TOTALIZERS) tot_n) totalizer_of.
(** energy.py:341-354 *)
Definition get_differential_current_level {Y} (it : item) : io Y Z :=
  ask_energy it (Ok (de_str DIFFERENTIAL_CURRENT_LEVEL)) int0.

(** ** Stop&Go status *)

(** dataclass.py:27-58 StopGoStatus: the thirteen fields in the order of the
    source (open, failure, block, open_cc, open_ground_fault, open_vmax,
    self_test_off, auto_reset_off, check_off, waiting_closing, first_24h_open,
    power_fail_down, power_fail_up), each None, True or False. *)
Definition stop_go_status := list (option bool).
Definition fresh_status : stop_go_status := repeat None 13.
Definition set_field (i : nat) (b : bool) (s : stop_go_status) : stop_go_status :=
  firstn i s ++ Some b :: skipn (S i) s.

(** stop_go.py:80-92: [bool(val & 2**i)] for i = 0 .. 12 *)
Definition mask_status (val : Z) : stop_go_status :=
  map (fun i => Some (negb (Z.land val (2 ^ i) =? 0)%Z)) [0; 1; 2; 3; 4; 5; 6; 7; 8; 9; 10; 11; 12]%Z.

(** stop_go.py:77-121: what one message does to the status. *)
Definition status_update (dim : str) (val : Z) (s : stop_go_status) : res stop_go_status :=
  let b := negb (val =? 0)%Z in
  if str_eqb dim (de_str STATUS_STOP_GO_GENERAL) then Ok (mask_status val)
  else if str_eqb dim (de_str SG_OPEN_CLOSE) then Ok (set_field 0 b s)
  else if str_eqb dim (de_str SG_FAILURE) then Ok (set_field 1 b s)
  else if str_eqb dim (de_str SG_BLOCK) then Ok (set_field 2 b s)
  else if str_eqb dim (de_str SG_OPEN_CC) then Ok (set_field 3 b s)
  else if str_eqb dim (de_str SG_GROUND_FAULT) then Ok (set_field 4 b s)
  else if str_eqb dim (de_str SG_OPEN_VMAX) then Ok (set_field 5 b s)
  else if str_eqb dim (de_str SG_SELF_TEST) then Ok (set_field 6 b s)
  else if str_eqb dim (de_str SG_AUTO_RESET) then Ok (set_field 7 b s)
  else if str_eqb dim (de_str SG_CHECK_OFF) then Ok (set_field 8 b s)
  else if str_eqb dim (de_str SG_WAITING) then Ok (set_field 9 b s)
  else if str_eqb dim (de_str SG_FIRST_24H) then Ok (set_field 10 b s)
  else if str_eqb dim (de_str SG_POWER_DOWN) then Ok (set_field 11 b s)
  else if str_eqb dim (de_str SG_POWER_UP) then Ok (set_field 12 b s)
  else Err InvalidMessage.

(** One turn of the loop, stop_go.py:67-75; whether the dimension is known
    does not depend on the status so far. *)
Definition status_step (m : msg) : res (list (str * Z)) :=
  do d <- get_dimension m;
  do vs <- get_values m;
  do val <- int0 vs;
  do _ <- status_update d val fresh_status;
  Ok [(d, val)].

(** stop_go.py:42-123 request_status with [messages=None]: the status is a
    local variable, so the loop may as well remember the updates and apply
    them at the end. *)
Definition request_status {Y} (it : item) (dim_req : dim_energy) : io Y stop_go_status :=
  let* us := collect (send_dimension_request it (de_str dim_req) status_step) in
  lift (fold_left (fun s u => do st <- s; status_update (fst u) (snd u) st) us (Ok fresh_status)).

(** energy.py:583-599: the status in a Stop&Go event, one character each *)
Definition status_of_event (vs : list str) : res stop_go_status :=
  mapM (fun i => do b <- flag0 vs i; Ok (Some b)) [0; 1; 2; 3; 4; 5; 6; 7; 8; 9; 10; 11; 12]%nat.
