(** * What the documentation says about lights, automations and cameras

    docs/original/who1.md, who2.md and who7.md (WHAT and DIMENSION tables), and
    what the names and docstrings of the methods promise. *)
From Coq Require Import String List NArith ZArith Bool Lia.
From Verif Require Import PyStr Tags Messages SpecMsg Lighting.
Import ListNotations.
Open Scope N_scope.
Open Scope list_scope.

(** What a light does; durations in tenths of a second, levels in percent. *)
Inductive effect :=
| Off | On | OnFor (t : N) | Level (p : N) | Blink (t : N) | StepUp | StepDown.

(** who1.md, WHAT table *)
Definition doc_light (n : N) : option effect :=
  match n with
  | 0 => Some Off
  | 1 => Some On
  | 2 | 3 | 4 | 5 | 6 | 7 | 8 | 9 | 10 => Some (Level (10 * n))
  | 11 | 12 | 13 | 14 | 15 => Some (OnFor (600 * (n - 10)))
  | 16 => Some (OnFor 9000)
  | 17 => Some (OnFor 300)
  | 18 => Some (OnFor 5)
  | 20 | 21 | 22 | 23 | 24 | 25 | 26 | 27 | 28 | 29 => Some (Blink (5 * (n - 19)))
  | 30 => Some StepUp
  | 31 => Some StepDown
  | _ => None
  end.

(** The argument-less commands of lights and dimmers and what they promise. *)
Inductive light_cmd := LBase (c : base_cmd) | LBlink (c : blink_cmd) | LLevel (c : level_cmd) | LUp | LDown.

Definition promise (c : light_cmd) : effect :=
  match c with
  | LBase turn_on => On
  | LBase turn_off => Off
  | LBase turn_on_1_min => OnFor (1 * 600)
  | LBase turn_on_2_min => OnFor (2 * 600)
  | LBase turn_on_3_min => OnFor (3 * 600)
  | LBase turn_on_4_min => OnFor (4 * 600)
  | LBase turn_on_5_min => OnFor (5 * 600)
  | LBase turn_on_15_min => OnFor (15 * 600)
  | LBase turn_on_30_min => OnFor (30 * 600)
  | LBase turn_on_0_5_sec => OnFor 5
  | LBlink blink_0_5_sec => Blink 5
  | LBlink blink_1_0_sec => Blink 10
  | LBlink blink_1_5_sec => Blink 15
  | LBlink blink_2_0_sec => Blink 20
  | LBlink blink_2_5_sec => Blink 25
  | LBlink blink_3_0_sec => Blink 30
  | LBlink blink_3_5_sec => Blink 35
  | LBlink blink_4_0_sec => Blink 40
  | LBlink blink_4_5_sec => Blink 45
  | LBlink blink_5_0_sec => Blink 50
  | LLevel set_20_percent => Level 20
  | LLevel set_30_percent => Level 30
  | LLevel set_40_percent => Level 40
  | LLevel set_50_percent => Level 50
  | LLevel set_60_percent => Level 60
  | LLevel set_70_percent => Level 70
  | LLevel set_80_percent => Level 80
  | LLevel set_90_percent => Level 90
  | LLevel set_100_percent => Level 100
  | LUp => StepUp
  | LDown => StepDown
  end.

(** who2.md, WHAT table *)
Definition doc_automation (c : auto_cmd) : N := match c with stop => 0 | up => 1 | down => 2 end.

(** who7.md, WHAT table *)
Definition doc_camera (c : cam_cmd) : N :=
  match c with
  | free_resources => 9
  | zoom_in => 120 | zoom_out => 121
  | increase_x => 130 | decrease_x => 131 | increase_y => 140 | decrease_y => 141
  | increase_luminosity => 150 | decrease_luminosity => 151
  | increase_contrast => 160 | decrease_contrast => 161
  | increase_color => 170 | decrease_color => 171
  | increase_quality => 180 | decrease_quality => 181
  end.

(** who7.md, command sessions: [*7*WHAT##], and [*7*9*##] to free the
    resources. *)
Definition frame_camera (n : N) : list N := wire [[55]; dec n].
Definition doc_free_resources : list N := wire [[55]; [57]; []].

(** who1.md, DIMENSION table *)
Definition doc_dim_level : N := 1.
Definition doc_dim_temporization : N := 2.
Definition doc_dim_working_time : N := 8.
Definition doc_dim_hsv : N := 12.
Definition doc_dim_white : N := 14.
