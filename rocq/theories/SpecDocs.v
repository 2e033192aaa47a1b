(** * The events of the protocol documentation

    docs/original/who*.md: the frames an installation sends to a client that
    listens, and what becomes of each. *)
From Coq Require Import String List NArith ZArith Bool Lia.
From Verif Require Import PyStr Tags Messages SpecMsg SpecTag LightThms2 Gateway Energy SpecEnergy Dispatch SpecDispatch Log SpecLoopLog.
Import ListNotations.
Open Scope N_scope.
Open Scope list_scope.

(** A number, and numbers joined by '#': "12", "#4", "12#4#01". *)
Definition num (s : str) : Prop := digits s /\ s <> [].
Definition groups (s : str) : Prop := exists x ps, s = with_params x ps /\ digits x /\ Forall num ps /\ s <> [].

(** What becomes of an event: the callbacks of [k] get it for the item; nothing
    at all; two records, one of them about the frame [said]; a record that the
    system has no items; a record that it is unknown. *)
Inductive fate :=
| Told (w : who) (whr : str) (k : evkey) (args : list val)
| Passed_over
| Complained (said : list str)
| No_class (w : who) (whr : str)
| Unknown.

(** The systems of the documentation without a class of items. *)
Definition classless : list who :=
  [SCENE; THERMOREGULATION; BURGLAR_ALARM; VIDEO_DOOR_ENTRY; ACTUATORS_LOCKS; CEN_1; SOUND_DIFFUSION_1; MH200N_SCENE; SOUND_DIFFUSION_2;
   LIGHTING_MANAGEMENT; CEN_2; THERMOREGULATION_DIAGNOSTICS].

(** who18.md:22-26: Stop&Go devices 1N, meters 5N, actuators 7N#0. *)
Definition meter (whr : str) : Prop :=
  exists n, num n /\ (whr = 49 :: n \/ whr = 53 :: n \/ whr = with_params (55 :: n) [lit "0"]).

(** The dimensions of one measure, of a report with parameters and of a state of
    a Stop&Go device. *)
Definition measures : list dim_energy :=
  [ACTIVE_POWER; ENERGY_UNIT_TOTALIZER; PARTIAL_TOTALIZER_CURRENT_MONTH; PARTIAL_TOTALIZER_CURRENT_DAY].
Definition reports_dims : list str := map lit ["511"; "512"; "513"; "514"; "52"; "72"; "1200"]%string.
Definition states : list str :=
  map lit ["251"; "252"; "253"; "254"; "255"; "256"; "257"; "258"; "259"; "260"; "261"; "262"; "263"]%string.

Definition hashed (w : who) : str := 35 :: who_str w.

(** [row tags f]: the frame of [tags] is an event of the documentation, and [f]
    is what becomes of it. *)
Inductive row : list str -> fate -> Prop :=
(* who1.md:101-532,629: on, off, timed, dimmer level in steps *)
| R_light what whr b : num what -> groups whr -> (b = true <-> what = lit "1") ->
    row [lit "1"; what; whr] (Told LIGHTING whr (K_light STATUS_CHANGE) [VBool b])
(* who1.md:273: the translation of a command *)
| R_light_command what whr : num what -> groups whr ->
    row [lit "1"; with_params (lit "1000") [what]; whr] (Told LIGHTING whr (K_light STATUS_CHANGE) [VBool false])
(* who1.md:299: level of a dimmer in percents and speed *)
| R_level whr l s : groups whr -> num l -> num s ->
    row [lit "#1"; whr; lit "1"; l; s] (Complained [lit "#1"; whr; lit "1"; l; s])
(* who1.md:536,544: level and working time that somebody sets *)
| R_level_set whr l s : groups whr -> num l -> num s ->
    row [lit "#1"; whr; lit "#2"; l; s] (Complained [lit "#1"; whr; lit "#2"; l; s])
| R_time_set whr t : groups whr -> num t -> row [lit "#1"; whr; lit "#9"; t] (Complained [lit "#1"; whr; lit "#9"; t])
(* who1.md:552: colour *)
| R_hsv whr h s v nh ns nv : groups whr -> number h nh -> number s ns -> number v nv ->
    row [lit "#1"; whr; lit "12"; h; s; v] (Told LIGHTING whr (K_light HSV_CHANGE) [VInt (Z.of_N nh); VInt (Z.of_N ns); VInt (Z.of_N nv)])
(* who1.md:560: white temperature *)
| R_white whr t : groups whr -> num t -> row [lit "#1"; whr; lit "14"; t] Passed_over
(* who1.md:578: timer *)
| R_timer whr h m s : groups whr -> num h -> num m -> num s -> row [lit "#1"; whr; lit "2"; h; m; s] Passed_over
(* who1.md:596,605: working time *)
| R_time whr t : groups whr -> num t -> row [lit "#1"; whr; lit "8"; t] (Complained [lit "#1"; whr; lit "8"; t])
| R_time_max whr t : groups whr -> num t -> row [lit "#1"; whr; lit "9"; t] Passed_over
(* who2.md:61-211: stop, up, down *)
| R_shutter what whr : In what [lit "0"; lit "1"; lit "2"] -> groups whr ->
    row [lit "2"; what; whr] (Told AUTOMATION whr K_auto [VStr what])
(* who2.md:91-224: commands with parameters and their translation *)
| R_shutter_params what p ps whr : In what (map lit ["10"; "11"; "12"; "1000"]%string) -> num p -> Forall num ps -> groups whr ->
    row [lit "2"; with_params what (p :: ps); whr] (Complained [lit "2"; with_params what (p :: ps); whr])
(* who2.md:69,79: the same without an address *)
| R_shutter_alone what : num what -> row [lit "2"; with_params (lit "1000") [what]] Unknown
(* who2.md:92-217: state, level, priority and information of a shutter *)
| R_shutter_state whr a b c d : groups whr -> num a -> num b -> num c -> num d ->
    row [lit "#2"; whr; lit "10"; a; b; c; d] (Complained [lit "#2"; whr; lit "10"; a; b; c; d])
(* who2.md:199: somebody sets a level; the record has a '#' less *)
| R_shutter_level whr p l t : groups whr -> num p -> num l -> num t ->
    row [lit "#2"; whr; 35 :: with_params (lit "11") [p; l]; t] (Complained [lit "#2"; whr; with_params (lit "11") [p; l]; t])
(* who13.md:267: the gateway, but for its model *)
| R_gateway w vs args : w <> DEVICE_TYPE -> vs <> [] -> Forall num vs -> gateway_value w vs args ->
    row (lit "#13" :: [] :: wg_str w :: vs) (Told GATEWAY [] (K_gateway w) args)
(* who18.md:299-361: one measure *)
| R_measure d whr v f : In d measures -> meter whr -> num v -> reads (value_of 0 v) f ->
    row [lit "#18"; whr; de_str d; v] (Told ENERGY_MANAGEMENT whr (K_energy d) [VFloat f])
(* who18.md:416: level of the differential current *)
| R_current whr v n : meter whr -> number v n ->
    row [lit "#18"; whr; lit "73"; v] (Told ENERGY_MANAGEMENT whr (K_energy DIFFERENTIAL_CURRENT_LEVEL) [VInt (Z.of_N n)])
(* who18.md:227: the state of a Stop&Go device *)
| R_stop_go whr v : meter whr -> digits v -> length v = 13%nat ->
    row [lit "#18"; whr; lit "250"; v]
      (Told ENERGY_MANAGEMENT whr (K_energy STATUS_STOP_GO_GENERAL) [VStatus (map (fun c => Some (negb (c =? 48))) v)])
(* who18.md:228-278: one bit of it *)
| R_stop_go_bit d whr v : In d states -> meter whr -> num v -> row [lit "#18"; whr; d; v] Passed_over
(* who18.md:105-171,298,339,398: reports with parameters *)
| R_report d p ps whr v vs : In d reports_dims -> num p -> Forall num ps -> meter whr -> num v -> Forall num vs ->
    row (lit "#18" :: whr :: with_params d (p :: ps) :: v :: vs) (Complained (lit "#18" :: whr :: with_params d (p :: ps) :: v :: vs))
(* who18.md:369: the state of an actuator, in six values *)
| R_actuator whr a b c d e f : meter whr -> Forall digitchar [a; b; c; d; e; f] ->
    row [lit "#18"; whr; lit "71"; [a]; [b]; [c]; [d]; [e]; [f]] (Complained [lit "#18"; whr; lit "71"; [a]; [b]; [c]; [d]; [e]; [f]])
(* who0.md:62-191, who1.md:680,688, who4.md:118-404, who5.md:149-195, who7.md:73,
   who15-25.md:107-388, who17.md:42-107, who22.md:161-417, who25.md:58-103 *)
| R_classless w what whr : In w classless -> groups what -> groups whr -> row [who_str w; what; whr] (No_class w whr)
(* who4.md:118,410,465-479, who22.md:147-466, who24.md:63,65 *)
| R_classless_dim w whr d v vs : In w classless -> groups whr -> groups d -> digits (firstn 1 d) -> groups v -> Forall groups vs ->
    row (hashed w :: whr :: d :: v :: vs) (No_class w whr)
(* who5.md:166-168,176,177,190, who7.md:81: nothing between the last '*' and "##" *)
| R_alarm w what : In w [BURGLAR_ALARM; VIDEO_DOOR_ENTRY] -> num what -> row [who_str w; what; []] (No_class w [])
(* who5.md:146-148,169,170: and a '*' more *)
| R_alarm_star what : num what -> row [lit "5"; what; []; []] Unknown
(* who7.md:89-201: a camera is adjusted *)
| R_camera what : num what -> row [lit "7"; what] Unknown.

(** [history r acts evs q]: as [observed], of an installation that sends what is
    in the documentation. *)
Inductive history (r : registry) : list act -> list (registry * (list str * fate)) -> list (list str * fate) -> Prop :=
| H_start : history r [] [] []
| H_packet acts evs q l : history r acts evs q -> Forall (fun e => row (fst e) (snd e)) l ->
    history r (acts ++ [Packet (concat (map (fun e => wire (fst e)) l))]) evs (q ++ l)
| H_register acts evs q k c : history r acts evs q -> history r (acts ++ [Register k c]) evs q
| H_lookup acts evs q w whr : history r acts evs q -> tagtext whr -> history r (acts ++ [Lookup w whr]) evs q
| H_wake acts evs q : history r acts evs q -> history r (acts ++ [Wake]) (evs ++ map (fun e => (registered r acts, e)) q) [].

(** The calls for an event with a fate, and the records. *)
Definition called (its : items) (r : registry) (f : fate) (ts : list task) : Prop :=
  match f with
  | Told w whr k args => exists i, nth_error its i = Some (w, whr) /\ calls (VItem i :: args) (r k) ts
  | _ => ts = []
  end.

Definition lost (said : list str) : record := Rec L_client WARNING (lit "Item not found for message " ++ wire said).

Inductive recorded (r : registry) : list str -> fate -> list record -> Prop :=
| RC_told tags w whr k args : ~ refused r k args -> recorded r tags (Told w whr k args) []
| RC_refused tags w whr k args why : refused r k args ->
    recorded r tags (Told w whr k args) [Rec L_client ERROR (lit "There was an error in the callback: " ++ why); lost tags]
| RC_passed_over tags : recorded r tags Passed_over []
| RC_complained tags said level why : recorded r tags (Complained said) [Rec L_client level why; lost said]
| RC_no_class tags w whr :
    recorded r tags (No_class w whr) [Rec L_client INFO (lit "Item type not supported, WHO=" ++ who_str w ++ lit ", WHERE=" ++ whr)]
| RC_unknown tags : recorded r tags Unknown [Rec L_client WARNING (lit "Received an unknown message: " ++ wire tags)].
