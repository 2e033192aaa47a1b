(** * Specification vocabulary for tags *)
From Coq Require Import String List NArith ZArith Bool Lia.
From Verif Require Import PyStr Tags SpecMsg.
Import ListNotations.
Open Scope N_scope.
Open Scope list_scope.

(** The value of a string of decimal digits, most significant first. *)
Fixpoint value_of (acc : N) (s : str) : N :=
  match s with [] => acc | c :: r => value_of (10 * acc + (c - 48)) r end.

(** [s] is the usual decimal numeral of [n]: digits only, not empty, no
    superfluous leading zero. *)
Definition numeral (n : N) (s : str) : Prop :=
  digits s /\ s <> [] /\ (forall r, s = 48 :: r -> r = []) /\ value_of 0 s = n.

(** Python's limit on int/str conversion. *)
Definition printable_int (n : N) : Prop := forall s, numeral n s -> (N.of_nat (length s) <= 4300).

(** The text of a tag with parameters p1 ... pn: "tag#p1#...#pn". *)
Definition with_params (tag : str) (ps : list str) : str := tag ++ concat (map (cons 35) ps).

Definition nohash (t : str) : Prop := ~ In 35 t.

(** The WHERE address table of the documentation (docs/tags/where). *)
Inductive where_class : str -> wtype -> Prop :=
| WC_general : where_class [48] GENERAL
| WC_ambient c : 49 <= c <= 57 -> where_class [c] AMBIENT
| WC_ambient00 : where_class [48; 48] AMBIENT
| WC_ambient100 : where_class [49; 48; 48] AMBIENT
| WC_point c r : 49 <= c <= 57 -> r <> [] -> c :: r <> [49; 48; 48] -> where_class (c :: r) LIGHT_POINT
| WC_point0 c r : 48 <= c <= 57 -> 48 :: c :: r <> [48; 48] -> where_class (48 :: c :: r) LIGHT_POINT
| WC_group g : nohash g -> where_class (35 :: g) GROUP
| WC_bus a b : nohash a -> nohash b -> where_class (35 :: a ++ 35 :: b) LOCAL_BUS.

(** The WHO numbers of the protocol handled by the library. *)
Definition who_numbers : list str :=
  map lit ["0"; "1"; "2"; "3"; "4"; "5"; "6"; "7"; "8"; "13"; "14"; "15"; "16"; "17"; "18";
           "22"; "24"; "25"; "1001"; "1004"; "1013"; "1018"]%string.

(** The names under which the library's users know the subsystems (the members
    of the enumeration), and a text in capital letters with underscores for spaces. *)
Definition member_name (w : who) : str := lit
  match w with
  | SCENE => "SCENE" | LIGHTING => "LIGHTING" | AUTOMATION => "AUTOMATION" | LOAD_CONTROL => "LOAD_CONTROL"
  | THERMOREGULATION => "THERMOREGULATION" | BURGLAR_ALARM => "BURGLAR_ALARM" | DOOR_ENTRY_SYSTEM => "DOOR_ENTRY_SYSTEM"
  | VIDEO_DOOR_ENTRY => "VIDEO_DOOR_ENTRY" | AUXILIARY => "AUXILIARY" | GATEWAY => "GATEWAY" | ACTUATORS_LOCKS => "ACTUATORS_LOCKS"
  | CEN_1 => "CEN_1" | SOUND_DIFFUSION_1 => "SOUND_DIFFUSION_1" | MH200N_SCENE => "MH200N_SCENE" | ENERGY_MANAGEMENT => "ENERGY_MANAGEMENT"
  | SOUND_DIFFUSION_2 => "SOUND_DIFFUSION_2" | LIGHTING_MANAGEMENT => "LIGHTING_MANAGEMENT" | CEN_2 => "CEN_2"
  | AUTOMATION_DIAGNOSTICS => "AUTOMATION_DIAGNOSTICS" | THERMOREGULATION_DIAGNOSTICS => "THERMOREGULATION_DIAGNOSTICS"
  | DEVICE_DIAGNOSTICS => "DEVICE_DIAGNOSTICS" | ENERGY_DIAGNOSTICS => "ENERGY_DIAGNOSTICS"
  end%string.
Definition capitals (s : str) : str := map (fun c => if (97 <=? c) && (c <=? 122) then c - 32 else if c =? 32 then 95 else c) s.
