(** * What the event examples are supposed to tell *)
From Coq Require Import String List NArith ZArith Bool Lia.
From Verif Require Import PyStr PyDate PyFloat Tags Messages SpecMsg SpecTag Protocol IO SpecGateway Energy SpecEnergy SpecClock Dispatch SpecHouse.
From Verif Require Log.
From Verif Require Import Watchers.
Import ListNotations.
Open Scope N_scope.
Open Scope list_scope.

Definition record (what a state : string) (whr : str) : told :=
  Tell (Some Log.INFO) (lit what ++ whr ++ lit a ++ lit state) None [].
Definition lamp_is (whr : str) (state : string) : told := record "Light at " " is now " state whr.
Definition shutter_is (whr : str) (state : string) : told := record "Shutter at " " is now " state whr.

(** The line for one event. *)
Inductive speaks : watcher -> msg -> told -> Prop :=
| Sp_on a : speaks Light_02 (MNormal LIGHTING (lit "1") a) (lamp_is a "on")
| Sp_off what a : what <> lit "1" -> speaks Light_02 (MNormal LIGHTING what a) (lamp_is a "off")
| Sp_up a : speaks Automation_02 (MNormal AUTOMATION (lit "1") a) (shutter_is a "up")
| Sp_down a : speaks Automation_02 (MNormal AUTOMATION (lit "2") a) (shutter_is a "down")
| Sp_stopped a : speaks Automation_02 (MNormal AUTOMATION (lit "0") a) (shutter_is a "stopped")
| Sp_power a v more f : digits v -> v <> [] -> reads (value_of 0 v) f ->
    speaks Energy_02 (MDimRes ENERGY_MANAGEMENT a (lit "113") (v :: more))
      (Tell None (lit "Power consumption changed to ") (Some (VFloat f)) (lit " W for " ++ a))
| Sp_time m a vs h mi s z : m = MDimRes GATEWAY a (lit "0") vs \/ m = MDimWri GATEWAY a (lit "0") vs ->
    time_numbers vs h mi s z -> clock_time h mi s ->
    speaks Gateway_02 m (Tell None (lit "Time of the gateway is now ")
      (Some (VTime {| t_hour := Z.of_N h; t_minute := Z.of_N mi; t_second := Z.of_N s; t_offset := (3600 * z)%Z |})) []).
Definition tells (x : watcher) (m : msg) (ls : list told) : Prop :=
  (exists l, speaks x m l /\ ls = [l]) \/ ((forall l, ~ speaks x m l) /\ ls = []).

(** [arrives acts ms]: packets with the messages [ms], and runs of the loop in
    between. *)
Inductive arrives : list act -> list msg -> Prop :=
| Ar_start : arrives [] []
| Ar_packet acts ms data ms' : arrives acts ms -> packet_messages data = Ok ms' -> arrives (acts ++ [Packet data]) (ms ++ ms')
| Ar_wake acts ms : arrives acts ms -> arrives (acts ++ [Wake]) ms.

(** The lines for the points of a house whose states are reported. *)
Definition point_lines (x : watcher) (p : point) : list told :=
  match x, p_who p with
  | Light_02, LIGHTING => [lamp_is (p_where p) (if str_eqb (p_state p) (lit "1") then "on" else "off")]
  | Automation_02, AUTOMATION =>
      if str_eqb (p_state p) (lit "1") then [shutter_is (p_where p) "up"]
      else if str_eqb (p_state p) (lit "2") then [shutter_is (p_where p) "down"]
      else [shutter_is (p_where p) "stopped"]
  | _, _ => []
  end.

(** [carries acts fs]: the frames [fs] in packets, in any grouping, and runs of
    the loop in between. *)
Inductive carries : list act -> list (list N) -> Prop :=
| Cy_start : carries [] []
| Cy_packet acts fs group : carries acts fs -> carries (acts ++ [Packet (concat group)]) (fs ++ group)
| Cy_wake acts fs : carries acts fs -> carries (acts ++ [Wake]) fs.

(** The messages that are left of a script: all that are not a timeout, in order. *)
Inductive leaves : script -> list msg -> Prop :=
| L_nil : leaves [] []
| L_msg m s q : leaves s q -> leaves (Some m :: s) (m :: q)
| L_none s q : leaves s q -> leaves (None :: s) q.
