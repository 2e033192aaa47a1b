(** * Documented answers

    docs/original/who1.md, who2.md, who13.md and who18.md: what the gateway sends
    on the command connection after each request, and what the method that asked
    makes of it.  Of the model only the names of the methods are used. *)
From Coq Require Import String List NArith ZArith Bool Lia.
From Verif Require Import PyStr PyDate PyFloat Tags Messages SpecMsg SpecTag IO Client Items LightThms2 Lighting SpecGateway Gateway Energy SpecEnergy SpecDocs.
Import ListNotations.
Open Scope N_scope.
Open Scope list_scope.

Definition ack : list str := [lit "#"; lit "1"].
(** A light or an automation tells its state; a dimension is told. *)
Definition state_of (w : who) (p : N * str) : list str := [who_str w; dec (fst p); snd p].
Definition value (w : who) (whr d : str) (vs : list str) : list str := hashed w :: whr :: d :: vs.

Definition on_off (p : N * str) : list (str * bool) :=
  match fst p with 0 => [(snd p, false)] | 1 => [(snd p, true)] | _ => [] end.

(** The bits of a Stop&Go device: who18.md:251-263. *)
Definition bits : list (N * dim_energy) :=
  [(0, SG_OPEN_CLOSE); (1, SG_FAILURE); (2, SG_BLOCK); (3, SG_OPEN_CC); (4, SG_GROUND_FAULT); (5, SG_OPEN_VMAX); (6, SG_SELF_TEST);
   (7, SG_AUTO_RESET); (8, SG_CHECK_OFF); (9, SG_WAITING); (10, SG_FIRST_24H); (11, SG_POWER_DOWN); (12, SG_POWER_UP)].
Definition bit (b : bool) : str := if b then lit "1" else lit "0".
Definition only (i : N) (b : bool) : list (option bool) := map (fun p => if fst p =? i then Some b else None) bits.

Definition dotted (sep : string) (l : list str) : str := join (hd 0 (lit sep)) l.

(** The requests of lights whose values are told on the event connection. *)
Inductive elsewhere (it : item) : io (str * list Z) unit -> Prop :=
| E_level : elsewhere it (request_current_brightness_speed it)     (* who1.md:569 *)
| E_timer : elsewhere it (temporization_request it)                (* who1.md:577 *)
| E_hsv : elsewhere it (request_current_hsv it)                    (* who1.md:612 *)
| E_white : elsewhere it (request_current_white_temperature it).   (* who1.md:620 *)

(** The requests of one number of watts or watt-hours. *)
Inductive amount (it : item) : io Empty_set pyfloat -> str -> Prop :=
| M_power : amount it (get_active_power it) (lit "113")                                (* who18.md:321 *)
| M_total : amount it (get_energy_unit_totalizer it) (lit "51")                        (* who18.md:331 *)
| M_month : amount it (get_partial_totalizer_current_month it) (lit "53")              (* who18.md:353 *)
| M_day : amount it (get_partial_totalizer_current_day it) (lit "54")                  (* who18.md:361 *)
| M_per_month y m n1 n2 ys ms : shown y ys -> shown m ms ->
    amount it (get_energy_unit_per_month it (Some (Z.of_N m)) (Some (Z.of_N y)) n1 n2) (lit "52#" ++ ys ++ lit "#" ++ ms). (* who18.md:339 *)

(** [exchange it w x fs ys r left]: a documented answer to the request of [x] is
    [fs]; then [x] yields [ys] and returns or raises [r], and does not read the
    frames [left] at the end of [fs]. *)
Inductive exchange (it : item) : who -> forall Y A : Type, io Y A -> list (list str) -> list Y -> res A -> list (list str) -> Prop :=
(* who1.md:506, 515 *)
| T_light ps : Forall (fun p => fst p <= 31 /\ groups (snd p)) ps ->
    exchange it LIGHTING _ _ (light_get_status it) (map (state_of LIGHTING) ps ++ [ack]) (concat (map on_off ps)) (Ok tt) []
| T_dimmer ps : Forall (fun p => fst p <= 31 /\ groups (snd p)) ps ->
    exchange it LIGHTING _ _ (dimmer_get_status it) (map (state_of LIGHTING) ps ++ [ack])
      (map (fun p => (snd p, (10 * Z.of_N (fst p))%Z)) ps) (Ok tt) []
| T_elsewhere x : elsewhere it x -> exchange it LIGHTING _ _ x [ack] [] (Ok tt) []
(* who1.md:585-587: the lights that are on *)
| T_none_on : exchange it LIGHTING _ _ (request_working_time_lamp it) [ack] [] (Ok tt) []
| T_some_on p ps : Forall (fun p => fst p <= 31 /\ groups (snd p)) (p :: ps) ->
    exchange it LIGHTING _ _ (request_working_time_lamp it) (map (state_of LIGHTING) (p :: ps) ++ [ack]) [] (Err ResponseError)
      (map (state_of LIGHTING) ps ++ [ack])
(* who2.md:165, 174 *)
| T_shutter ps : Forall (fun p => fst p <= 2 /\ groups (snd p)) ps ->
    exchange it AUTOMATION _ _ (auto_get_status it) (map (state_of AUTOMATION) ps ++ [ack]) (map (fun p => (snd p, dec (fst p))) ps) (Ok tt) []
(* who13.md:40; an ACK ends the answers, as for the other systems *)
| T_time h m s z hs ms ss zs : (Z.abs z < 24)%Z ->
    (0 <= h <= 23)%Z -> (0 <= m <= 59)%Z -> (0 <= s <= 59)%Z ->
    fixed 2 hs h -> fixed 2 ms m -> fixed 2 ss s -> zone zs z ->
    exchange it GATEWAY Empty_set _ (get_time it) [value GATEWAY [] (lit "0") [hs; ms; ss; zs]; ack] []
      (Ok {| t_hour := h; t_minute := m; t_second := s; t_offset := (3600 * z)%Z |}) []
(* who13.md:61 *)
| T_date y m d w ws ds ms ys : calendar_date (y, m, d) -> fixed 2 ws w -> fixed 2 ds d -> fixed 2 ms m -> fixed 4 ys y ->
    exchange it GATEWAY Empty_set _ (get_date it) [value GATEWAY [] (lit "1") [ws; ds; ms; ys]; ack] [] (Ok (y, m, d)) []
(* who13.md:79, 95 *)
| T_ip a b c d : octets a b c d ->
    exchange it GATEWAY Empty_set _ (get_ip it) [value GATEWAY [] (lit "10") [dec a; dec b; dec c; dec d]; ack] [] (Ok (address a b c d)) []
| T_netmask a b c d : octets a b c d ->
    exchange it GATEWAY Empty_set _ (get_netmask it) [value GATEWAY [] (lit "11") [dec a; dec b; dec c; dec d]; ack] []
      (Ok (dotted "." [dec a; dec b; dec c; dec d])) []
| T_netinfo a b c d a' b' c' d' p : octets a b c d -> octets a' b' c' d' -> netmask (address a' b' c' d') p ->
    exchange it GATEWAY Empty_set _ (get_netinfo it)
      [value GATEWAY [] (lit "10") [dec a; dec b; dec c; dec d]; ack; value GATEWAY [] (lit "11") [dec a'; dec b'; dec c'; dec d']; ack] []
      (Ok (address a b c d / 2 ^ (32 - p) * 2 ^ (32 - p), p)) []
(* who13.md:111 *)
| T_mac a b c d e f : octets a b c d -> octets e f 0 0 ->
    exchange it GATEWAY Empty_set _ (get_macaddress it) [value GATEWAY [] (lit "12") [dec a; dec b; dec c; dec d; dec e; dec f]; ack] []
      (Ok (dotted ":" [dec a; dec b; dec c; dec d; dec e; dec f])) []
(* who13.md:127-134 *)
| T_model v : In v [lit "6"; lit "7"; lit "11"] ->
    exchange it GATEWAY Empty_set _ (get_model it) [value GATEWAY [] (lit "15") [v]; ack] [] (Ok v) []
| T_h4684 : exchange it GATEWAY Empty_set _ (get_model it) [value GATEWAY [] (lit "15") [lit "13"]; ack] [] (Ok (lit "0")) []
(* who13.md:145, 202, 219 *)
| T_firmware v r b : Forall num [v; r; b] ->
    exchange it GATEWAY Empty_set _ (get_firmware it) [value GATEWAY [] (lit "16") [v; r; b]; ack] [] (Ok (dotted "." [v; r; b])) []
| T_kernel v r b : Forall num [v; r; b] ->
    exchange it GATEWAY Empty_set _ (get_kernel_version it) [value GATEWAY [] (lit "23") [v; r; b]; ack] [] (Ok (dotted "." [v; r; b])) []
| T_distribution v r b : Forall num [v; r; b] ->
    exchange it GATEWAY Empty_set _ (get_distribution_version it) [value GATEWAY [] (lit "24") [v; r; b]; ack] [] (Ok (dotted "." [v; r; b])) []
(* who13.md:162 *)
| T_uptime ds hs ms ss d h m s : fixed 2 ds d -> fixed 2 hs h -> fixed 2 ms m -> fixed 2 ss s ->
    exchange it GATEWAY Empty_set _ (get_uptime it) [value GATEWAY [] (lit "19") [ds; hs; ms; ss]; ack] []
      (Ok (86400 * d + 3600 * h + 60 * m + s)%Z) []
(* who13.md:180 *)
| T_datetime h m s z hs ms ss zs y mo d w ws ds mos ys :
    (0 <= h <= 23)%Z -> (0 <= m <= 59)%Z -> (0 <= s <= 59)%Z -> (Z.abs z < 24)%Z ->
    fixed 2 hs h -> fixed 2 ms m -> fixed 2 ss s -> zone zs z ->
    calendar_date (y, mo, d) -> fixed 2 ws w -> fixed 2 ds d -> fixed 2 mos mo -> fixed 4 ys y ->
    exchange it GATEWAY Empty_set _ (get_datetime it) [value GATEWAY [] (lit "22") [hs; ms; ss; zs; ws; ds; mos; ys]; ack] []
      (Ok ((y, mo, d), {| t_hour := h; t_minute := m; t_second := s; t_offset := (3600 * z)%Z |})) []
(* who18.md:319-361 *)
| T_amount x d whr v f : amount it x d -> meter whr -> num v -> reads (value_of 0 v) f ->
    exchange it ENERGY_MANAGEMENT _ _ x [value ENERGY_MANAGEMENT whr d [v]; ack] [] (Ok f) []
(* who18.md:369 *)
| T_actuator whr a b c d e f : meter whr -> Forall digitchar [a; b; c; d; e; f] ->
    exchange it ENERGY_MANAGEMENT Empty_set _ (get_actuators_info it)
      [value ENERGY_MANAGEMENT whr (lit "71") [[a]; [b]; [c]; [d]; [e]; [f]]; ack] [] (Err IndexError) []
(* who18.md:398 *)
| T_totalizer n whr e f ds ms ys hs mis y mo d h mi : 1 <= n <= 2 -> meter whr -> num e -> reads (value_of 0 e) f ->
    calendar_date (Z.of_N y, Z.of_N mo, Z.of_N d) -> h <= 23 -> mi <= 59 ->
    number ds d -> number ms mo -> number ys y -> number hs h -> number mis mi ->
    exchange it ENERGY_MANAGEMENT Empty_set _ (get_totalizers it (Z.of_N n))
      [value ENERGY_MANAGEMENT whr (lit "72#" ++ dec n) [e; ds; ms; ys; hs; mis]; ack] []
      (Ok ((Z.of_N y, Z.of_N mo, Z.of_N d), {| t_hour := Z.of_N h; t_minute := Z.of_N mi; t_second := 0; t_offset := 0 |}, f)) []
(* who18.md:416 *)
| T_level whr n : meter whr -> 1 <= n <= 3 ->
    exchange it ENERGY_MANAGEMENT Empty_set _ (get_differential_current_level it)
      [value ENERGY_MANAGEMENT whr (lit "73") [dec n]; ack] [] (Ok (Z.of_N n)) []
(* who18.md:227-232: the mask, b13 first, and the bits *)
| T_stop_go whr bs : meter whr -> length bs = 13%nat ->
    exchange it ENERGY_MANAGEMENT Empty_set _ (request_status it STATUS_STOP_GO_GENERAL)
      (value ENERGY_MANAGEMENT whr (lit "250") [concat (map bit (rev bs))]
       :: map (fun p => value ENERGY_MANAGEMENT whr (dec (251 + fst (fst p))) [bit (snd p)]) (combine bits bs) ++ [ack]) []
      (Ok (map Some bs)) []
(* who18.md:278 *)
| T_bit whr i d b : In (i, d) bits -> meter whr ->
    exchange it ENERGY_MANAGEMENT Empty_set _ (request_status it d)
      [value ENERGY_MANAGEMENT whr (dec (251 + i)) [bit b]; ack] [] (Ok (only i b)) [].

(** ** The calls after a request that left answers unread *)

(** Commands one after the other: what each returns or raises. *)
Fixpoint in_turn (cs : list (item * str)) (s : script) : list (res unit) :=
  match cs with
  | [] => []
  | (it, what) :: cs' =>
      match (send_normal_message it what s : list (ev Empty_set) * script * res unit) with (_, s', r) => r :: in_turn cs' s' end
  end.

Definition verdict (m : msg) : res unit := match m with MAck => Ok tt | _ => Err ResponseError end.
