(** * The gateway item: pyown/items/gateway/gateway.py *)
From Coq Require Import String List NArith ZArith Bool Lia.
From Verif Require Import PyStr PyDate Tags Messages IO Client Items.
Import ListNotations.
Open Scope N_scope.
Open Scope list_scope.

(** gateway.py:99-105 __init__: the WHERE is always empty. *)
Definition gateway (c : client) : item := {| it_client := c; it_who := GATEWAY; it_where := [] |}.

(** gateway.py:41-49 the values of GatewayModel *)
Definition gateway_models : list str :=
  [lit "0"; lit "2"; lit "4"; lit "6"; lit "7"; lit "11"; lit "12"; lit "23"; lit "200"].

(** gateway.py:51-59 _missing_ *)
Definition gateway_model (s : str) : str := if str_in s gateway_models then s else lit "0".

(** gateway.py:79-89 WhatGateway *)
Inductive what_gateway :=
| TIME | DATE | IP_ADDRESS | NET_MASK | MAC_ADDRESS | DEVICE_TYPE | FIRMWARE_VERSION | UPTIME | DATE_TIME
| KERNEL_VERSION | DISTRIBUTION_VERSION.
Definition wg_str (w : what_gateway) : str :=
  match w with
  | TIME => lit "0" | DATE => lit "1" | IP_ADDRESS => lit "10" | NET_MASK => lit "11" | MAC_ADDRESS => lit "12"
  | DEVICE_TYPE => lit "15" | FIRMWARE_VERSION => lit "16" | UPTIME => lit "19" | DATE_TIME => lit "22"
  | KERNEL_VERSION => lit "23" | DISTRIBUTION_VERSION => lit "24"
  end.
Definition all_wg : list what_gateway :=
  [TIME; DATE; IP_ADDRESS; NET_MASK; MAC_ADDRESS; DEVICE_TYPE; FIRMWARE_VERSION; UPTIME; DATE_TIME;
   KERNEL_VERSION; DISTRIBUTION_VERSION].
(** [WhatGateway(s)] *)
Definition wg_of (s : str) : res what_gateway :=
  match find (fun w => str_eqb (wg_str w) s) all_wg with Some w => Ok w | None => Err ValueError end.

(** ** Decoders *)

(** gateway.py:107-118 _parse_own_timezone; the offset in seconds *)
Definition parse_own_timezone (t : str) : res Z :=
  match t with
  | [] => Ok 0%Z
  | sign :: r =>
      do hours <- py_int (firstn 2 r);
      mk_timezone (if sign =? 48 then hours else (- hours)%Z)
  end.

(** gateway.py:150-157, the values of a time response *)
Definition time_of (vs : list str) : res time :=
  match vs with
  | [h_v; m_v; s_v; t_v] =>
      do h <- py_int h_v; do m <- py_int m_v; do s <- py_int s_v;
      do t <- parse_own_timezone t_v;
      mk_time h m s t
  | _ => Err ValueError
  end.

(** gateway.py:193-200 *)
Definition date_of (vs : list str) : res date :=
  match vs with
  | [w; d; m; a] =>
      do day <- py_int d; do month <- py_int m; do year <- py_int a;
      mk_date year month day
  | _ => Err ValueError
  end.

(** f"{int(a)}.{int(b)}.{int(c)}.{int(d)}" of gateway.py:236-240 and 258-260;
    the numbers come from digits, so they are not negative. *)
Definition dotted_of (vs : list str) : res str :=
  match vs with
  | [a; b; c; d] =>
      do a <- py_int a; do b <- py_int b; do c <- py_int c; do d <- py_int d;
      do a <- py_str_int a; do b <- py_str_int b; do c <- py_str_int c; do d <- py_str_int d;
      Ok (join c_dot [a; b; c; d])
  | _ => Err ValueError
  end.

(** gateway.py:236-241 *)
Definition ip_of (vs : list str) : res N := do s <- dotted_of vs; ip_from_string s.

(** gateway.py:277-280 *)
Definition mac_of (vs : list str) : res str :=
  match vs with
  | [a; b; c; d; e; f] => Ok (join c_colon [a; b; c; d; e; f])
  | _ => Err ValueError
  end.

(** gateway.py:308 *)
Definition model_of (vs : list str) : res str := do v <- index vs 0; Ok (gateway_model v).

(** gateway.py:325-329, 420-424, 441-445 *)
Definition version_of (vs : list str) : res str :=
  do v <- index vs 0; do r <- index vs 1; do b <- index vs 2;
  Ok (join c_dot [v; r; b]).

(** gateway.py:346-352 *)
Definition uptime_of (vs : list str) : res Z :=
  do d <- bind (index vs 0) py_int; do h <- bind (index vs 1) py_int;
  do m <- bind (index vs 2) py_int; do s <- bind (index vs 3) py_int;
  mk_timedelta d h m s.

(** gateway.py:369-382 *)
Definition datetime_of (vs : list str) : res (date * time) :=
  do h <- bind (index vs 0) py_int; do m <- bind (index vs 1) py_int; do s <- bind (index vs 2) py_int;
  do t <- index vs 3;
  do d <- bind (index vs 5) py_int; do mo <- bind (index vs 6) py_int; do y <- bind (index vs 7) py_int;
  do off <- parse_own_timezone t;
  mk_datetime y mo d h m s off.

(** ** Requests: the first response to the dimension request, decoded. *)
Definition ask_gateway {Y A} (it : item) (w : what_gateway) (decode : list str -> res A) : io Y A :=
  let* resp := single_dim_req it (wg_str w) in
  lift (do vs <- get_values resp; decode vs).

(** gateway.py:135-159 *)
Definition get_time {Y} (it : item) : io Y time := ask_gateway it TIME time_of.
(** gateway.py:178-202 *)
Definition get_date {Y} (it : item) : io Y date := ask_gateway it DATE date_of.
(** gateway.py:221-241 *)
Definition get_ip {Y} (it : item) : io Y N := ask_gateway it IP_ADDRESS ip_of.
(** gateway.py:243-260 *)
Definition get_netmask {Y} (it : item) : io Y str := ask_gateway it NET_MASK dotted_of.
(** gateway.py:262-280 *)
Definition get_macaddress {Y} (it : item) : io Y str := ask_gateway it MAC_ADDRESS mac_of.
(** gateway.py:282-291 *)
Definition get_netinfo {Y} (it : item) : io Y (N * N) :=
  let* ip := get_ip it in
  let* netmask := get_netmask it in
  lift (ipv4_network ip netmask).
(** gateway.py:293-308 *)
Definition get_model {Y} (it : item) : io Y str := ask_gateway it DEVICE_TYPE model_of.
(** gateway.py:310-329 *)
Definition get_firmware {Y} (it : item) : io Y str := ask_gateway it FIRMWARE_VERSION version_of.
(** gateway.py:331-352 *)
Definition get_uptime {Y} (it : item) : io Y Z := ask_gateway it UPTIME uptime_of.
(** gateway.py:354-382 *)
Definition get_datetime {Y} (it : item) : io Y (date * time) := ask_gateway it DATE_TIME datetime_of.
(** gateway.py:405-424 *)
Definition get_kernel_version {Y} (it : item) : io Y str := ask_gateway it KERNEL_VERSION version_of.
(** gateway.py:426-445 *)
Definition get_distribution_version {Y} (it : item) : io Y str := ask_gateway it DISTRIBUTION_VERSION version_of.

(** ** Writing *)

(** The tzinfo of a time: none, one whose utcoffset(None) is None, or one with
    an offset (in microseconds). *)
Inductive tzinfo := NoTz | NoOffset | Offset (us : Z).

(** gateway.py:120-133 _tz_to_own_tz *)
Definition tz_to_own_tz (t : tzinfo) : res str :=
  match t with
  | NoTz | NoOffset => Err ValueError
  | Offset us =>
      let sign := if (0 <=? us)%Z then lit "0" else lit "1" in
      let hours := (Z.abs (td_seconds us) / 3600)%Z in
      mk (sign ++ fmt 3 hours)
  end.

(** gateway.py:162-176 set_time; a datetime.time always has its fields in
    range. *)
Definition set_time {Y} (it : item) (hour minute second : Z) (tz : tzinfo) : io Y unit :=
  let* t := lift (tz_to_own_tz tz) in
  let* h := lift (mk (fmt 2 hour)) in
  let* m := lift (mk (fmt 2 minute)) in
  let* s := lift (mk (fmt 2 second)) in
  send_dimension_writing it (wg_str TIME) [h; m; s; t].

(** gateway.py:204-219 set_date *)
Definition set_date {Y} (it : item) (dt : date) : io Y unit :=
  match dt with
  | (year, month, day) =>
      let* d := lift (mk (fmt 2 day)) in
      let* m := lift (mk (fmt 2 month)) in
      let* a := lift (mk (fmt 1 year)) in
      let* w := lift (if (weekday dt =? 6)%Z then mk (lit "00") else mk (fmt 2 (weekday dt + 1))) in
      send_dimension_writing it (wg_str DATE) [w; d; m; a]
  end.

(** gateway.py:385-403 set_datetime *)
Definition set_datetime {Y} (it : item) (dt : date) (hour minute second : Z) (tz : tzinfo) : io Y unit :=
  match dt with
  | (year, month, day) =>
      let* t := lift (tz_to_own_tz tz) in
      let* h := lift (mk (fmt 2 hour)) in
      let* m := lift (mk (fmt 2 minute)) in
      let* s := lift (mk (fmt 2 second)) in
      let* d := lift (mk (fmt 2 day)) in
      let* mo := lift (mk (fmt 2 month)) in
      let* y := lift (mk (fmt 1 year)) in
      send_dimension_writing it (wg_str DATE_TIME) [h; m; s; t; d; mo; y]
  end.
