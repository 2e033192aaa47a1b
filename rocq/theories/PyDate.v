(** * The parts of datetime and ipaddress that the gateway uses

    CPython 3.11, Lib/datetime.py and Lib/ipaddress.py (the C version of
    datetime computes the same).  These are not functions of the repository;
    they are modelled so that the theorems about the gateway talk about dates
    and networks and not about opaque objects. *)
From Coq Require Import String List NArith ZArith Bool Lia.
From Verif Require Import PyStr.
Import ListNotations.
Open Scope Z_scope.
Open Scope list_scope.

(** ** Dates *)

Definition date := (Z * Z * Z)%type. (* year, month, day *)

(** datetime.py: MINYEAR, MAXYEAR *)
Definition maxyear : Z := 9999.

(** datetime.py: _is_leap *)
Definition is_leap (y : Z) : bool :=
  (y mod 4 =? 0) && (negb (y mod 100 =? 0) || (y mod 400 =? 0)).

(** datetime.py: _DAYS_IN_MONTH and _days_in_month *)
Definition days_in_month (y m : Z) : Z :=
  if (m =? 2) && is_leap y then 29
  else nth (Z.to_nat m) [-1; 31; 28; 31; 30; 31; 30; 31; 31; 30; 31; 30; 31] 0.

(** datetime.py: _days_before_year *)
Definition days_before_year (y : Z) : Z :=
  let y := y - 1 in y * 365 + y / 4 - y / 100 + y / 400.

(** datetime.py: _DAYS_BEFORE_MONTH and _days_before_month *)
Definition days_before_month (y m : Z) : Z :=
  nth (Z.to_nat m) [-1; 0; 31; 59; 90; 120; 151; 181; 212; 243; 273; 304; 334] 0
  + (if (2 <? m) && is_leap y then 1 else 0).

(** datetime.py: _ymd2ord *)
Definition ymd2ord (d : date) : Z :=
  match d with (y, m, dd) => days_before_year y + days_before_month y m + dd end.

(** datetime.py: date.weekday, Monday is 0 *)
Definition weekday (d : date) : Z := (ymd2ord d + 6) mod 7.

(** The C constructors convert every argument to a C int first. *)
Definition c_int_max : Z := 2147483647.
Definition c_ints (l : list Z) : res unit :=
  if forallb (fun z => (- c_int_max - 1 <=? z) && (z <=? c_int_max)) l then Ok tt else Err OverflowError.

(** datetime.py: _check_date_fields *)
Definition date_fields (y m d : Z) : bool :=
  (1 <=? y) && (y <=? maxyear) && (1 <=? m) && (m <=? 12) && (1 <=? d) && (d <=? days_in_month y m).

Definition mk_date (y m d : Z) : res date :=
  do _ <- c_ints [y; m; d];
  if date_fields y m d then Ok (y, m, d) else Err ValueError.

(** ** Times *)

(** A time of day with a fixed offset from UTC, in seconds.  Microseconds are
    zero in everything the gateway reads. *)
Record time := { t_hour : Z; t_minute : Z; t_second : Z; t_offset : Z }.

(** datetime.py: _check_time_fields *)
Definition time_fields (h m s : Z) : bool :=
  (0 <=? h) && (h <=? 23) && (0 <=? m) && (m <=? 59) && (0 <=? s) && (s <=? 59).

Definition mk_time (h m s off : Z) : res time :=
  do _ <- c_ints [h; m; s];
  if time_fields h m s then Ok {| t_hour := h; t_minute := m; t_second := s; t_offset := off |} else Err ValueError.

(** datetime.datetime(y, mo, d, h, m, s, tzinfo=...) *)
Definition mk_datetime (y mo d h m s off : Z) : res (date * time) :=
  do _ <- c_ints [y; mo; d; h; m; s];
  if date_fields y mo d then
    if time_fields h m s then Ok ((y, mo, d), {| t_hour := h; t_minute := m; t_second := s; t_offset := off |})
    else Err ValueError
  else Err ValueError.

(** datetime.timezone(timedelta(hours=h)): strictly less than a day. *)
Definition mk_timezone (hours : Z) : res Z :=
  if Z.abs hours <? 24 then Ok (3600 * hours) else Err ValueError.

(** datetime.timedelta(days, hours, minutes, seconds), in seconds *)
Definition mk_timedelta (d h m s : Z) : res Z :=
  let total := 86400 * d + 3600 * h + 60 * m + s in
  if Z.abs (total / 86400) <=? 999999999 then Ok total else Err OverflowError.

(** [td.seconds] of a timedelta given in microseconds: the remainder of its
    normal form. *)
Definition td_seconds (us : Z) : Z := (us / 1000000) mod 86400.

(** ** Formatting *)

(** f"{n:0kd}" for a natural number *)
Definition pad (k : nat) (s : str) : str := repeat 48%N (k - length s) ++ s.
Definition fmt (k : nat) (n : Z) : str := pad k (dec (Z.to_N n)).

(** ** IPv4 *)

(** ipaddress.py: IPv4Address of dotted text, as a number below 2^32.
    _BaseV4._ip_int_from_string and _parse_octet. *)
Definition parse_octet (s : str) : res N :=
  if str_eqb s [] then Err ValueError
  else if negb (all_digits s) then Err ValueError
  else if (3 <? length s)%nat then Err ValueError
  else if negb (str_eqb s [48%N]) && startswith [48%N] s then Err ValueError
  else if (255 <? dval s)%N then Err ValueError
  else Ok (dval s).

Definition ip_from_string (s : str) : res N :=
  match split c_dot s with
  | [a; b; c; d] =>
      do a <- parse_octet a; do b <- parse_octet b; do c <- parse_octet c; do d <- parse_octet d;
      Ok (((a * 256 + b) * 256 + c) * 256 + d)%N
  | _ => Err ValueError
  end.

(** ipaddress.py: _count_righthand_zero_bits *)
Fixpoint zero_bits_pos (p : positive) : N :=
  match p with xO q => N.succ (zero_bits_pos q) | _ => 0%N end.
Definition zero_bits (n bits : N) : N :=
  match n with N0 => bits | Npos p => N.min bits (zero_bits_pos p) end.

(** ipaddress.py: _prefix_from_ip_int *)
Definition prefix_from_int (n : N) : res N :=
  let tz := zero_bits n 32 in
  let prefixlen := (32 - tz)%N in
  if (N.shiftr n tz =? N.shiftl 1 prefixlen - 1)%N then Ok prefixlen else Err ValueError.

(** ipaddress.py: _prefix_from_ip_string: a netmask, else a host mask. *)
Definition prefix_from_ip_string (s : str) : res N :=
  do n <- ip_from_string s;
  match prefix_from_int n with
  | Ok p => Ok p
  | Err _ => prefix_from_int (N.lxor n (N.ones 32))
  end.

(** ipaddress.py: _ip_int_from_prefix *)
Definition int_from_prefix (p : N) : N := N.lxor (N.ones 32) (N.shiftr (N.ones 32) p).

(** IPv4Network(f"{ip}/{mask}", strict=False): network address and prefix
    length.  [mask] always contains dots here, so the attempt to read it as a
    prefix length fails; the address part prints and parses back. *)
Definition ipv4_network (ip : N) (mask : str) : res (N * N) :=
  do p <- prefix_from_ip_string mask;
  Ok (N.land ip (int_from_prefix p), p).
