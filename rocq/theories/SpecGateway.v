(** * What the documentation and the calendar say about the gateway

    docs/original/who13.md, and the Gregorian calendar.  Nothing here mentions
    the functions of PyDate.v or Gateway.v. *)
From Coq Require Import String List NArith ZArith Bool Lia.
From Verif Require Import PyStr SpecMsg SpecTag.
Import ListNotations.
Open Scope Z_scope.
Open Scope list_scope.

(** ** The calendar *)

(** Every fourth year is a leap year, except those divisible by 100 but not by
    400. *)
Definition leap_year (y : Z) : Prop := (4 | y) /\ ((100 | y) -> (400 | y)).

(** [month_days y m n]: month [m] of year [y] has [n] days. *)
Inductive month_days (y : Z) : Z -> Z -> Prop :=
| Thirty m : In m [4; 6; 9; 11] -> month_days y m 30
| ThirtyOne m : In m [1; 3; 5; 7; 8; 10; 12] -> month_days y m 31
| February : ~ leap_year y -> month_days y 2 28
| FebruaryLeap : leap_year y -> month_days y 2 29.

(** A date of the calendar that Python can represent. *)
Definition calendar_date (d : Z * Z * Z) : Prop :=
  match d with (y, m, dd) => 1 <= y <= 9999 /\ exists n, month_days y m n /\ 1 <= dd <= n end.

(** The day after. *)
Inductive next_day : Z * Z * Z -> Z * Z * Z -> Prop :=
| Next_day y m d n : month_days y m n -> 1 <= d < n -> next_day (y, m, d) (y, m, d + 1)
| Next_month y m n : month_days y m n -> m < 12 -> next_day (y, m, n) (y, m + 1, 1)
| Next_year y : next_day (y, 12, 31) (y + 1, 1, 1).

(** The day of the week, Sunday is 0 and Saturday 6: the first of January of
    the year 1 is a Monday in the (proleptic) Gregorian calendar, and the days
    of the week follow each other. *)
Inductive falls_on : Z * Z * Z -> Z -> Prop :=
| Falls_first : falls_on (1, 1, 1) 1
| Falls_next d d' w : falls_on d w -> next_day d d' -> falls_on d' (if w =? 6 then 0 else w + 1).

(** ** Fields *)

(** [field k s n]: [s] is the number [n] written with at least [k] digits. *)
Definition field (k : nat) (s : str) (n : Z) : Prop :=
  digits s /\ (k <= length s)%nat /\ s <> [] /\ n = Z.of_N (value_of 0 s).
(** ... with exactly [k] digits. *)
Definition fixed (k : nat) (s : str) (n : Z) : Prop := field k s n /\ length s = k.

(** The time zone field: 0 for positive and 1 for negative, then two digits of
    hours. *)
Inductive zone : str -> Z -> Prop :=
| Zone_plus s h : fixed 2 s h -> zone (48%N :: s) h
| Zone_minus s h : fixed 2 s h -> zone (49%N :: s) (- h).

(** The octets of an address and the number they stand for. *)
Definition octets (a b c d : N) : Prop := (a <= 255 /\ b <= 255 /\ c <= 255 /\ d <= 255)%N.
Definition address (a b c d : N) : N := (a * 2 ^ 24 + b * 2 ^ 16 + c * 2 ^ 8 + d)%N.

(** [netmask n p]: [n] is [p] ones followed by [32 - p] zeros; [hostmask] the
    other way round. *)
Definition netmask (n p : N) : Prop := (p <= 32 /\ n = 2 ^ 32 - 2 ^ (32 - p))%N.
Definition hostmask (n p : N) : Prop := (p <= 32 /\ n = 2 ^ (32 - p) - 1)%N.

(** Two upper case hexadecimal digits. *)
Definition hexdigit (n : N) : N := if (n <? 10)%N then (48 + n)%N else (55 + n)%N.
Definition hex2 (n : N) : str := [hexdigit (n / 16); hexdigit (n mod 16)]%N.

(** The gateway models the library knows by name (the others are reported as
    GENERIC, "0"). *)
Inductive known_model : str -> Prop :=
| GM_generic : known_model (lit "0")
| GM_mhserver : known_model (lit "2")
| GM_mh200 : known_model (lit "4")
| GM_f452 : known_model (lit "6")
| GM_f452v : known_model (lit "7")
| GM_mhserver2 : known_model (lit "11")
| GM_h4684 : known_model (lit "12")
| GM_hl4684 : known_model (lit "23")
| GM_mh202 : known_model (lit "200").
