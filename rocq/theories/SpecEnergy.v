(** * What the documentation says about energy items

    docs/original/who18.md, and the meaning of a float.  Of the model only the
    names of the methods are used. *)
From Coq Require Import String List NArith ZArith Bool Lia.
From Verif Require Import PyStr PyDate PyFloat Tags SpecMsg SpecTag Energy.
Import ListNotations.
Open Scope N_scope.
Open Scope list_scope.

(** Addresses: 1N, 5N and 7N#0 (possibly with more parameters). *)
Inductive energy_class : str -> type_energy -> Prop :=
| EC_stop_go n : digits n -> n <> [] -> energy_class (49 :: n) STOP_GO
| EC_meter n : digits n -> n <> [] -> energy_class (53 :: n) POWER_METER
| EC_actuator n ps : digits n -> n <> [] -> Forall digits ps -> energy_class (with_params (55 :: n) (lit "0" :: ps)) ACTUATOR.

(** [chosen arg now n]: the number used for an optional argument. *)
Inductive chosen : option Z -> Z -> N -> Prop :=
| Given n now : chosen (Some (Z.of_N n)) now n
| Default n : chosen None (Z.of_N n) n.

(** [t] is the usual numeral of [n], short enough for Python to convert. *)
Definition shown (n : N) (t : str) : Prop := numeral n t /\ N.of_nat (length t) <= 4300.

(** The parts of a date (year, month, day). *)
Definition the_year (d : date) : Z := fst (fst d).
Definition the_month (d : date) : Z := snd (fst d).
Definition the_day (d : date) : Z := snd d.

(** The WHAT documented for each command. *)
Inductive documented : energy_cmd -> str -> Prop :=
| Doc_daily day month n1 n2 d m ds ms :
    chosen day (the_day n1) d -> chosen month (the_month n2) m -> shown d ds -> shown m ms ->
    documented (start_sending_daily_totalizers_hourly day month n1 n2) (lit "57#" ++ ms ++ lit "#" ++ ds)
| Doc_average month now m ms : chosen month (the_month now) m -> shown m ms ->
    documented (start_sending_monthly_average_hourly month now) (lit "58#" ++ ms)
| Doc_year month now m ms : chosen month (the_month now) m -> shown m ms ->
    documented (start_sending_monthly_totalizers_current_year month now) (lit "59#" ++ ms)
| Doc_last_year month now m ms : chosen month (the_month now) m -> shown m ms ->
    documented (start_sending_monthly_totalizers_last_year month now) (lit "510#" ++ ms)
| Doc_enable : documented enable_actuator (lit "71")
| Doc_force n t : shown n t -> documented (force_actuator_on (Some (Z.of_N n))) (lit "73#" ++ t)
| Doc_force_default : documented (force_actuator_on None) (lit "73")
| Doc_end_force : documented force_actuator_off (lit "74")
| Doc_reset n t : shown n t -> documented (reset_totalizers (Z.of_N n)) (lit "75#" ++ t)
| Doc_auto_on : documented enable_automatic_reset (lit "26")
| Doc_auto_off : documented disable_automatic_reset (lit "27").

(** ** Floats *)

(** The natural numbers that a binary64 float can be (without the bound on the
    exponent), and the one nearest to [n]; of two equally near ones the one
    with an even significand. *)
Definition representable (x : N) : Prop := exists m e, m < 2 ^ 53 /\ x = m * 2 ^ e.
Definition even_representable (x : N) : Prop := exists m e, m < 2 ^ 53 /\ N.even m = true /\ x = m * 2 ^ e.
Definition dist (a b : N) : N := (a - b) + (b - a).
Definition nearest (n x : N) : Prop :=
  representable x /\ forall y, representable y -> dist n x <= dist n y /\ (dist n x = dist n y -> y = x \/ even_representable x).

(** [reads n f]: the float [f] stands for the number [n]. *)
Definition reads (n : N) (f : pyfloat) : Prop :=
  match f with
  | Fin x => nearest n x /\ x < 2 ^ 1024
  | Inf => exists x, nearest n x /\ 2 ^ 1024 <= x
  end.

(** ** The status of a Stop&Go device *)

(** The dimension of bit [i] (0 is b1, 12 is b13). *)
Definition bit_dim (i : N) : str := dec (251 + i).

(** [field_after i us b]: after the updates [us], given by dimension and value,
    field [i] is [b]. *)
Inductive field_after (i : N) : list (str * N) -> option bool -> Prop :=
| FA_none : field_after i [] None
| FA_mask us n : field_after i (us ++ [(lit "250", n)]) (Some (N.testbit n i))
| FA_own us n : field_after i (us ++ [(bit_dim i, n)]) (Some (negb (n =? 0)))
| FA_other us j n b : j <> i -> j < 13 -> field_after i us b -> field_after i (us ++ [(bit_dim j, n)]) b.

Definition known_dim (d : str) : Prop := d = lit "250" \/ exists j, j < 13 /\ d = bit_dim j.

(** A status as text: thirteen characters 0 or 1. *)
Definition bit_char (b : bool) : N := if b then 49 else 48.
