(** * The gateway's own data and the energy meters of a house

    docs/original/who13.md and who18.md, on top of the house of SpecHouse.v:
    what the values of a dimension say, and what the calls that ask for them or
    set them stand for. *)
From Coq Require Import String List NArith ZArith Bool Lia.
From Verif Require Import PyStr PyDate PyFloat Tags Messages SpecMsg SpecTag SpecItem Items LightThms2 SpecGateway Energy SpecEnergy SpecHouse.
Import ListNotations.
Open Scope N_scope.
Open Scope list_scope.

(** What can be asked for. *)
Inductive query :=
| QTime | QDate | QIp | QNetmask | QMac | QModel | QFirmware | QUptime | QDatetime | QKernel | QDistribution
| QPower | QTotal | QMonth | QDay | QLevel.
Definition q_who (q : query) : who :=
  match q with QPower | QTotal | QMonth | QDay | QLevel => ENERGY_MANAGEMENT | _ => GATEWAY end.
Definition q_dim (q : query) : str :=
  lit match q with
  | QTime => "0" | QDate => "1" | QIp => "10" | QNetmask => "11" | QMac => "12" | QModel => "15" | QFirmware => "16"
  | QUptime => "19" | QDatetime => "22" | QKernel => "23" | QDistribution => "24"
  | QPower => "113" | QTotal => "51" | QMonth => "53" | QDay => "54" | QLevel => "73"
  end%string.

(** What a call returns; an IP address is a number, an uptime is in seconds. *)
Inductive answer :=
| ANothing | ATime (t : time) | ADate (d : date) | ADatetime (d : date) (t : time) | AIp (n : N) | AText (s : str)
| AUptime (seconds : Z) | AFloat (f : pyfloat) | ANumber (n : N).

(** A text that a number is read from. *)
Definition short_field (s : str) (n : Z) : Prop := field 1 s n /\ (length s <= 4300)%nat.
Definition clock (h m s z : Z) : Prop := (0 <= h <= 23 /\ 0 <= m <= 59 /\ 0 <= s <= 59 /\ Z.abs z < 24)%Z.
Definition the_time (h m s z : Z) : time := {| t_hour := h; t_minute := m; t_second := s; t_offset := (3600 * z)%Z |}.
(** The models without a name of their own are GENERIC. *)
Inductive model_name : str -> str -> Prop :=
| MN_known v : known_model v -> model_name v v
| MN_other v : ~ known_model v -> model_name v (lit "0").

(** [says q vs a]: these values of the dimension mean [a].  Of the time zone only
    the first three characters count (the field is longer than documented after
    set_time, C54). *)
Inductive says : query -> list str -> answer -> Prop :=
| Says_time hs ms ss zs h m s z : clock h m s z -> fixed 2 hs h -> fixed 2 ms m -> fixed 2 ss s -> zone (firstn 3 zs) z ->
    says QTime [hs; ms; ss; zs] (ATime (the_time h m s z))
| Says_date w ds ms ys d m y : calendar_date (y, m, d) -> short_field ds d -> short_field ms m -> short_field ys y ->
    says QDate [w; ds; ms; ys] (ADate (y, m, d))
| Says_ip sa sb sc sd a b c d : number sa a -> number sb b -> number sc c -> number sd d -> octets a b c d ->
    says QIp [sa; sb; sc; sd] (AIp (address a b c d))
| Says_netmask sa sb sc sd a b c d : number sa a -> number sb b -> number sc c -> number sd d ->
    says QNetmask [sa; sb; sc; sd] (AText (dec a ++ [46] ++ dec b ++ [46] ++ dec c ++ [46] ++ dec d))
| Says_mac a b c d e f : says QMac [a; b; c; d; e; f] (AText (a ++ [58] ++ b ++ [58] ++ c ++ [58] ++ d ++ [58] ++ e ++ [58] ++ f))
| Says_model v more n : model_name v n -> says QModel (v :: more) (AText n)
| Says_firmware v r b more : says QFirmware (v :: r :: b :: more) (AText (v ++ [46] ++ r ++ [46] ++ b))
| Says_kernel v r b more : says QKernel (v :: r :: b :: more) (AText (v ++ [46] ++ r ++ [46] ++ b))
| Says_distribution v r b more : says QDistribution (v :: r :: b :: more) (AText (v ++ [46] ++ r ++ [46] ++ b))
| Says_uptime sd sh sm ss d h m s more : number sd d -> number sh h -> number sm m -> number ss s ->
    86400 * d + 3600 * h + 60 * m + s < 86400 * 1000000000 ->
    says QUptime (sd :: sh :: sm :: ss :: more) (AUptime (Z.of_N (86400 * d + 3600 * h + 60 * m + s)))
| Says_datetime hs ms ss zs w ds mos ys h m s z d mo y : calendar_date (y, mo, d) -> clock h m s z ->
    fixed 2 hs h -> fixed 2 ms m -> fixed 2 ss s -> zone zs z -> fixed 2 ds d -> fixed 2 mos mo -> fixed 4 ys y ->
    says QDatetime [hs; ms; ss; zs; w; ds; mos; ys] (ADatetime (y, mo, d) (the_time h m s z))
| Says_float q v more f : In q [QPower; QTotal; QMonth; QDay] -> digits v -> v <> [] -> reads (value_of 0 v) f ->
    says q (v :: more) (AFloat f)
| Says_level v more n : number v n -> says QLevel (v :: more) (ANumber n).

(** ** Calls *)

(** The calls of SpecHouse.v; set_date, set_time (with the UTC offset in
    microseconds), the commands of energy items, and the questions. *)
Inductive gcall :=
| GCall (c : call)
| GSetDate (it : item) (d : date)
| GSetTime (it : item) (h m s us : Z)
| GEnergy (it : item) (c : energy_cmd)
| GAsk (it : item) (q : query).

(** What set_time makes of the offset: a sign, then three digits with the hours
    of [offset.seconds], the seconds since the start of the day it falls in. *)
Definition zone_hours (us : Z) : Z := (us / 1000000 mod 86400 / 3600)%Z.
Inductive zone_sent : Z -> str -> Prop :=
| ZS_plus us t : (0 <= us)%Z -> fixed 3 t (zone_hours us) -> zone_sent us (48 :: t)
| ZS_minus us t : (us < 0)%Z -> fixed 3 t (zone_hours us) -> zone_sent us (49 :: t).

(** The hours that are read back from it: the first two of the three digits. *)
Definition zone_back (us : Z) : Z := ((if (0 <=? us)%Z then 1 else -1) * (zone_hours us / 10))%Z.

(** start_sending_daily_totalizers_hourly swaps day and month (C75). *)
Definition daily (c : energy_cmd) : bool :=
  match c with start_sending_daily_totalizers_hourly _ _ _ _ => true | _ => false end.

Inductive gstands : gcall -> order -> Prop :=
| G_call c o : stands_for c o -> gstands (GCall c) o
| G_date it y m d w ws ds ms ys : calendar_date (y, m, d) -> falls_on (y, m, d) w ->
    fixed 2 ws w -> fixed 2 ds d -> fixed 2 ms m -> numeral (Z.to_N y) ys ->
    gstands (GSetDate it (y, m, d)) (Writing GATEWAY (it_where it) (lit "1") [ws; ds; ms; ys])
| G_time it h m s us hs ms ss zs : (0 <= h <= 23)%Z -> (0 <= m <= 59)%Z -> (0 <= s <= 59)%Z ->
    fixed 2 hs h -> fixed 2 ms m -> fixed 2 ss s -> zone_sent us zs ->
    gstands (GSetTime it h m s us) (Writing GATEWAY (it_where it) (lit "0") [hs; ms; ss; zs])
| G_energy it c what : documented c what -> daily c = false -> gstands (GEnergy it c) (Command ENERGY_MANAGEMENT what (it_where it))
| G_ask it q : gstands (GAsk it q) (Dimension (q_who q) (it_where it) (q_dim q)).

Definition as_answer (r : res unit) : res answer := match r with Ok _ => Ok ANothing | Err e => Err e end.

(** What a call does to the house, what it yields, what it returns or raises,
    and the events. *)
Inductive gdoes (gw : gateway) (h : house) : gcall -> house -> list (str * seen) -> res answer -> list (list N) -> Prop :=
| Gd_call c h' obs r evs : does gw h c h' obs r evs -> gdoes gw h (GCall c) h' obs (as_answer r) evs
| Gd_nobody g o : gstands g o -> existsb (at_whom gw o) h = false -> gdoes gw h g h [] (Err ResponseError) []
| Gd_set g o h' ans evs : (forall c, g <> GCall c) -> gstands g o -> sets o = true -> existsb (at_whom gw o) h = true ->
    obeys gw h o h' ans evs -> gdoes gw h g h' [] (Ok ANothing) evs
| Gd_unknown it q : existsb (aimed gw (q_who q) (it_where it)) h = true ->
    (forall p, In p h -> aimed gw (q_who q) (it_where it) p = true -> p_dims p (q_dim q) = None) ->
    gdoes gw h (GAsk it q) h [] (Err ResponseError) []
| Gd_ask it q h1 p h2 vs a : h = h1 ++ p :: h2 ->
    (forall p', In p' h1 -> aimed gw (q_who q) (it_where it) p' = true -> p_dims p' (q_dim q) = None) ->
    aimed gw (q_who q) (it_where it) p = true -> p_dims p (q_dim q) = Some vs -> says q vs a ->
    gdoes gw h (GAsk it q) h [] (Ok a) [].

Inductive gstory (gw : gateway) : house -> list gcall -> list (list (str * seen) * res answer) -> list (list N) -> house -> Prop :=
| Gs_nil h : gstory gw h [] [] [] h
| Gs_cons h g gs h1 obs r evs log evs' h' : gdoes gw h g h1 obs r evs -> gstory gw h1 gs log evs' h' ->
    gstory gw h (g :: gs) ((obs, r) :: log) (evs ++ evs') h'.

(** ** Houses whose answers can be read *)

Definition gpoint_ok (p : point) : Prop :=
  point_ok p /\ forall q vs, p_who p = q_who q -> p_dims p (q_dim q) = Some vs -> Forall wiretag vs /\ exists a, says q vs a.
Definition ggateway_ok (gw : gateway) : Prop :=
  gateway_ok gw /\ forall what st, wiretag what -> wiretag st -> wiretag (react gw ENERGY_MANAGEMENT what st).
