(** * Properties C53 to C56 and C72 to C74: the gateway item *)
From Coq Require Import String List NArith ZArith Bool Lia.
From Verif Require Import PyStr PyDate Tags Messages SpecMsg SpecTag MessageThms3 IO Client SpecItem Items HandshakeThms ItemThms LightThms2 Gateway SpecGateway CalendarThms GatewayThms GatewayThms2.
Import ListNotations.
Open Scope N_scope.
Open Scope list_scope.

Definition conn : client := {| cl_session := Command; cl_proto := true |}.
Lemma gateway_ready : ready (gateway conn) /\ placed (gateway conn).
Proof. split; [split; [discriminate|reflexivity]|constructor]. Qed.

Lemma asked {A} it w (decode : list str -> res A) vs s rest r :
  ready it -> placed it -> answers vs s rest -> decode vs = r ->
  got (Y:=Empty_set) (ask_gateway it w decode s) (frame_dimreq (it_who it) (it_where it) (wg_str w)) rest r.
Proof.
  intros Hr Hp (wh & b & d & rs & Hrs & ->) <-.
  destruct (ask_ok (Y:=Empty_set) it w decode wh b d vs rs rest Hr Hp Hrs) as (es & E & E1).
  rewrite E. split; [exact E1|]. split; reflexivity.
Qed.

Lemma answered_sents {Y} frame s (x : list (ev Y) * script * res unit) : answered frame s x -> sents (evs_of x) = [frame].
Proof. intros []; reflexivity. Qed.

(** ** C53 Dates *)

(** set_date writes one frame with four fields; the gateway's answer with these
    fields is read back as the same date. *)
Theorem C53_date_round_trip : forall it dt,
  ready it -> placed it -> calendar_date dt ->
  exists vs,
    (forall s : script, answered (frame_dimwri (it_who it) (it_where it) (lit "1") vs) s
       (set_date it dt s : list (ev Empty_set) * script * res unit)) /\
    (forall s rest, answers vs s rest ->
       got (Y:=Empty_set) (get_date it s) (frame_dimreq (it_who it) (it_where it) (lit "1")) rest (Ok dt)).
Proof.
  intros it dt Hr Hp Hd. exists (sent_date dt). split.
  - intros s. apply set_date_answered; assumption.
  - intros s rest Ha. apply (asked it DATE date_of (sent_date dt)); try assumption. apply date_round_trip, Hd.
Qed.
Print Assumptions C53_date_round_trip.

(** The fields are the day of the week (Sunday 00), day and month with two
    digits and the year (four digits from the year 1000 on). *)
Theorem C53_date_fields : forall it y m d (s : script),
  ready it -> placed it -> calendar_date (y, m, d) ->
  exists w ws ds ms ys,
    sents (evs_of (set_date it (y, m, d) s : list (ev Empty_set) * script * res unit)) =
      [frame_dimwri (it_who it) (it_where it) (lit "1") [ws; ds; ms; ys]] /\
    falls_on (y, m, d) w /\ fixed 2 ws w /\ fixed 2 ds d /\ fixed 2 ms m /\ field 1 ys y /\ ((1000 <= y)%Z -> fixed 4 ys y).
Proof.
  intros it y m d s Hr Hp Hd. destruct (sent_date_documented y m d Hd) as (w & ws & ds & ms & ys & E & H).
  exists w, ws, ds, ms, ys. split; [|exact H].
  pose proof (set_date_answered (Y:=Empty_set) it (y, m, d) s Hr Hp) as A. rewrite E in A. exact (answered_sents _ _ _ A).
Qed.
Print Assumptions C53_date_fields.

(** The day of the week is determined. *)
Theorem C53_weekday_unique : forall dt w w', calendar_date dt -> falls_on dt w -> falls_on dt w' -> w = w'.
Proof. intros dt w w' H H1 H2. apply weekday_true in H1, H2; try assumption. congruence. Qed.
Print Assumptions C53_weekday_unique.

(** Every documented answer is read as the date it stands for, and whatever is
    read is a date of the calendar. *)
Theorem C53_date_read : forall it y m d w ds ms ys (s rest : script),
  ready it -> placed it -> calendar_date (y, m, d) -> fixed 2 ds d -> fixed 2 ms m -> fixed 4 ys y ->
  answers [w; ds; ms; ys] s rest ->
  got (Y:=Empty_set) (get_date it s) (frame_dimreq (it_who it) (it_where it) (lit "1")) rest (Ok (y, m, d)).
Proof.
  intros it y m d w ds ms ys s rest Hr Hp Hd F1 F2 F3 Ha. apply (asked it DATE date_of [w; ds; ms; ys]); try assumption.
  assert (L : forall k x n, (0 < k)%nat -> fixed k x n -> field 1 x n).
  { intros k x n Hk [(A & B & C & D) E]. repeat split; try assumption. lia. }
  apply date_read; try assumption; try (eapply L; [|eassumption]; lia); rewrite (proj2 F1) || rewrite (proj2 F2) || rewrite (proj2 F3); lia.
Qed.
Print Assumptions C53_date_read.

Theorem C53_date_valid : forall it (s : script) es rest dt,
  (get_date it s : list (ev Empty_set) * script * res date) = (es, rest, Ok dt) -> calendar_date dt.
Proof.
  intros it s es rest dt. unfold get_date, ask_gateway, andthen.
  destruct (single_dim_req it (wg_str DATE) s) as [[es1 s1] [m|e]]; [|discriminate]. unfold lift.
  intros [= _ _ H]. destruct (get_values m) as [vs|]; [|discriminate]. cbn [bind] in H. exact (date_read_valid vs dt H).
Qed.
Print Assumptions C53_date_valid.

Example C53_ex :
  (set_date (gateway conn) (2024, 2, 29)%Z [Some MAck] : list (ev Empty_set) * script * res unit) =
    ([Sent (lit "*#13**#1*04*29*02*2024##"); Got MAck], [], Ok tt) /\
  (get_date (gateway conn) [Some (MDimRes GATEWAY [] (lit "1") [lit "04"; lit "29"; lit "02"; lit "2024"]); Some MAck] : list (ev Empty_set) * script * res date) =
    ([Sent (lit "*#13**1##"); Got (MDimRes GATEWAY [] (lit "1") [lit "04"; lit "29"; lit "02"; lit "2024"]); Got MAck], [], Ok (2024, 2, 29)%Z) /\
  (get_date (gateway conn) [Some (MDimRes GATEWAY [] (lit "1") [lit "04"; lit "29"; lit "02"; lit "2023"]); Some MAck] : list (ev Empty_set) * script * res date) =
    ([Sent (lit "*#13**1##"); Got (MDimRes GATEWAY [] (lit "1") [lit "04"; lit "29"; lit "02"; lit "2023"]); Got MAck], [], Err ValueError) /\
  calendar_date (2024, 2, 29)%Z.
Proof.
  split; [vm_compute; reflexivity|]. split; [vm_compute; reflexivity|]. split; [vm_compute; reflexivity|].
  apply date_fields_spec. reflexivity.
Qed.

(** ** C54 Time zones *)

(** Full statement: for every time of day and every offset, what set_time sends
    is read back by get_time as the same time with the same offset.  The time
    of day is; the offset, for every offset, becomes [read_back us]. *)
Theorem C54_time_partial : forall it h m x us,
  ready it -> placed it -> (0 <= h <= 23)%Z -> (0 <= m <= 59)%Z -> (0 <= x <= 59)%Z ->
  exists vs,
    (forall s : script, answered (frame_dimwri (it_who it) (it_where it) (lit "0") vs) s
       (set_time it h m x (Offset us) s : list (ev Empty_set) * script * res unit)) /\
    (forall s rest, answers vs s rest ->
       got (Y:=Empty_set) (get_time it s) (frame_dimreq (it_who it) (it_where it) (lit "0")) rest
         (Ok {| t_hour := h; t_minute := m; t_second := x; t_offset := read_back us |})).
Proof.
  intros it h m x us Hr Hp H1 H2 H3. exists [fmt 2 h; fmt 2 m; fmt 2 x; sent_zone us]. split.
  - intros s. apply set_time_answered; assumption.
  - intros s rest Ha. eapply (asked it TIME time_of); try eassumption. apply time_round_trip; assumption.
Qed.
Print Assumptions C54_time_partial.

(** Refuted: the offset (in microseconds, less than a day) survives for UTC and
    for UTC-2 and for no other offset. *)
Theorem C54_offset_refuted : forall us,
  (Z.abs us < 86400 * 1000000)%Z ->
  ((1000000 * read_back us = us)%Z <-> us = 0%Z \/ us = (- 7200 * 1000000)%Z).
Proof. exact zone_preserved. Qed.
Print Assumptions C54_offset_refuted.

(** The zone field that is sent is never the documented one of three digits. *)
Theorem C54_zone_refuted : forall it h m x us (s : script),
  ready it -> placed it ->
  exists vs z, sents (evs_of (set_time it h m x (Offset us) s : list (ev Empty_set) * script * res unit)) =
    [frame_dimwri (it_who it) (it_where it) (lit "0") (vs ++ [z])] /\ forall k, ~ zone z k.
Proof.
  intros it h m x us s Hr Hp. exists [fmt 2 h; fmt 2 m; fmt 2 x], (sent_zone us). split.
  - pose proof (set_time_answered (Y:=Empty_set) it h m x us s Hr Hp) as A. exact (answered_sents _ _ _ A).
  - apply sent_zone_undocumented.
Qed.
Print Assumptions C54_zone_refuted.

(** Documented answers are read as documented. *)
Theorem C54_time_read : forall it h m x z hs ms ss zs (s rest : script),
  ready it -> placed it ->
  (0 <= h <= 23)%Z -> (0 <= m <= 59)%Z -> (0 <= x <= 59)%Z -> (Z.abs z < 24)%Z ->
  fixed 2 hs h -> fixed 2 ms m -> fixed 2 ss x -> zone zs z ->
  answers [hs; ms; ss; zs] s rest ->
  got (Y:=Empty_set) (get_time it s) (frame_dimreq (it_who it) (it_where it) (lit "0")) rest
    (Ok {| t_hour := h; t_minute := m; t_second := x; t_offset := (3600 * z)%Z |}).
Proof.
  intros it h m x z hs ms ss zs s rest Hr Hp B1 B2 B3 B4 F1 F2 F3 F4 Ha.
  eapply (asked it TIME time_of); try eassumption. apply time_read; assumption.
Qed.
Print Assumptions C54_time_read.

(** Whatever is read is a time of day with a whole number of hours less than a
    day as its offset; anything else raises. *)
Theorem C54_time_valid : forall it (s : script) es rest t,
  (get_time it s : list (ev Empty_set) * script * res time) = (es, rest, Ok t) ->
  (0 <= t_hour t <= 23 /\ 0 <= t_minute t <= 59 /\ 0 <= t_second t <= 59)%Z /\
  exists z, (t_offset t = 3600 * z /\ Z.abs z < 24)%Z.
Proof.
  intros it s es rest t. unfold get_time, ask_gateway, andthen.
  destruct (single_dim_req it (wg_str TIME) s) as [[es1 s1] [m|e]]; [|discriminate]. unfold lift.
  intros [= _ _ H]. destruct (get_values m) as [vs|]; [|discriminate]. cbn [bind] in H. exact (time_read_valid vs t H).
Qed.
Print Assumptions C54_time_valid.

(** A time without zone is refused before anything is written. *)
Theorem C54_no_zone : forall it h m x tz (s : script),
  tz = NoTz \/ tz = NoOffset ->
  (set_time it h m x tz s : list (ev Empty_set) * script * res unit) = ([], s, Err ValueError).
Proof. exact (@set_time_no_zone Empty_set). Qed.
Print Assumptions C54_no_zone.

Example C54_ex :
  (set_time (gateway conn) 14 30 25 (Offset 3600000000) [Some MAck] : list (ev Empty_set) * script * res unit) =
    ([Sent (lit "*#13**#0*14*30*25*0001##"); Got MAck], [], Ok tt) /\
  res_of (get_time (gateway conn) [Some (MDimRes GATEWAY [] (lit "0") [lit "14"; lit "30"; lit "25"; lit "0001"]); Some MAck] : list (ev Empty_set) * script * res time) =
    Ok {| t_hour := 14; t_minute := 30; t_second := 25; t_offset := 0 |} /\
  res_of (get_time (gateway conn) [Some (MDimRes GATEWAY [] (lit "0") [lit "14"; lit "30"; lit "25"; lit "102"]); Some MAck] : list (ev Empty_set) * script * res time) =
    Ok {| t_hour := 14; t_minute := 30; t_second := 25; t_offset := -7200 |} /\
  zone (lit "102") (-2).
Proof.
  split; [vm_compute; reflexivity|]. split; [vm_compute; reflexivity|]. split; [vm_compute; reflexivity|].
  change (lit "102") with (49 :: lit "02"). apply (Zone_minus _ 2). split; [|reflexivity].
  split; [apply digits_all; reflexivity|]. split; [cbn; lia|]. split; [discriminate|reflexivity].
Qed.

(** ** C55 Date and time *)

(** Refuted for every date-time: what set_datetime sends has no day of the
    week, and reading it back raises IndexError. *)
Theorem C55_datetime_refuted : forall it y mo d h m x us,
  ready it -> placed it -> calendar_date (y, mo, d) -> (0 <= h <= 23)%Z -> (0 <= m <= 59)%Z -> (0 <= x <= 59)%Z ->
  exists vs,
    (forall s : script, answered (frame_dimwri (it_who it) (it_where it) (lit "22") vs) s
       (set_datetime it (y, mo, d) h m x (Offset us) s : list (ev Empty_set) * script * res unit)) /\
    length vs = 7%nat /\
    (forall s rest, answers vs s rest ->
       got (Y:=Empty_set) (get_datetime it s) (frame_dimreq (it_who it) (it_where it) (lit "22")) rest (Err IndexError)).
Proof.
  intros it y mo d h m x us Hr Hp Hd H1 H2 H3. exists (sent_datetime (y, mo, d) h m x us). split; [|split].
  - intros s. apply set_datetime_answered; assumption.
  - reflexivity.
  - intros s rest Ha. eapply (asked it DATE_TIME datetime_of); try eassumption.
    pose proof (calendar_bounds _ _ _ Hd). apply datetime_unreadable; lia.
Qed.
Print Assumptions C55_datetime_refuted.

(** Documented answers are read as documented. *)
Theorem C55_datetime_read : forall it y mo d h m x z w hs ms ss zs ds mos ys (s rest : script),
  ready it -> placed it ->
  calendar_date (y, mo, d) -> (0 <= h <= 23)%Z -> (0 <= m <= 59)%Z -> (0 <= x <= 59)%Z -> (Z.abs z < 24)%Z ->
  fixed 2 hs h -> fixed 2 ms m -> fixed 2 ss x -> zone zs z -> fixed 2 ds d -> fixed 2 mos mo -> fixed 4 ys y ->
  answers [hs; ms; ss; zs; w; ds; mos; ys] s rest ->
  got (Y:=Empty_set) (get_datetime it s) (frame_dimreq (it_who it) (it_where it) (lit "22")) rest
    (Ok ((y, mo, d), {| t_hour := h; t_minute := m; t_second := x; t_offset := (3600 * z)%Z |})).
Proof.
  intros it y mo d h m x z w hs ms ss zs ds mos ys s rest Hr Hp Hd B1 B2 B3 B4 F1 F2 F3 F4 F5 F6 F7 Ha.
  eapply (asked it DATE_TIME datetime_of); try eassumption. apply datetime_read; assumption.
Qed.
Print Assumptions C55_datetime_read.

Theorem C55_datetime_valid : forall it (s : script) es rest d t,
  (get_datetime it s : list (ev Empty_set) * script * res (date * time)) = (es, rest, Ok (d, t)) ->
  calendar_date d /\ (0 <= t_hour t <= 23 /\ 0 <= t_minute t <= 59 /\ 0 <= t_second t <= 59)%Z /\
  exists z, (t_offset t = 3600 * z /\ Z.abs z < 24)%Z.
Proof.
  intros it s es rest d t. unfold get_datetime, ask_gateway, andthen.
  destruct (single_dim_req it (wg_str DATE_TIME) s) as [[es1 s1] [m|e]]; [|discriminate]. unfold lift.
  intros [= _ _ H]. destruct (get_values m) as [vs|]; [|discriminate]. cbn [bind] in H. exact (datetime_read_valid vs d t H).
Qed.
Print Assumptions C55_datetime_valid.

Example C55_ex :
  (set_datetime (gateway conn) (2024, 2, 29)%Z 14 30 25 (Offset 0) [Some MAck] : list (ev Empty_set) * script * res unit) =
    ([Sent (lit "*#13**#22*14*30*25*0000*29*02*2024##"); Got MAck], [], Ok tt) /\
  res_of (get_datetime (gateway conn) [Some (MDimRes GATEWAY [] (lit "22")
    [lit "14"; lit "30"; lit "25"; lit "0000"; lit "29"; lit "02"; lit "2024"]); Some MAck] : list (ev Empty_set) * script * res (date * time)) = Err IndexError /\
  res_of (get_datetime (gateway conn) [Some (MDimRes GATEWAY [] (lit "22")
    [lit "14"; lit "30"; lit "25"; lit "001"; lit "04"; lit "29"; lit "02"; lit "2024"]); Some MAck] : list (ev Empty_set) * script * res (date * time)) =
    Ok ((2024, 2, 29)%Z, {| t_hour := 14; t_minute := 30; t_second := 25; t_offset := 3600 |}).
Proof. repeat (split; [vm_compute; reflexivity|]). vm_compute. reflexivity. Qed.

(** ** C56 Addresses *)

Theorem C56_ip : forall it sa sb sc sd a b c d (s rest : script),
  ready it -> placed it -> number sa a -> number sb b -> number sc c -> number sd d ->
  answers [sa; sb; sc; sd] s rest ->
  (octets a b c d -> got (Y:=Empty_set) (get_ip it s) (frame_dimreq (it_who it) (it_where it) (lit "10")) rest (Ok (address a b c d))) /\
  (~ octets a b c d -> got (Y:=Empty_set) (get_ip it s) (frame_dimreq (it_who it) (it_where it) (lit "10")) rest (Err ValueError)).
Proof.
  intros it sa sb sc sd a b c d s rest Hr Hp Ha Hb Hc Hd Hs.
  destruct (ip_read sa sb sc sd a b c d Ha Hb Hc Hd) as [I1 I2].
  split; intros Ho; eapply (asked it IP_ADDRESS ip_of); try eassumption; auto.
Qed.
Print Assumptions C56_ip.

Theorem C56_netmask : forall it vs (s rest : script),
  ready it -> placed it -> Forall tagtext vs -> answers vs s rest ->
  (exists a b c d, four vs a b c d /\
     got (Y:=Empty_set) (get_netmask it s) (frame_dimreq (it_who it) (it_where it) (lit "11")) rest (Ok (join 46 [dec a; dec b; dec c; dec d]))) \/
  ((forall a b c d, ~ four vs a b c d) /\
     got (Y:=Empty_set) (get_netmask it s) (frame_dimreq (it_who it) (it_where it) (lit "11")) rest (Err ValueError)).
Proof.
  intros it vs s rest Hr Hp Ht Hs.
  destruct (dotted_complete vs Ht) as [(a & b & c & d & H & E)|[H E]].
  - left. exists a, b, c, d. split; [exact H|]. eapply (asked it NET_MASK dotted_of); eassumption.
  - right. split; [exact H|]. eapply (asked it NET_MASK dotted_of); eassumption.
Qed.
Print Assumptions C56_netmask.

(** get_netinfo asks for the address and the mask; the result is the network of
    that prefix length containing the address, for every mask that is one (or,
    failing that, a host mask), and ValueError for anything else. *)
Theorem C56_netinfo : forall it vi vm a b c d ma mb mc md p (s1 s2 rest : script),
  ready it -> placed it -> four vi a b c d -> four vm ma mb mc md -> octets a b c d -> octets ma mb mc md ->
  answers vi s1 s2 -> answers vm s2 rest ->
  let run := get_netinfo it s1 : list (ev Empty_set) * script * res (N * N) in
  let ip := address a b c d in
  let m := address ma mb mc md in
  sents (evs_of run) = [frame_dimreq (it_who it) (it_where it) (lit "10"); frame_dimreq (it_who it) (it_where it) (lit "11")] /\
  rest_of run = rest /\
  (res_of run = Ok (ip / 2 ^ (32 - p) * 2 ^ (32 - p), p) <-> netmask m p \/ (hostmask m p /\ forall q, ~ netmask m q)) /\
  ((forall q, ~ netmask m q /\ ~ hostmask m q) -> res_of run = Err ValueError).
Proof.
  intros it vi vm a b c d ma mb mc md p s1 s2 rest Hr Hp Hi Hm Oi Om A1 A2.
  destruct Hi as (sa & sb & sc & sd & -> & Na & Nb & Nc & Nd). destruct Hm as (ta & tb & tc & td & -> & Ma & Mb & Mc & Md).
  destruct A1 as (w1 & b1 & d1 & rs1 & F1 & ->). destruct A2 as (w2 & b2 & d2 & rs2 & F2 & ->).
  destruct (ask_ok (Y:=Empty_set) it IP_ADDRESS ip_of w1 b1 d1 [sa; sb; sc; sd] rs1
    (Some (MDimRes w2 b2 d2 [ta; tb; tc; td]) :: map Some rs2 ++ Some MAck :: rest) Hr Hp F1) as (es1 & E1 & S1).
  destruct (ask_ok (Y:=Empty_set) it NET_MASK dotted_of w2 b2 d2 [ta; tb; tc; td] rs2 rest Hr Hp F2) as (es2 & E2 & S2).
  rewrite (proj1 (ip_read sa sb sc sd a b c d Na Nb Nc Nd) Oi) in E1.
  rewrite (netmask_read ta tb tc td ma mb mc md Ma Mb Mc Md) in E2.
  cbv zeta. unfold get_netinfo, get_ip, get_netmask.
  rewrite (andthen_ok _ _ _ _ _ _ E1), (andthen_ok _ _ _ _ _ _ E2). unfold lift.
  cbn [pre evs_of rest_of res_of fst snd]. rewrite !sents_app, S1, S2.
  pose proof (network_read (address a b c d) ma mb mc md p (address_bound _ _ _ _ Oi) Om) as [N1 N2].
  split; [reflexivity|]. split; [reflexivity|]. split; [exact N1|exact N2].
Qed.
Print Assumptions C56_netinfo.

Example C56_ex :
  res_of (get_netinfo (gateway conn) [Some (MDimRes GATEWAY [] (lit "10") [lit "192"; lit "168"; lit "010"; lit "77"]); Some MAck;
    Some (MDimRes GATEWAY [] (lit "11") [lit "255"; lit "255"; lit "255"; lit "0"]); Some MAck] : list (ev Empty_set) * script * res (N * N)) =
    Ok (address 192 168 10 0, 24) /\
  res_of (get_netinfo (gateway conn) [Some (MDimRes GATEWAY [] (lit "10") [lit "192"; lit "168"; lit "10"; lit "77"]); Some MAck;
    Some (MDimRes GATEWAY [] (lit "11") [lit "255"; lit "0"; lit "255"; lit "0"]); Some MAck] : list (ev Empty_set) * script * res (N * N)) =
    Err ValueError /\
  netmask (address 255 255 255 0) 24 /\ number (lit "010") 10.
Proof.
  split; [vm_compute; reflexivity|]. split; [vm_compute; reflexivity|].
  split; [split; [lia|reflexivity]|]. split; [apply digits_all; reflexivity|].
  split; [discriminate|]. split; [reflexivity|]. cbn. lia.
Qed.

(** ** C72 The MAC address *)

(** Refuted: the numbers are transmitted in decimal and joined as they are, so
    the result is never the MAC address they stand for. *)
Theorem C72_mac_refuted : forall it a b c d e f (s rest : script),
  ready it -> placed it -> a <= 255 -> b <= 255 -> c <= 255 -> d <= 255 -> e <= 255 -> f <= 255 ->
  answers [dec a; dec b; dec c; dec d; dec e; dec f] s rest ->
  exists r, got (Y:=Empty_set) (get_macaddress it s) (frame_dimreq (it_who it) (it_where it) (lit "12")) rest (Ok r) /\
    r = join 58 [dec a; dec b; dec c; dec d; dec e; dec f] /\
    r <> join 58 [hex2 a; hex2 b; hex2 c; hex2 d; hex2 e; hex2 f].
Proof.
  intros it a b c d e f s rest Hr Hp Ha Hb Hc Hd He Hf Hs. eexists. split; [|split].
  - eapply (asked it MAC_ADDRESS mac_of); try eassumption. apply mac_read.
  - reflexivity.
  - intros E. apply (mac_wrong a b c d e f Ha Hb Hc Hd He Hf). rewrite mac_read. congruence.
Qed.
Print Assumptions C72_mac_refuted.

(** Anything but six values is refused. *)
Theorem C72_mac_count : forall it vs (s rest : script),
  ready it -> placed it -> length vs <> 6%nat -> answers vs s rest ->
  got (Y:=Empty_set) (get_macaddress it s) (frame_dimreq (it_who it) (it_where it) (lit "12")) rest (Err ValueError).
Proof.
  intros it vs s rest Hr Hp Hl Hs. eapply (asked it MAC_ADDRESS mac_of); try eassumption.
  destruct vs as [|? [|? [|? [|? [|? [|? [|]]]]]]]; try reflexivity. cbn in Hl. congruence.
Qed.
Print Assumptions C72_mac_count.

Example C72_ex :
  res_of (get_macaddress (gateway conn) [Some (MDimRes GATEWAY [] (lit "12") [lit "0"; lit "16"; lit "255"; lit "200"; lit "16"; lit "1"]); Some MAck]
    : list (ev Empty_set) * script * res str) = Ok (lit "0:16:255:200:16:1") /\
  join 58 [hex2 0; hex2 16; hex2 255; hex2 200; hex2 16; hex2 1] = lit "00:10:FF:C8:10:01".
Proof. split; vm_compute; reflexivity. Qed.

(** ** C73 The device type *)

(** An unknown model is reported as generic and never fails. *)
Theorem C73_model : forall it v more (s rest : script),
  ready it -> placed it -> answers (v :: more) s rest ->
  (known_model v -> got (Y:=Empty_set) (get_model it s) (frame_dimreq (it_who it) (it_where it) (lit "15")) rest (Ok v)) /\
  (~ known_model v -> got (Y:=Empty_set) (get_model it s) (frame_dimreq (it_who it) (it_where it) (lit "15")) rest (Ok (lit "0"))).
Proof.
  intros it v more s rest Hr Hp Hs. destruct (model_read v more) as [M1 M2].
  split; intros H; eapply (asked it DEVICE_TYPE model_of); try eassumption; auto.
Qed.
Print Assumptions C73_model.

(** Refuted: of the documented types 6, 7, 11 and 13 the last is not known. *)
Theorem C73_documented_refuted : forall it more (s rest : script),
  ready it -> placed it ->
  (forall v, In v [lit "6"; lit "7"; lit "11"] -> answers (v :: more) s rest ->
     got (Y:=Empty_set) (get_model it s) (frame_dimreq (it_who it) (it_where it) (lit "15")) rest (Ok v)) /\
  (answers (lit "13" :: more) s rest ->
     got (Y:=Empty_set) (get_model it s) (frame_dimreq (it_who it) (it_where it) (lit "15")) rest (Ok (lit "0"))).
Proof.
  intros it more s rest Hr Hp. split.
  - intros v Hv Hs. apply (C73_model it v more s rest Hr Hp Hs). repeat (destruct Hv as [<-|Hv]; [constructor|]). contradiction.
  - intros Hs. apply (C73_model it (lit "13") more s rest Hr Hp Hs). intros H. inversion H.
Qed.
Print Assumptions C73_documented_refuted.

Example C73_ex :
  res_of (get_model (gateway conn) [Some (MDimRes GATEWAY [] (lit "15") [lit "200"]); Some MAck] : list (ev Empty_set) * script * res str) = Ok (lit "200") /\
  res_of (get_model (gateway conn) [Some (MDimRes GATEWAY [] (lit "15") [lit "13"]); Some MAck] : list (ev Empty_set) * script * res str) = Ok (lit "0").
Proof. split; reflexivity. Qed.

(** ** C74 Versions and uptime *)

Inductive version_req := Firmware | Kernel | Distribution.
Definition run_version (it : item) (q : version_req) : io Empty_set str :=
  match q with Firmware => get_firmware it | Kernel => get_kernel_version it | Distribution => get_distribution_version it end.
Definition version_dim (q : version_req) : list N :=
  match q with Firmware => lit "16" | Kernel => lit "23" | Distribution => lit "24" end.

Theorem C74_versions : forall it q (s rest : script),
  ready it -> placed it ->
  (forall v r b more, answers (v :: r :: b :: more) s rest ->
     got (Y:=Empty_set) (run_version it q s) (frame_dimreq (it_who it) (it_where it) (version_dim q)) rest (Ok (v ++ 46 :: r ++ 46 :: b))) /\
  (forall vs, (length vs < 3)%nat -> answers vs s rest ->
     got (Y:=Empty_set) (run_version it q s) (frame_dimreq (it_who it) (it_where it) (version_dim q)) rest (Err IndexError)).
Proof.
  intros it q s rest Hr Hp. split.
  - intros v r b more Hs. destruct q.
    + eapply (asked it FIRMWARE_VERSION version_of); try eassumption. apply version_read.
    + eapply (asked it KERNEL_VERSION version_of); try eassumption. apply version_read.
    + eapply (asked it DISTRIBUTION_VERSION version_of); try eassumption. apply version_read.
  - intros vs Hl Hs. destruct q.
    + eapply (asked it FIRMWARE_VERSION version_of); try eassumption. apply version_short, Hl.
    + eapply (asked it KERNEL_VERSION version_of); try eassumption. apply version_short, Hl.
    + eapply (asked it DISTRIBUTION_VERSION version_of); try eassumption. apply version_short, Hl.
Qed.
Print Assumptions C74_versions.

Theorem C74_uptime : forall it sd sh sm ss d h m x more (s rest : script),
  ready it -> placed it -> number sd d -> number sh h -> number sm m -> number ss x ->
  answers (sd :: sh :: sm :: ss :: more) s rest ->
  let total := (86400 * Z.of_N d + 3600 * Z.of_N h + 60 * Z.of_N m + Z.of_N x)%Z in
  got (Y:=Empty_set) (get_uptime it s) (frame_dimreq (it_who it) (it_where it) (lit "19")) rest
    (if (total <? 86400 * 1000000000)%Z then Ok total else Err OverflowError).
Proof.
  intros it sd sh sm ss d h m x more s rest Hr Hp Hd Hh Hm Hx Hs total.
  eapply (asked it UPTIME uptime_of); try eassumption. apply uptime_read; assumption.
Qed.
Print Assumptions C74_uptime.

Example C74_ex :
  res_of (get_firmware (gateway conn) [Some (MDimRes GATEWAY [] (lit "16") [lit "3"; lit "0"; lit "14"]); Some MAck] : list (ev Empty_set) * script * res str) = Ok (lit "3.0.14") /\
  res_of (get_uptime (gateway conn) [Some (MDimRes GATEWAY [] (lit "19") [lit "2"; lit "01"; lit "00"; lit "07"]); Some MAck] : list (ev Empty_set) * script * res Z) = Ok 176407%Z.
Proof. split; vm_compute; reflexivity. Qed.
