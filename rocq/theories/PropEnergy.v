(** * Properties C58, C60 and C75 to C78: energy items *)
From Coq Require Import String List NArith ZArith Bool Lia.
From Verif Require Import PyStr PyDate PyFloat Tags Messages SpecMsg SpecTag MessageThms MessageThms2 MessageThms3 IO Client SpecItem Items HandshakeThms ItemThms LightThms2
  SpecGateway Energy SpecEnergy FloatThms EnergyThms EnergyThms2 EnergyThms3.
Import ListNotations.
Open Scope N_scope.
Open Scope list_scope.

Definition conn : client := {| cl_session := Command; cl_proto := true |}.
Definition meter : item := {| it_client := conn; it_who := ENERGY_MANAGEMENT; it_where := lit "51" |}.
Lemma meter_ready : ready meter /\ placed meter.
Proof. split; [split; [discriminate|reflexivity]|apply tagtext_valid; reflexivity]. Qed.
Notation outcome A := (list (ev Empty_set) * script * res A)%type.

(** ** C58 Addresses *)

(** An energy item is constructed exactly for the documented addresses; a
    "7..." address without parameter fails with IndexError, everything else with
    InvalidTag. *)
Theorem C58_construction : forall c whr,
  (forall it, energy_management c whr = Ok it <->
     it = {| it_client := c; it_who := ENERGY_MANAGEMENT; it_where := whr |} /\ exists t, energy_class whr t) /\
  ((exists r, whr = 55 :: r /\ digits r) -> energy_management c whr = Err IndexError) /\
  ((forall t, ~ energy_class whr t) -> ~ (exists r, whr = 55 :: r /\ digits r) -> energy_management c whr = Err InvalidTag).
Proof. exact construct_spec. Qed.
Print Assumptions C58_construction.

Theorem C58_type : forall whr t, tagtext whr -> (get_type whr = Ok t <-> energy_class whr t).
Proof. intros whr t H. apply (proj1 (type_spec whr H)). Qed.
Print Assumptions C58_type.

Theorem C58_stop_go : forall c whr,
  (forall it, stop_go c whr = Ok it <->
     it = {| it_client := c; it_who := ENERGY_MANAGEMENT; it_where := whr |} /\ energy_class whr STOP_GO) /\
  ((exists r, whr = 55 :: r /\ digits r) -> stop_go c whr = Err IndexError) /\
  (~ energy_class whr STOP_GO -> ~ (exists r, whr = 55 :: r /\ digits r) -> stop_go c whr = Err InvalidTag).
Proof. exact stop_go_spec. Qed.
Print Assumptions C58_stop_go.

Example C58_ex : energy_class (lit "75#0") ACTUATOR /\ energy_class (lit "112") STOP_GO /\ energy_class (lit "51") POWER_METER /\
  energy_management conn (lit "75") = Err IndexError /\ energy_management conn (lit "75#1") = Err InvalidTag /\
  stop_go conn (lit "51") = Err InvalidTag.
Proof.
  assert (D : forall s, forallb is_digit s = true -> digits s) by (intros s; apply digits_all).
  split; [apply (EC_actuator (lit "5") []); [apply D; reflexivity|discriminate|constructor]|].
  split; [apply (EC_stop_go (lit "12")); [apply D; reflexivity|discriminate]|].
  split; [apply (EC_meter (lit "1")); [apply D; reflexivity|discriminate]|].
  repeat split; reflexivity.
Qed.

(** ** C75 Commands *)

(** Every command but one writes the documented frame and succeeds exactly on an
    ACK. *)
Theorem C75_documented_frames : forall it c w (s : script),
  ready it -> placed it -> documented c w -> ~ is_daily c ->
  answered (frame_cmd (it_who it) w (it_where it)) s (run_energy it c s : outcome unit).
Proof. intros it c w s. apply energy_answered. Qed.
Print Assumptions C75_documented_frames.

(** The exception: the daily report names the day before the month, so the
    frame is the documented one only for equal numbers. *)
Theorem C75_daily_refuted : forall it day month n1 n2 d m ds ms (s : script),
  ready it -> placed it -> chosen day (the_day n1) d -> chosen month (the_month n2) m -> shown d ds -> shown m ms ->
  answered (frame_cmd (it_who it) (lit "57#" ++ ds ++ lit "#" ++ ms) (it_where it)) s
    (run_energy it (start_sending_daily_totalizers_hourly day month n1 n2) s : outcome unit) /\
  (documented (start_sending_daily_totalizers_hourly day month n1 n2) (lit "57#" ++ ds ++ lit "#" ++ ms) <-> d = m).
Proof.
  intros it day month n1 n2 d m ds ms s Hr Hp C1 C2 S1 S2. split; [eapply daily_answered; eassumption|].
  apply daily_documented; assumption.
Qed.
Print Assumptions C75_daily_refuted.

(** A negative number is refused before anything is written. *)
Theorem C75_negative_refused : forall it c z (s : script),
  (z < 0)%Z -> printable_int (Z.abs_N z) -> negative_arg z c -> (run_energy it c s : outcome unit) = ([], s, Err InvalidTag).
Proof. intros it c z s. apply energy_refused. Qed.
Print Assumptions C75_negative_refused.

(** The clock is read once for the day and once for the month: at midnight the
    report of a day that does not exist may be asked for. *)
Theorem C75_midnight_refuted : exists n1 n2 d m ds ms,
  calendar_date n1 /\ calendar_date n2 /\ chosen None (the_day n1) d /\ chosen None (the_month n2) m /\ shown d ds /\ shown m ms /\
  (forall y, ~ calendar_date (y, Z.of_N m, Z.of_N d)) /\
  forall it (s : script), ready it -> placed it ->
    answered (frame_cmd (it_who it) (lit "57#" ++ ds ++ lit "#" ++ ms) (it_where it)) s
      (run_energy it (start_sending_daily_totalizers_hourly None None n1 n2) s : outcome unit).
Proof.
  exists (2024, 1, 31)%Z, (2024, 2, 1)%Z, 31, 2, (lit "31"), (lit "2").
  assert (S : forall n, N.of_nat (length (dec n)) <= 4300 -> shown n (dec n)) by (intros n H; split; [apply TagThms.numeral_dec; reflexivity|exact H]).
  assert (S1 : shown 31 (lit "31")) by (change (lit "31") with (dec 31); apply S; vm_compute; discriminate).
  assert (S2 : shown 2 (lit "2")) by (change (lit "2") with (dec 2); apply S; vm_compute; discriminate).
  assert (V1 : chosen None (the_day (2024, 1, 31)%Z) 31) by (apply (Default 31)).
  assert (V2 : chosen None (the_month (2024, 2, 1)%Z) 2) by (apply (Default 2)).
  split; [split; [lia|]; exists 31%Z; split; [apply ThirtyOne; left; reflexivity|lia]|].
  split; [split; [lia|]; exists 29%Z; split; [apply FebruaryLeap|lia]|].
  { split; [exists 506%Z; reflexivity|]. intros [k Hk]. lia. }
  split; [exact V1|]. split; [exact V2|]. split; [exact S1|]. split; [exact S2|]. split.
  - intros y (_ & n & H & Hn). cbn in H, Hn. inversion H as [m Hm|m Hm|Hl|Hl]; subst; cbn in Hm || idtac; lia.
  - intros it s Hr Hp. eapply daily_answered; eassumption.
Qed.
Print Assumptions C75_midnight_refuted.

Example C75_ex : exists w,
  documented (force_actuator_on (Some 90%Z)) w /\ ~ is_daily (force_actuator_on (Some 90%Z)) /\
  frame_cmd (it_who meter) w (it_where meter) = lit "*18*73#90*51##" /\
  run_energy meter (force_actuator_on (Some 90%Z)) [Some MAck] =
    ([Sent (lit "*18*73#90*51##"); Got MAck] : list (ev Empty_set), [], Ok tt).
Proof.
  exists (lit "73#90"). split; [apply (Doc_force 90 (lit "90")); split; [apply TagThms.numeral_dec; reflexivity|vm_compute; discriminate]|].
  split; [intros []|]. split; reflexivity.
Qed.

(** ** C76 Actuators *)

(** The documented answer has six values of one digit; it always fails. *)
Theorem C76_actuator_info_refuted : forall it v more s rest,
  ready it -> placed it -> digits v -> length v = 1%nat -> answers (v :: more) s rest ->
  got (Y:=Empty_set) (get_actuators_info it s) (frame_dimreq (it_who it) (it_where it) (lit "71")) rest (Err IndexError).
Proof.
  intros it v more s rest Hr Hp D L A. unfold get_actuators_info.
  apply (asked_energy it (Ok (de_str ACTUATORS_INFO)) _ _ (v :: more)); try assumption; try reflexivity.
  - apply (de_tag ACTUATORS_INFO).
  - apply actuator_documented_fails; assumption.
Qed.
Print Assumptions C76_actuator_info_refuted.

(** What is decoded instead: the characters of one value. *)
Theorem C76_characters : forall it a b c d e f tl more s rest,
  ready it -> placed it -> Forall digitchar [a; b; c; d; e; f] -> answers ((a :: b :: c :: d :: e :: f :: tl) :: more) s rest ->
  got (Y:=Empty_set) (get_actuators_info it s) (frame_dimreq (it_who it) (it_where it) (lit "71")) rest
    (Ok {| as_disabled := negb (a =? 48); as_forcing := negb (b =? 48); as_threshold := negb (c =? 48);
           as_protection := negb (d =? 48); as_phase := negb (e =? 48); as_advanced := (f =? 49) |}).
Proof.
  intros it a b c d e f tl more s rest Hr Hp D A. unfold get_actuators_info.
  apply (asked_energy it (Ok (de_str ACTUATORS_INFO)) _ _ ((a :: b :: c :: d :: e :: f :: tl) :: more)); try assumption; try reflexivity.
  - apply (de_tag ACTUATORS_INFO).
  - apply actuator_read, D.
Qed.
Print Assumptions C76_characters.

Example C76_ex :
  (get_actuators_info meter [Some (MDimRes ENERGY_MANAGEMENT (lit "51") (lit "71") [lit "0"; lit "1"; lit "0"; lit "0"; lit "1"; lit "2"]); Some MAck]
     : outcome actuator_status) =
  ([Sent (lit "*#18*51*71##"); Got (MDimRes ENERGY_MANAGEMENT (lit "51") (lit "71") [lit "0"; lit "1"; lit "0"; lit "0"; lit "1"; lit "2"]); Got MAck],
   [], Err IndexError).
Proof. reflexivity. Qed.

(** ** C77 Numbers *)

(** The power and the energy totals are read as the nearest float, which is the
    number itself up to 2^53; anything that is not a number is a ValueError. *)
Theorem C77_nearest_float : forall it q d v more s rest,
  ready it -> placed it -> float_dim q d -> answers (v :: more) s rest ->
  (digits v -> v <> [] ->
     exists f, got (Y:=Empty_set) (run_float it q s) (frame_dimreq (it_who it) (it_where it) d) rest (Ok f) /\
       reads (value_of 0 v) f /\ (value_of 0 v <= 2 ^ 53 -> f = Fin (value_of 0 v))) /\
  (~ (digits v /\ v <> []) -> got (Y:=Empty_set) (run_float it q s) (frame_dimreq (it_who it) (it_where it) d) rest (Err ValueError)).
Proof. intros it q d v more s rest. apply float_request. Qed.
Print Assumptions C77_nearest_float.

(** The nearest float is unique. *)
Theorem C77_float_determined : forall n f g, reads n f -> reads n g -> f = g.
Proof. exact reads_unique. Qed.
Print Assumptions C77_float_determined.

Example C77_ex : float_of_N 9007199254740993 = Fin 9007199254740992 /\ reads 9007199254740993 (Fin 9007199254740992) /\
  (run_float meter R_power [Some (MDimRes ENERGY_MANAGEMENT (lit "51") (lit "113") [lit "1450"]); Some MAck] : outcome pyfloat) =
  ([Sent (lit "*#18*51*113##"); Got (MDimRes ENERGY_MANAGEMENT (lit "51") (lit "113") [lit "1450"]); Got MAck], [], Ok (Fin 1450)).
Proof.
  split; [vm_compute; reflexivity|]. split; [|vm_compute; reflexivity].
  change (Fin 9007199254740992) with (float_of_N 9007199254740993). apply float_reads.
Qed.

(** ** C78 Totalizers, instant power, differential level *)

Theorem C78_totalizer : forall it n t e ds ms ys hs mis more y mo d h mi s rest,
  ready it -> placed it -> shown n t ->
  digits e -> e <> [] -> calendar_date (y, mo, d) -> (0 <= h <= 23)%Z -> (0 <= mi <= 59)%Z ->
  field 1 ds d -> field 1 ms mo -> field 1 ys y -> field 1 hs h -> field 1 mis mi ->
  Forall (fun t => (length t <= 4300)%nat) [ds; ms; ys; hs; mis] ->
  answers (e :: ds :: ms :: ys :: hs :: mis :: more) s rest ->
  exists f, reads (value_of 0 e) f /\
    got (Y:=Empty_set) (get_totalizers it (Z.of_N n) s) (frame_dimreq (it_who it) (it_where it) (lit "72#" ++ t)) rest
      (Ok ((y, mo, d), {| t_hour := h; t_minute := mi; t_second := 0; t_offset := 0 |}, f)).
Proof.
  intros it n t e ds ms ys hs mis more y mo d h mi s rest Hr Hp Hn He Hne Hc Hh Hm F1 F2 F3 F4 F5 L A.
  exists (float_of_N (value_of 0 e)). split; [apply float_reads|]. unfold get_totalizers.
  apply (asked_energy it _ _ _ (e :: ds :: ms :: ys :: hs :: mis :: more)); try assumption.
  - unfold param. exact (with_int _ _ _ (de_tag TOTALIZERS) Hn).
  - exact (hash_tag _ _ (de_tag TOTALIZERS) (shown_tag _ _ Hn)).
  - apply totalizer_read; assumption.
Qed.
Print Assumptions C78_totalizer.

Theorem C78_instant_power : forall it n p ns ps (s : script),
  ready it -> placed it -> shown n ns -> shown p ps ->
  answered (frame_dimwri (it_who it) (it_where it) (lit "1200#" ++ ps) [ns]) s
    (start_sending_instant_power it (Z.of_N n) (Z.of_N p) s : outcome unit) /\
  answered (frame_dimwri (it_who it) (it_where it) (lit "1200#" ++ ps) [lit "0"]) s
    (stop_sending_instant_power it (Z.of_N p) s : outcome unit).
Proof. intros. split; [apply start_power_answered|apply stop_power_answered]; assumption. Qed.
Print Assumptions C78_instant_power.

Theorem C78_differential_level : forall it v n more s rest,
  ready it -> placed it -> number v n -> answers (v :: more) s rest ->
  got (Y:=Empty_set) (get_differential_current_level it s) (frame_dimreq (it_who it) (it_where it) (lit "73")) rest (Ok (Z.of_N n)).
Proof. intros it v n more s rest. apply differential_read. Qed.
Print Assumptions C78_differential_level.

Example C78_ex :
  (get_totalizers meter 1 [Some (MDimRes ENERGY_MANAGEMENT (lit "51") (lit "72#1") [lit "120"; lit "1"; lit "02"; lit "2024"; lit "13"; lit "5"]); Some MAck] : outcome _) =
  ([Sent (lit "*#18*51*72#1##"); Got (MDimRes ENERGY_MANAGEMENT (lit "51") (lit "72#1") [lit "120"; lit "1"; lit "02"; lit "2024"; lit "13"; lit "5"]); Got MAck],
   [], Ok (2024, 2, 1, {| t_hour := 13; t_minute := 5; t_second := 0; t_offset := 0 |}, Fin 120)%Z).
Proof. vm_compute. reflexivity. Qed.

(** ** C60 Stop&Go status *)

(** request_status: field by field, the last reply about it decides: bit [i] of
    the number of a general reply, or the value of the reply of its own
    dimension; a field never mentioned stays None. *)
Theorem C60_request_status : forall it q rs us (rest : script),
  ready it -> placed it -> Forall2 status_reply rs us ->
  exists st, got (Y:=Empty_set) (request_status it q (map Some rs ++ Some MAck :: rest)) (frame_dimreq (it_who it) (it_where it) (de_str q)) rest (Ok st) /\
    length st = 13%nat /\ forall i, i < 13 -> exists b, nth_error st (N.to_nat i) = Some b /\ field_after i us b.
Proof. intros it q rs us rest. apply request_status_ok. Qed.
Print Assumptions C60_request_status.

Theorem C60_field_determined : forall i us b b', field_after i us b -> field_after i us b' -> b = b'.
Proof. exact field_unique. Qed.
Print Assumptions C60_field_determined.

(** The documented answer to the general request, the mask and then the thirteen
    bits, gives these bits whatever the mask. *)
Theorem C60_general_answer : forall it rs us0 bs (rest : script),
  ready it -> placed it -> length bs = 13%nat -> Forall2 status_reply rs (us0 ++ all_bits bs) ->
  got (Y:=Empty_set) (request_status it STATUS_STOP_GO_GENERAL (map Some rs ++ Some MAck :: rest))
    (frame_dimreq (it_who it) (it_where it) (lit "250")) rest (Ok (map Some bs)).
Proof.
  intros it rs us0 bs rest Hr Hp L H.
  destruct (request_status_ok (Y:=Empty_set) it STATUS_STOP_GO_GENERAL rs _ rest Hr Hp H) as (st & G & Ls & F).
  replace (map Some bs) with st; [exact G|].
  apply nth_ext with (d := None) (d' := None); [rewrite map_length; congruence|]. intros k Hk. rewrite Ls in Hk.
  destruct (F (N.of_nat k)) as (b & B1 & B2); [lia|]. rewrite Nnat.Nat2N.id in B1.
  pose proof (after_all us0 bs (N.of_nat k) L ltac:(lia)) as B3. rewrite Nnat.Nat2N.id in B3.
  pose proof (field_unique _ _ _ _ B2 B3) as ->.
  destruct (nth_error bs k) as [x|] eqn:E; [|apply nth_error_None in E; lia].
  rewrite (nth_error_nth st k None B1). symmetry. apply nth_error_nth. rewrite nth_error_map, E. reflexivity.
Qed.
Print Assumptions C60_general_answer.

(** A reply of another dimension or without a number ends the request with an
    error and leaves the rest of the replies unread. *)
Theorem C60_request_errors : forall it q rs us w b d v vs (rest : script),
  ready it -> placed it -> Forall2 status_reply rs us ->
  ((exists n, number v n) /\ ~ known_dim d -> got (Y:=Empty_set) (request_status it q (map Some rs ++ Some (MDimRes w b d (v :: vs)) :: rest))
     (frame_dimreq (it_who it) (it_where it) (de_str q)) rest (Err InvalidMessage)) /\
  (py_int v = Err ValueError -> got (Y:=Empty_set) (request_status it q (map Some rs ++ Some (MDimRes w b d (v :: vs)) :: rest))
     (frame_dimreq (it_who it) (it_where it) (de_str q)) rest (Err ValueError)).
Proof. intros it q rs us w b d v vs rest. apply request_status_bad. Qed.
Print Assumptions C60_request_errors.

(** The event decoder: one character for each field. *)
Theorem C60_event_decoder : forall (v : str) more, digits v ->
  ((13 <= length v)%nat -> status_of_event (v :: more) = Ok (map (fun c => Some (negb (c =? 48))) (firstn 13 v))) /\
  ((length v < 13)%nat -> status_of_event (v :: more) = Err IndexError).
Proof. intros v more D. split; intros L; [apply event_status; [apply digits_firstn, D|exact L]|apply event_status_short; assumption]. Qed.
Print Assumptions C60_event_decoder.

(** The documented text b13...b1 comes out in reverse order. *)
Theorem C60_event_documented_refuted : forall bs : list bool, length bs = 13%nat ->
  (status_of_event [rev (map bit_char bs)] = Ok (map Some bs) <-> rev bs = bs).
Proof. exact event_documented. Qed.
Print Assumptions C60_event_documented_refuted.

(** On the same text the two decoders agree in two cases of 8192. *)
Theorem C60_decoders_agree_refuted : forall bs : list bool, length bs = 13%nat ->
  (status_of_event [map bit_char bs] = status_update (lit "250") (Z.of_N (value_of 0 (map bit_char bs))) fresh_status <->
   In (map bit_char bs) [lit "0000000000000"; lit "1000000000001"]).
Proof. exact decoders_agree. Qed.
Print Assumptions C60_decoders_agree_refuted.

Example C60_ex :
  (request_status meter STATUS_STOP_GO_GENERAL
    [Some (MDimRes ENERGY_MANAGEMENT (lit "51") (lit "250") [lit "5"]); Some (MDimRes ENERGY_MANAGEMENT (lit "51") (lit "251") [lit "0"]); Some MAck] : outcome _) =
  ([Sent (lit "*#18*51*250##"); Got (MDimRes ENERGY_MANAGEMENT (lit "51") (lit "250") [lit "5"]);
    Got (MDimRes ENERGY_MANAGEMENT (lit "51") (lit "251") [lit "0"]); Got MAck], [],
   Ok [Some false; Some false; Some true; Some false; Some false; Some false; Some false; Some false; Some false; Some false; Some false; Some false; Some false]) /\
  status_of_event [lit "1000000000000"] =
    Ok [Some true; Some false; Some false; Some false; Some false; Some false; Some false; Some false; Some false; Some false; Some false; Some false; Some false] /\
  status_reply (MDimRes ENERGY_MANAGEMENT (lit "51") (lit "250") [lit "5"]) (lit "250", 5).
Proof.
  split; [vm_compute; reflexivity|]. split; [vm_compute; reflexivity|].
  exists ENERGY_MANAGEMENT, (lit "51"), (lit "5"), []. split; [reflexivity|]. split; [|left; reflexivity].
  split; [apply digits_all; reflexivity|]. split; [discriminate|]. split; [reflexivity|]. cbn. lia.
Qed.
