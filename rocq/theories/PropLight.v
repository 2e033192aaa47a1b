(** * Properties C48 to C50, C52 and C67 to C71: lights, automations and cameras *)
From Coq Require Import String List NArith ZArith Bool Lia.
From Verif Require Import PyStr Tags Messages SpecMsg SpecTag TagThms MessageThms3 IO Client SpecItem Items Lighting SpecLight ItemThms LightThms LightThms2 PropItems.
Import ListNotations.
Open Scope N_scope.
Open Scope list_scope.

(** What a command leaves behind: events, unread script, result. *)
Notation out := (list (ev Empty_set) * script * res unit)%type.

Definition shutter : item :=
  {| it_client := {| cl_session := Command; cl_proto := true |}; it_who := AUTOMATION; it_where := lit "21" |}.
Definition eye : item :=
  {| it_client := {| cl_session := Command; cl_proto := true |}; it_who := VIDEO_DOOR_ENTRY; it_where := lit "4000" |}.
Lemma shutter_ready : ready shutter /\ placed shutter.
Proof. split; [split; [discriminate|reflexivity]|]. apply (wiretagb_spec (lit "21")). reflexivity. Qed.
Lemma eye_ready : ready eye /\ placed eye.
Proof. split; [split; [discriminate|reflexivity]|]. apply (wiretagb_spec (lit "4000")). reflexivity. Qed.

(** ** C48 Fixed commands send the documented frame *)

(** Full statement: every command of a light sends the code that the WHAT table
    documents for what the method promises.  True of all but one. *)
Theorem C48_light_partial : forall it c,
  ready it -> placed it -> it_who it = LIGHTING -> c <> LBase turn_on_30_min ->
  exists n, doc_light n = Some (promise c) /\
    forall s : script, answered (frame_cmd LIGHTING (dec n) (it_where it)) s (light_run it c s : out).
Proof. exact light_documented. Qed.
Print Assumptions C48_light_partial.

(** The exception: turn_on_30_min sends the code of 30 seconds, and there is no
    code for 30 minutes. *)
Theorem C48_light_30_min_refuted : forall it,
  ready it -> placed it -> it_who it = LIGHTING ->
  (forall s : script, answered (frame_cmd LIGHTING (dec 17) (it_where it)) s (light_run it (LBase turn_on_30_min) s : out)) /\
  doc_light 17 = Some (OnFor 300) /\ promise (LBase turn_on_30_min) = OnFor 18000 /\
  forall n, doc_light n <> Some (OnFor 18000).
Proof. exact light_30_min. Qed.
Print Assumptions C48_light_30_min_refuted.

Theorem C48_light_distinct : forall it it' c c' (s s' : script),
  ready it -> placed it -> it_who it = LIGHTING -> ready it' -> placed it' -> it_who it' = LIGHTING ->
  tagtext (it_where it) -> tagtext (it_where it') ->
  sents (evs_of (light_run it c s : out)) = sents (evs_of (light_run it' c' s' : out)) ->
  c = c' /\ it_where it = it_where it'.
Proof.
  assert (T : forall c, tagtext (light_what c)).
  { intros x. apply MessageThms.tagtext_valid. destruct x as [[]|[]|[]| |]; reflexivity. }
  assert (S : forall it c (s : script), ready it -> placed it -> it_who it = LIGHTING ->
    sents (evs_of (light_run it c s : out)) = [frame_cmd LIGHTING (light_what c) (it_where it)]).
  { intros it c s Hr Hp Hw. rewrite light_run_normal.
    pose proof (command_answered (Y:=Empty_set) it (light_what c) s Hr Hp (T c)) as H. rewrite Hw in H.
    inversion H; reflexivity. }
  intros it it' c c' s s' H1 H2 H3 H4 H5 H6 T1 T2 E. rewrite !S in E by assumption. apply (f_equal (fun l => hd [] l)) in E. cbn [hd] in E.
  apply light_distinct in E; assumption.
Qed.
Print Assumptions C48_light_distinct.

Theorem C48_automation : forall it c (s : script),
  ready it -> placed it -> it_who it = AUTOMATION ->
  answered (frame_cmd AUTOMATION (dec (doc_automation c)) (it_where it)) s (run_auto it c s : out).
Proof. exact auto_documented. Qed.
Print Assumptions C48_automation.

Theorem C48_camera : forall it c (s : script),
  ready it -> it_who it = VIDEO_DOOR_ENTRY ->
  answered (frame_camera (doc_camera c)) s (run_cam it c s : out).
Proof. exact camera_documented. Qed.
Print Assumptions C48_camera.

Theorem C48_camera_video : forall it (s : script),
  ready it -> placed it -> it_who it = VIDEO_DOOR_ENTRY ->
  answered (frame_cmd VIDEO_DOOR_ENTRY [48] (it_where it)) s (receive_video it s : out).
Proof. exact camera_video. Qed.
Print Assumptions C48_camera_video.

Theorem C48_camera_distinct : forall c c',
  frame_camera (doc_camera c) = frame_camera (doc_camera c') -> c = c'.
Proof. exact camera_distinct. Qed.
Print Assumptions C48_camera_distinct.

Theorem C48_camera_free_refuted : forall it (s : script),
  ready it -> it_who it = VIDEO_DOOR_ENTRY ->
  sents (evs_of (run_cam it free_resources s : out)) = [lit "*7*9##"] /\ doc_free_resources = lit "*7*9*##".
Proof. exact camera_free. Qed.
Print Assumptions C48_camera_free_refuted.

Example C48_ex :
  (light_run lamp (LLevel set_40_percent) [Some MAck] : out) = ([Sent (lit "*1*4*12##"); Got MAck], [], Ok tt) /\
  (light_run lamp (LBase turn_on_30_min) [Some MAck] : out) = ([Sent (lit "*1*17*12##"); Got MAck], [], Ok tt) /\
  (run_auto shutter down [Some MAck] : out) = ([Sent (lit "*2*2*21##"); Got MAck], [], Ok tt) /\
  (run_cam eye zoom_in [Some MNack] : out) = ([Sent (lit "*7*120##"); Got MNack], [], Err ResponseError) /\
  it_who lamp = LIGHTING /\ ready lamp /\ placed lamp /\ ready shutter /\ placed shutter /\ ready eye /\ placed eye.
Proof.
  repeat (split; [reflexivity|]). destruct lamp_ready, shutter_ready, eye_ready. auto 10.
Qed.

(** ** C49 Speed and step parameters of dimmers *)

Theorem C49_dimmer_parameters_refuted : forall it v w (s : script),
  (dimmer_turn_on it (Some v) s : out) = ([], s, Err ValueError) /\
  (dimmer_turn_off it (Some v) s : out) = ([], s, Err ValueError) /\
  (up_percent it (Some v) w s : out) = ([], s, Err ValueError) /\
  (up_percent it w (Some v) s : out) = ([], s, Err ValueError) /\
  (down_percent it (Some v) w s : out) = ([], s, Err ValueError) /\
  (down_percent it w (Some v) s : out) = ([], s, Err ValueError).
Proof. exact dimmer_params. Qed.
Print Assumptions C49_dimmer_parameters_refuted.

(** Without parameters the four methods are the plain commands. *)
Theorem C49_no_parameters : forall it (s : script),
  ready it -> placed it -> it_who it = LIGHTING ->
  answered (frame_cmd LIGHTING (lit "1") (it_where it)) s (dimmer_turn_on it None s : out) /\
  answered (frame_cmd LIGHTING (lit "0") (it_where it)) s (dimmer_turn_off it None s : out) /\
  answered (frame_cmd LIGHTING (lit "30") (it_where it)) s (up_percent it None None s : out) /\
  answered (frame_cmd LIGHTING (lit "31") (it_where it)) s (down_percent it None None s : out).
Proof.
  intros it s Hr Hp Hw. destruct (dimmer_plain (Y:=Empty_set) it s) as [-> ->].
  change (up_percent it None None s : out) with (light_run (Y:=Empty_set) it LUp s).
  change (down_percent it None None s : out) with (light_run (Y:=Empty_set) it LDown s).
  rewrite !light_run_normal, <- Hw.
  repeat split; (apply command_answered; [assumption|assumption|]).
  - apply (dec_tagtext 1).
  - apply (dec_tagtext 0).
  - apply (dec_tagtext 30).
  - apply (dec_tagtext 31).
Qed.
Print Assumptions C49_no_parameters.

Example C49_ex :
  (dimmer_turn_on lamp (Some 5%Z) [Some MAck] : out) = ([], [Some MAck], Err ValueError) /\
  (dimmer_turn_on lamp None [Some MAck] : out) = ([Sent (lit "*1*1*12##"); Got MAck], [], Ok tt).
Proof. split; reflexivity. Qed.

(** ** C50 Range checks *)

Theorem C50_temporization_in_range : forall it h m x (s : script),
  ready it -> placed it -> (0 <= h < 24)%Z -> (0 <= m < 60)%Z -> (0 <= x < 60)%Z ->
  answered (frame_dimwri (it_who it) (it_where it) (dec doc_dim_temporization) [dec (Z.to_N h); dec (Z.to_N m); dec (Z.to_N x)]) s
    (temporization_command it h m x s : out).
Proof. exact temporization_in_range. Qed.
Print Assumptions C50_temporization_in_range.

Theorem C50_temporization_out_of_range : forall it h m x (s : script),
  ~ ((0 <= h < 24) /\ (0 <= m < 60) /\ (0 <= x < 60))%Z ->
  exists e, (temporization_command it h m x s : out) = ([], s, Err e) /\ (e = ValueError \/ e = InvalidTag) /\
    ((24 <= h \/ 60 <= m \/ 60 <= x)%Z -> e = ValueError) /\
    ((-100000 < h < 24 /\ -100000 < m < 60 /\ -100000 < x < 60)%Z -> e = InvalidTag).
Proof. exact temporization_out_of_range. Qed.
Print Assumptions C50_temporization_out_of_range.

(** The documented range of the hours is 0 to 255; everything from 24 on is
    refused. *)
Theorem C50_temporization_hours_refuted : forall it h (s : script),
  (24 <= h <= 255)%Z -> (temporization_command it h 0 0 s : out) = ([], s, Err ValueError).
Proof.
  intros it h s H. destruct (temporization_out_of_range (Y:=Empty_set) it h 0 0 s) as (e & E & _ & E1 & _); [lia|].
  rewrite E, (E1 ltac:(lia)). reflexivity.
Qed.
Print Assumptions C50_temporization_hours_refuted.

Theorem C50_hsv : forall it h x v (s : script),
  ready it -> placed it ->
  ((0 <= h <= 359 /\ 0 <= x <= 100 /\ 0 <= v <= 100)%Z ->
   answered (frame_dimwri (it_who it) (it_where it) (dec doc_dim_hsv) [dec (Z.to_N h); dec (Z.to_N x); dec (Z.to_N v)]) s
     (set_hsv it h x v s : out)) /\
  (~ (0 <= h <= 359 /\ 0 <= x <= 100 /\ 0 <= v <= 100)%Z -> (set_hsv it h x v s : out) = ([], s, Err ValueError)).
Proof. exact hsv_range. Qed.
Print Assumptions C50_hsv.

Theorem C50_white : forall it t (s : script),
  ready it -> placed it ->
  ((1 <= t <= 65534)%Z ->
   answered (frame_dimwri (it_who it) (it_where it) (lit "13") [dec (Z.to_N t)]) s (set_white_temperature it t s : out)) /\
  (~ (1 <= t <= 65534)%Z -> (set_white_temperature it t s : out) = ([], s, Err ValueError)).
Proof. exact white_range. Qed.
Print Assumptions C50_white.

Theorem C50_dial : forall it x y (s : script),
  ready it -> it_who it = VIDEO_DOOR_ENTRY ->
  ((1 <= x <= 4 /\ 1 <= y <= 4)%Z ->
   answered (frame_camera (300 + 10 * Z.to_N x + Z.to_N y)) s (display_dial it x y s : out)) /\
  (~ (1 <= x <= 4 /\ 1 <= y <= 4)%Z -> (display_dial it x y s : out) = ([], s, Err ValueError)).
Proof. exact dial_range. Qed.
Print Assumptions C50_dial.

Example C50_ex :
  (temporization_command lamp 0 5 30 [Some MAck] : out) = ([Sent (lit "*#1*12*#2*0*5*30##"); Got MAck], [], Ok tt) /\
  (temporization_command lamp 24 0 0 [Some MAck] : out) = ([], [Some MAck], Err ValueError) /\
  (temporization_command lamp 1 (-1) 0 [Some MAck] : out) = ([], [Some MAck], Err InvalidTag) /\
  (set_hsv lamp 359 100 7 [Some MAck] : out) = ([Sent (lit "*#1*12*#12*359*100*7##"); Got MAck], [], Ok tt) /\
  (set_hsv lamp 360 100 7 [Some MAck] : out) = ([], [Some MAck], Err ValueError) /\
  (display_dial eye 3 2 [Some MAck] : out) = ([Sent (lit "*7*332##"); Got MAck], [], Ok tt).
Proof. repeat (split; [vm_compute; reflexivity|]). vm_compute. reflexivity. Qed.

(** ** C52 The level of a dimmer *)

(** The level reported is ten times the number of the WHAT, for every reply. *)
Theorem C52_dimmer_levels : forall it rs ps (rest : script),
  ready it -> placed it -> Forall2 status_reply rs ps ->
  exists es, dimmer_get_status it (map Some rs ++ Some MAck :: rest) = (es, rest, Ok tt) /\
    sents es = [frame_status (it_who it) (it_where it)] /\
    yields es = map (fun p => (fst p, (10 * Z.of_N (snd p))%Z)) ps.
Proof. exact dimmer_levels. Qed.
Print Assumptions C52_dimmer_levels.

(** The promised range holds for all lights exactly when no reply has a WHAT
    above 10. *)
Theorem C52_dimmer_range_partial : forall it rs ps (rest : script),
  ready it -> placed it -> Forall2 status_reply rs ps ->
  (Forall (fun y : str * Z => (0 <= snd y <= 100)%Z)
     (yields (evs_of (dimmer_get_status it (map Some rs ++ Some MAck :: rest)))) <->
   Forall (fun p => snd p <= 10) ps).
Proof.
  intros it rs ps rest Hr Hp H. destruct (dimmer_levels it rs ps rest Hr Hp H) as (es & E & _ & E2).
  rewrite E. cbn [evs_of fst]. rewrite E2, Forall_map. split; apply Forall_impl; intros p; cbn [fst snd]; lia.
Qed.
Print Assumptions C52_dimmer_range_partial.

(** The documented timed and blinking states are outside. *)
Theorem C52_dimmer_range_refuted : forall it w n b (rest : script),
  ready it -> placed it -> 11 <= n <= 31 ->
  exists es z, dimmer_get_status it (Some (MNormal w (dec n) b) :: Some MAck :: rest) = (es, rest, Ok tt) /\
    yields es = [(b, z)] /\ (100 < z)%Z.
Proof.
  intros it w n b rest Hr Hp Hn.
  destruct (dimmer_levels it [MNormal w (dec n) b] [(b, n)] rest Hr Hp) as (es & E & _ & E2).
  - constructor; [|constructor]. exists w, (dec n). split; [reflexivity|]. exists (dec n), [].
    split; [unfold with_params; cbn; rewrite app_nil_r; reflexivity|]. split; [constructor|].
    split; [apply digits_all, dec_digits|]. split; [apply dec_not_nil|]. cbn [snd].
    split; [rewrite value_of_dval; apply dval_dec|]. apply (small_len n). lia.
  - exists es, (10 * Z.of_N n)%Z. split; [exact E|]. split; [exact E2|]. lia.
Qed.
Print Assumptions C52_dimmer_range_refuted.

(** A WHAT without a number ends the request with ValueError and leaves the
    remaining replies unread. *)
Theorem C52_dimmer_bad : forall it rs ps w a b (rest : script),
  ready it -> placed it -> Forall2 status_reply rs ps -> twp_tag a = [] ->
  exists es, dimmer_get_status it (map Some rs ++ Some (MNormal w a b) :: rest) = (es, rest, Err ValueError) /\
    yields es = map (fun p => (fst p, (10 * Z.of_N (snd p))%Z)) ps.
Proof. exact dimmer_bad. Qed.
Print Assumptions C52_dimmer_bad.

Example C52_ex :
  dimmer_get_status lamp [Some (MNormal LIGHTING (lit "4") (lit "12")); Some (MNormal LIGHTING (lit "18#3") (lit "13")); Some MAck; None] =
    ([Sent (lit "*#1*12##"); Got (MNormal LIGHTING (lit "4") (lit "12")); Yielded (lit "12", 40%Z);
      Got (MNormal LIGHTING (lit "18#3") (lit "13")); Yielded (lit "13", 180%Z); Got MAck], [None], Ok tt) /\
  status_reply (MNormal LIGHTING (lit "18#3") (lit "13")) (lit "13", 18).
Proof.
  split; [reflexivity|]. exists LIGHTING, (lit "18#3"). split; [reflexivity|].
  exists (lit "18"), [lit "3"]. split; [reflexivity|]. split.
  - apply Forall_cons; [|apply Forall_nil]. intros [H|[]]; discriminate.
  - split; [apply digits_all; reflexivity|]. split; [discriminate|]. split; [reflexivity|]. cbn. lia.
Qed.

(** ** C67 The documented dimension numbers *)

(** The dimension numbers written and asked for are those of the DIMENSION table
    for temporisation, level and HSV ... *)
Theorem C67_dimensions_partial : forall it (s : script),
  ready it -> placed it ->
  sents (evs_of (temporization_request it s)) = [frame_dimreq (it_who it) (it_where it) (dec doc_dim_temporization)] /\
  sents (evs_of (request_current_brightness_speed it s)) = [frame_dimreq (it_who it) (it_where it) (dec doc_dim_level)] /\
  sents (evs_of (request_current_hsv it s)) = [frame_dimreq (it_who it) (it_where it) (dec doc_dim_hsv)] /\
  sents (evs_of (request_current_white_temperature it s)) = [frame_dimreq (it_who it) (it_where it) (dec doc_dim_white)].
Proof.
  intros it s Hr Hp. repeat split.
  - apply (dimension_sents it (dec 2) (ints_body 3) s Hr Hp (dec_tagtext 2)).
  - apply (dimension_sents it (dec 1) (ints_body 2) s Hr Hp (dec_tagtext 1)).
  - apply (dimension_sents it (dec 12) (ints_body 3) s Hr Hp (dec_tagtext 12)).
  - apply (dimension_sents it (dec 14) (ints_body 1) s Hr Hp (dec_tagtext 14)).
Qed.
Print Assumptions C67_dimensions_partial.

(** ... but the white temperature is written to dimension 13, not 14, and the
    working time is asked of dimension 3, not 8. *)
Theorem C67_white_refuted : forall it t (s : script),
  ready it -> placed it -> (1 <= t <= 65534)%Z ->
  sents (evs_of (set_white_temperature it t s : out)) = [frame_dimwri (it_who it) (it_where it) (lit "13") [dec (Z.to_N t)]] /\
  lit "13" <> dec doc_dim_white.
Proof.
  intros it t s Hr Hp Ht. split; [|discriminate].
  pose proof (proj1 (white_range (Y:=Empty_set) it t s Hr Hp) Ht) as H. inversion H; reflexivity.
Qed.
Print Assumptions C67_white_refuted.

Theorem C67_working_time_refuted : forall it (s : script),
  ready it -> placed it ->
  sents (evs_of (request_working_time_lamp it s)) = [frame_dimreq (it_who it) (it_where it) (lit "3")] /\
  lit "3" <> dec doc_dim_working_time.
Proof.
  intros it s Hr Hp. split; [|discriminate].
  apply dimension_sents; try assumption. apply (dec_tagtext 3).
Qed.
Print Assumptions C67_working_time_refuted.

Example C67_ex :
  sents (evs_of (set_white_temperature lamp 3000 [Some MAck] : out)) = [lit "*#1*12*#13*3000##"] /\
  sents (evs_of (request_current_white_temperature lamp [Some MAck])) = [lit "*#1*12*14##"] /\
  sents (evs_of (request_working_time_lamp lamp [Some MAck])) = [lit "*#1*12*3##"] /\
  ready lamp /\ placed lamp.
Proof. repeat (split; [vm_compute; reflexivity|]). exact lamp_ready. Qed.

(** ** C68 set_brightness_with_speed *)

(** Full statement: a level outside 100 to 200 or a speed outside 0 to 255 is
    refused.  Every natural number that Python can print is sent. *)
Theorem C68_brightness_refuted : forall it b v (s : script),
  ready it -> placed it -> slen (dec b) <= 4300 -> slen (dec v) <= 4300 ->
  answered (frame_dimwri (it_who it) (it_where it) (dec doc_dim_level) [dec b; dec v]) s
    (set_brightness_with_speed it (AInt (Z.of_N b)) (AInt (Z.of_N v)) s : out).
Proof. exact brightness_any. Qed.
Print Assumptions C68_brightness_refuted.

Example C68_ex :
  (set_brightness_with_speed lamp (AInt 999) (AInt 256) [Some MAck] : out) =
    ([Sent (lit "*#1*12*#1*999*256##"); Got MAck], [], Ok tt) /\ slen (dec 999) <= 4300.
Proof. split; [vm_compute; reflexivity|]. vm_compute. discriminate. Qed.

(** ** C69 Requests of numbers decode every reply *)

(** The five requests, the dimension each asks for and how many numbers it
    reports: hours, minutes, seconds; hours; level, speed; hue, saturation,
    value; temperature. *)
Inductive light_req := RTemporization | RWorkingTime | RBrightness | RHsv | RWhite.
Definition run_req (it : item) (r : light_req) : io (str * list Z) unit :=
  match r with
  | RTemporization => temporization_request it
  | RWorkingTime => request_working_time_lamp it
  | RBrightness => request_current_brightness_speed it
  | RHsv => request_current_hsv it
  | RWhite => request_current_white_temperature it
  end.
Definition req_dim (r : light_req) : list N :=
  match r with
  | RTemporization => lit "2" | RWorkingTime => lit "3" | RBrightness => lit "1" | RHsv => lit "12" | RWhite => lit "14"
  end.
Definition req_count (r : light_req) : nat :=
  match r with RTemporization | RHsv => 3 | RBrightness => 2 | RWorkingTime | RWhite => 1 end.

Lemma run_req_is it r : run_req it r = send_dimension_request it (req_dim r) (ints_body (req_count r)).
Proof. destruct r; reflexivity. Qed.
Lemma req_dim_tag r : tagtext (req_dim r).
Proof. apply MessageThms.tagtext_valid. destruct r; reflexivity. Qed.

Theorem C69_requests : forall it r rs ps (rest : script),
  ready it -> placed it ->
  Forall2 dim_reply rs ps -> Forall (fun p => length (snd p) = req_count r) ps ->
  exists es, run_req it r (map Some rs ++ Some MAck :: rest) = (es, rest, Ok tt) /\
    sents es = [frame_dimreq (it_who it) (it_where it) (req_dim r)] /\
    yields es = map (fun p => (fst p, map Z.of_N (snd p))) ps.
Proof. intros it r rs ps rest Hr Hp. rewrite run_req_is. apply ints_request; [assumption|assumption|apply req_dim_tag]. Qed.
Print Assumptions C69_requests.

(** A reply with too few numbers ends the request with IndexError; the replies
    behind it stay in the queue. *)
Theorem C69_short_reply : forall it r rs ps w b d vs ns (rest : script),
  ready it -> placed it ->
  Forall2 dim_reply rs ps -> Forall (fun p => length (snd p) = req_count r) ps ->
  Forall2 valnum vs ns -> (length ns < req_count r)%nat ->
  exists es, run_req it r (map Some rs ++ Some (MDimRes w b d vs) :: rest) = (es, rest, Err IndexError) /\
    yields es = map (fun p => (fst p, map Z.of_N (snd p))) ps.
Proof.
  intros it r rs ps w b d vs ns rest Hr Hp H1 H2 H3 H4. rewrite run_req_is.
  eapply ints_request_short; try eassumption. apply req_dim_tag.
Qed.
Print Assumptions C69_short_reply.

Example C69_ex :
  request_current_hsv lamp [Some (MDimRes LIGHTING (lit "12") (lit "12") [lit "10"; lit "020"; lit "#7"; lit "x"]); Some MAck] =
    ([Sent (lit "*#1*12*12##"); Got (MDimRes LIGHTING (lit "12") (lit "12") [lit "10"; lit "020"; lit "#7"; lit "x"]);
      Yielded (lit "12", [10; 20; 7]%Z); Got MAck], [], Ok tt) /\
  dim_reply (MDimRes LIGHTING (lit "12") (lit "12") [lit "10"; lit "020"; lit "#7"; lit "x"]) (lit "12", [10; 20; 7]).
Proof.
  split; [reflexivity|]. exists LIGHTING, (lit "12"), [lit "10"; lit "020"; lit "#7"], [lit "x"].
  split; [reflexivity|]. cbn [snd].
  assert (N1 : forall d n, all_digits d = true -> d <> [] -> value_of 0 d = n -> N.of_nat (length d) <= 4300 -> number d n).
  { intros d n H1 H2 H3 H4. repeat split; try assumption. apply digits_all. assumption. }
  repeat apply Forall2_cons; [| | |constructor].
  - exists (lit "10"). split; [left; reflexivity|]. apply N1; [reflexivity|discriminate|reflexivity|cbn; lia].
  - exists (lit "020"). split; [left; reflexivity|]. apply N1; [reflexivity|discriminate|reflexivity|cbn; lia].
  - exists (lit "7"). split; [right; reflexivity|]. apply N1; [reflexivity|discriminate|reflexivity|cbn; lia].
Qed.

(** ** C70 Light.get_status *)

(** Full statement: every light that answers is reported.  Proved: each reply is
    reported as on for WHAT 1, off for WHAT 0, and not at all otherwise. *)
Theorem C70_light_status_partial : forall it rs (rest : script),
  ready it -> placed it -> Forall normal rs ->
  exists es, light_get_status it (map Some rs ++ Some MAck :: rest) = (es, rest, Ok tt) /\
    sents es = [frame_status (it_who it) (it_where it)] /\
    yields es = concat (map light_view rs).
Proof. exact light_statuses. Qed.
Print Assumptions C70_light_status_partial.

(** Refuted: a light whose WHAT is anything else is silently left out. *)
Theorem C70_light_status_refuted : forall it w a b (rest : script),
  ready it -> placed it -> a <> lit "0" -> a <> lit "1" ->
  exists es, light_get_status it (Some (MNormal w a b) :: Some MAck :: rest) = (es, rest, Ok tt) /\ yields es = [].
Proof.
  intros it w a b rest Hr Hp H0 H1.
  destruct (light_statuses it [MNormal w a b] rest Hr Hp) as (es & E & _ & E2).
  - apply Forall_cons; [repeat eexists|apply Forall_nil].
  - exists es. split; [exact E|]. rewrite E2. cbn [map light_view concat].
    apply str_eqb_neq in H0, H1. change (lit "0") with [48] in H0. change (lit "1") with [49] in H1.
    rewrite H0, H1. reflexivity.
Qed.
Print Assumptions C70_light_status_refuted.

Example C70_ex :
  yields (evs_of (light_get_status lamp [Some (MNormal LIGHTING (lit "1") (lit "12")); Some (MNormal LIGHTING (lit "11") (lit "13"));
    Some (MNormal LIGHTING (lit "0") (lit "14")); Some MAck])) = [(lit "12", true); (lit "14", false)].
Proof. reflexivity. Qed.

(** ** C71 Automation.get_status *)

Theorem C71_automation_status : forall it rs ps (rest : script),
  ready it -> placed it ->
  Forall2 (fun m (p : str * auto_cmd) => exists w, m = MNormal w (dec (doc_automation (snd p))) (fst p)) rs ps ->
  exists es, auto_get_status it (map Some rs ++ Some MAck :: rest) = (es, rest, Ok tt) /\
    sents es = [frame_status (it_who it) (it_where it)] /\
    yields es = map (fun p => (fst p, dec (doc_automation (snd p)))) ps.
Proof.
  intros it rs ps rest Hr Hp H. destruct (auto_statuses it rs ps rest Hr Hp H) as (es & E & E1 & E2).
  exists es. split; [exact E|]. split; [exact E1|]. rewrite E2. apply map_ext. intros [b []]; reflexivity.
Qed.
Print Assumptions C71_automation_status.

(** Any other state, such as those of an advanced shutter, ends the request with
    ValueError and leaves the remaining replies unread. *)
Theorem C71_automation_unknown : forall it rs ps w a b (rest : script),
  ready it -> placed it ->
  Forall2 (fun m (p : str * auto_cmd) => exists w, m = MNormal w (dec (doc_automation (snd p))) (fst p)) rs ps ->
  (forall c, a <> dec (doc_automation c)) ->
  exists es, auto_get_status it (map Some rs ++ Some (MNormal w a b) :: rest) = (es, rest, Err ValueError) /\
    length (yields es) = length ps.
Proof.
  intros it rs ps w a b rest Hr Hp H Ha. destruct (auto_unknown it rs ps w a b rest Hr Hp H Ha) as (es & E & E2).
  exists es. split; [exact E|]. rewrite E2. apply map_length.
Qed.
Print Assumptions C71_automation_unknown.

Example C71_ex :
  auto_get_status shutter [Some (MNormal AUTOMATION (lit "1") (lit "21")); Some (MNormal AUTOMATION (lit "10") (lit "22")); Some MAck] =
    ([Sent (lit "*#2*21##"); Got (MNormal AUTOMATION (lit "1") (lit "21")); Yielded (lit "21", lit "1");
      Got (MNormal AUTOMATION (lit "10") (lit "22"))], [Some MAck], Err ValueError) /\
  (forall c, lit "10" <> dec (doc_automation c)).
Proof. split; [reflexivity|]. intros []; discriminate. Qed.
