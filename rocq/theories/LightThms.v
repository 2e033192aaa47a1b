(** * Lights, automations, cameras: what is written and what is read back *)
From Coq Require Import String List NArith ZArith Bool Lia.
From Verif Require Import PyStr Tags Messages MessageFacts SpecMsg SpecTag MessageThms MessageThms2 MessageThms3 TagThms IO Client SpecItem Items Lighting SpecLight HandshakeThms ItemThms.
Import ListNotations.
Open Scope N_scope.
Open Scope list_scope.

Section Cmd.
Context {Y : Type}.
Notation out := (list (ev Y) * script * res unit)%type.

Definition light_run (it : item) (c : light_cmd) : io Y unit :=
  match c with
  | LBase c => run_base it c
  | LBlink c => run_blink it c
  | LLevel c => run_level it c
  | LUp => up_percent it None None
  | LDown => down_percent it None None
  end.

Definition light_what (c : light_cmd) : str :=
  match c with
  | LBase c => base_what c
  | LBlink c => blink_what c
  | LLevel c => level_what c
  | LUp => lit "30"
  | LDown => lit "31"
  end.

Lemma light_run_normal it c (s : script) : light_run it c s = send_normal_message it (light_what c) s.
Proof.
  destruct c; try reflexivity.
  - unfold light_run, up_percent, dimmer_step. rewrite !andthen_lift. reflexivity.
  - unfold light_run, down_percent, dimmer_step. rewrite !andthen_lift. reflexivity.
Qed.

Lemma dec_tagtext n : tagtext (dec n).
Proof. apply tagtext_valid, dec_valid. Qed.

Theorem light_documented it c :
  ready it -> placed it -> it_who it = LIGHTING -> c <> LBase turn_on_30_min ->
  exists n, doc_light n = Some (promise c) /\
    forall s : script, answered (frame_cmd LIGHTING (dec n) (it_where it)) s (light_run it c s : out).
Proof.
  intros Hr Hp Hw Hc.
  assert (E : exists n, doc_light n = Some (promise c) /\ light_what c = dec n).
  { destruct c as [[]|[]|[]| |]; try congruence; cbn [promise];
      [exists 1|exists 0|exists 11|exists 12|exists 13|exists 14|exists 15|exists 16|exists 18
      |exists 20|exists 21|exists 22|exists 23|exists 24|exists 25|exists 26|exists 27|exists 28|exists 29
      |exists 2|exists 3|exists 4|exists 5|exists 6|exists 7|exists 8|exists 9|exists 10|exists 30|exists 31]; split; reflexivity. }
  destruct E as (n & En & El). exists n. split; [exact En|]. intros s. rewrite light_run_normal, El, <- Hw.
  apply command_answered; [assumption|assumption|apply dec_tagtext].
Qed.

(** 30 minutes are promised, the documented meaning of what is sent is 30
    seconds, and nothing documented lasts 30 minutes. *)
Theorem light_30_min it :
  ready it -> placed it -> it_who it = LIGHTING ->
  (forall s : script, answered (frame_cmd LIGHTING (dec 17) (it_where it)) s (light_run it (LBase turn_on_30_min) s : out)) /\
  doc_light 17 = Some (OnFor 300) /\ promise (LBase turn_on_30_min) = OnFor 18000 /\
  forall n, doc_light n <> Some (OnFor 18000).
Proof.
  intros Hr Hp Hw. split; [|split; [reflexivity|split; [reflexivity|]]].
  - intros s. rewrite light_run_normal, <- Hw. change (dec 17) with (light_what (LBase turn_on_30_min)).
    apply command_answered; [assumption|assumption|]. apply (dec_tagtext 17).
  - intros n. destruct n as [|p]; [discriminate|].
    do 6 (try (destruct p as [p|p|]; try discriminate)).
Qed.

Lemma wire_inj3 a b c a' b' c' :
  Forall tagtext [a; b; c] -> Forall tagtext [a'; b'; c'] ->
  wire [a; b; c] = wire [a'; b'; c'] -> a = a' /\ b = b' /\ c = c'.
Proof.
  intros H1 H2 E. rewrite !wire_frame in E by discriminate. apply frame_inj in E; try discriminate.
  - injection E as -> -> ->. auto.
  - eapply Forall_impl; [|exact H1]. intros t. apply tagtext_valid.
  - eapply Forall_impl; [|exact H2]. intros t. apply tagtext_valid.
Qed.

Theorem light_distinct c c' a a' :
  tagtext a -> tagtext a' ->
  frame_cmd LIGHTING (light_what c) a = frame_cmd LIGHTING (light_what c') a' -> c = c' /\ a = a'.
Proof.
  intros Ha Ha' E. unfold frame_cmd in E.
  assert (T : forall c, tagtext (light_what c)).
  { intros x. apply tagtext_valid. destruct x as [[]|[]|[]| |]; reflexivity. }
  apply wire_inj3 in E.
  - destruct E as (_ & E & ->). split; [|reflexivity].
    destruct c as [[]|[]|[]| |], c' as [[]|[]|[]| |]; try reflexivity; discriminate E.
  - repeat (apply Forall_cons; [first [apply T | assumption | apply tagtext_valid; reflexivity]|]). apply Forall_nil.
  - repeat (apply Forall_cons; [first [apply T | assumption | apply tagtext_valid; reflexivity]|]). apply Forall_nil.
Qed.

(** Without a speed a dimmer is switched like any light. *)
Theorem dimmer_plain it (s : script) :
  (dimmer_turn_on it None s : out) = light_run it (LBase turn_on) s /\
  (dimmer_turn_off it None s : out) = light_run it (LBase turn_off) s.
Proof. split; reflexivity. Qed.

Theorem auto_documented it c (s : script) :
  ready it -> placed it -> it_who it = AUTOMATION ->
  answered (frame_cmd AUTOMATION (dec (doc_automation c)) (it_where it)) s (run_auto it c s : out).
Proof.
  intros Hr Hp Hw. unfold run_auto. replace (auto_what c) with (dec (doc_automation c)) by (destruct c; reflexivity).
  rewrite <- Hw. apply command_answered; [assumption|assumption|apply dec_tagtext].
Qed.

Lemma camera_sent it n (s : script) :
  ready it -> it_who it = VIDEO_DOOR_ENTRY ->
  answered (frame_camera n) s (send_command_without_where it (dec n) s : out).
Proof.
  intros Hr Hw. unfold send_command_without_where. apply ask; [assumption|]. rewrite Hw.
  apply generic_bytes; [discriminate|]. apply Forall_cons; [apply tagtext_valid; reflexivity|].
  apply Forall_cons; [apply dec_tagtext|apply Forall_nil].
Qed.

Theorem camera_documented it c (s : script) :
  ready it -> it_who it = VIDEO_DOOR_ENTRY ->
  answered (frame_camera (doc_camera c)) s (run_cam it c s : out).
Proof.
  intros Hr Hw. unfold run_cam. replace (cam_what c) with (dec (doc_camera c)) by (destruct c; reflexivity).
  apply camera_sent; assumption.
Qed.

Theorem camera_video it (s : script) :
  ready it -> placed it -> it_who it = VIDEO_DOOR_ENTRY ->
  answered (frame_cmd VIDEO_DOOR_ENTRY [48] (it_where it)) s (receive_video it s : out).
Proof.
  intros Hr Hp Hw. rewrite <- Hw. apply command_answered; [assumption|assumption|]. apply (dec_tagtext 0).
Qed.

Theorem camera_distinct c c' : frame_camera (doc_camera c) = frame_camera (doc_camera c') -> c = c'.
Proof. destruct c, c'; try reflexivity; discriminate. Qed.

(** The frame that frees the resources is not the documented one. *)
Theorem camera_free it (s : script) :
  ready it -> it_who it = VIDEO_DOOR_ENTRY ->
  sents (evs_of (run_cam it free_resources s : out)) = [lit "*7*9##"] /\ doc_free_resources = lit "*7*9*##".
Proof.
  intros Hr Hw. split; [|reflexivity]. pose proof (camera_documented it free_resources s Hr Hw) as H.
  inversion H; reflexivity.
Qed.

(** ** Parameters of dimmer commands *)

Lemma light_values_nohash : Forall (fun v => ~ In 35 v) what_light_values.
Proof.
  apply Forall_forall. intros v Hv Hc.
  assert (E : forallb (fun v => negb (existsb (N.eqb 35) v)) what_light_values = true) by reflexivity.
  rewrite forallb_forall in E. specialize (E v Hv). apply negb_true_iff in E.
  assert (X : existsb (N.eqb 35) v = true) by (apply existsb_exists; exists 35; auto). congruence.
Qed.

Lemma enum_param_fails w p : enum_with_parameter what_light_values w p = Err ValueError.
Proof.
  unfold enum_with_parameter. destruct (py_str_int p) as [t|e] eqn:E.
  - cbn [bind]. unfold enum_of. destruct (str_in (w ++ [c_hash] ++ t) what_light_values) eqn:I; [|reflexivity].
    exfalso. unfold str_in in I. apply existsb_exists in I as (v & Hv & Ev). apply str_eqb_spec in Ev. subst v.
    pose proof light_values_nohash as F. rewrite Forall_forall in F. apply (F _ Hv).
    apply in_or_app. right. left. reflexivity.
  - cbn [bind]. unfold py_str_int in E. destruct (_ <? _); congruence.
Qed.

Theorem dimmer_params it v w (s : script) :
  (dimmer_turn_on it (Some v) s : out) = ([], s, Err ValueError) /\
  (dimmer_turn_off it (Some v) s : out) = ([], s, Err ValueError) /\
  (up_percent it (Some v) w s : out) = ([], s, Err ValueError) /\
  (up_percent it w (Some v) s : out) = ([], s, Err ValueError) /\
  (down_percent it (Some v) w s : out) = ([], s, Err ValueError) /\
  (down_percent it w (Some v) s : out) = ([], s, Err ValueError).
Proof.
  assert (A : forall what, (dimmer_speed it what (Some v) s : out) = ([], s, Err ValueError)).
  { intros what. unfold dimmer_speed. destruct (_ || _); [reflexivity|]. rewrite enum_param_fails. reflexivity. }
  assert (B : forall what u w, (dimmer_step it what (Some u) w s : out) = ([], s, Err ValueError)).
  { intros what u w'. unfold dimmer_step. destruct (_ || _); [reflexivity|]. rewrite enum_param_fails. reflexivity. }
  assert (D : forall what w, (dimmer_step it what w (Some v) s : out) = ([], s, Err ValueError)).
  { intros what [w'|]; [apply B|]. unfold dimmer_step. rewrite andthen_lift, enum_param_fails. reflexivity. }
  repeat split; first [apply A | apply B | apply D].
Qed.

(** ** Range checks *)

Lemma value_int_ok z : (0 <= z)%Z -> slen (dec (Z.to_N z)) <= 4300 -> value_int z = Ok (dec (Z.to_N z)).
Proof.
  intros Hz Hl. apply tag_int. split; [assumption|]. split; [apply numeral_dec; reflexivity|exact Hl].
Qed.

Lemma small_len n : n < 100000 -> slen (dec n) <= 4300.
Proof.
  intros H. unfold slen. pose proof (dec_length_bound 5 n ltac:(lia) H). lia.
Qed.

Lemma value_int_small z : (0 <= z < 100000)%Z -> value_int z = Ok (dec (Z.to_N z)).
Proof. intros H. apply value_int_ok; [lia|]. apply small_len. lia. Qed.

Lemma value_int_neg z : (z < 0)%Z -> exists e, value_int z = Err e /\ (e = InvalidTag \/ e = ValueError).
Proof.
  intros H. unfold value_int. destruct (tag_make (AInt z)) as [t|e] eqn:E.
  - apply tag_int in E. lia.
  - exists e. split; [reflexivity|]. apply tag_int in E. tauto.
Qed.

Lemma value_int_neg_small z : (-100000 < z < 0)%Z -> value_int z = Err InvalidTag.
Proof.
  intros H. destruct (value_int_neg z ltac:(lia)) as (e & E & _). rewrite E.
  apply (proj2 (tag_int z)) in E as [[-> _]|[-> E]]; [reflexivity|].
  exfalso. apply E, printable_dec. apply small_len. lia.
Qed.

Theorem temporization_in_range it h m x (s : script) :
  ready it -> placed it -> (0 <= h < 24)%Z -> (0 <= m < 60)%Z -> (0 <= x < 60)%Z ->
  answered (frame_dimwri (it_who it) (it_where it) [50] [dec (Z.to_N h); dec (Z.to_N m); dec (Z.to_N x)]) s
    (temporization_command it h m x s : out).
Proof.
  intros Hr Hp Hh Hm Hx. unfold temporization_command.
  replace (_ || _ || _)%bool with false
    by (symmetry; rewrite !orb_false_iff, !Z.leb_gt; lia).
  rewrite !value_int_small by lia. rewrite !andthen_lift.
  apply writing_answered; try assumption; [apply (dec_tagtext 2)|].
  repeat (apply Forall_cons; [apply dec_tagtext|]). apply Forall_nil.
Qed.

Theorem temporization_out_of_range it h m x (s : script) :
  ~ ((0 <= h < 24) /\ (0 <= m < 60) /\ (0 <= x < 60))%Z ->
  exists e, (temporization_command it h m x s : out) = ([], s, Err e) /\ (e = ValueError \/ e = InvalidTag) /\
    ((24 <= h \/ 60 <= m \/ 60 <= x)%Z -> e = ValueError) /\
    ((-100000 < h < 24 /\ -100000 < m < 60 /\ -100000 < x < 60)%Z -> e = InvalidTag).
Proof.
  intros H. unfold temporization_command.
  destruct ((24 <=? h) || (60 <=? m) || (60 <=? x))%Z eqn:E.
  - exists ValueError. split; [reflexivity|]. split; [auto|]. split; [auto|].
    intros HH. exfalso. rewrite !orb_true_iff, !Z.leb_le in E. lia.
  - rewrite !orb_false_iff, !Z.leb_gt in E.
    assert (V : forall z, (z < 60)%Z -> (exists t, value_int z = Ok t /\ 0 <= z)%Z \/ (exists e, value_int z = Err e /\ z < 0 /\ (e = InvalidTag \/ e = ValueError) /\ (-100000 < z -> e = InvalidTag))%Z).
    { intros z Hz. destruct (Z_lt_le_dec z 0) as [Hn|Hn].
      - right. destruct (value_int_neg z Hn) as (e & Ee & He). exists e. split; [assumption|]. split; [assumption|].
        split; [assumption|]. intros Hs. rewrite value_int_neg_small in Ee by lia. congruence.
      - left. rewrite value_int_small by lia. eauto. }
    assert (K : exists e, (temporization_command it h m x s : out) = ([], s, Err e) /\ (e = ValueError \/ e = InvalidTag) /\
      ((-100000 < h /\ -100000 < m /\ -100000 < x)%Z -> e = InvalidTag)).
    { unfold temporization_command. replace ((24 <=? h) || (60 <=? m) || (60 <=? x))%Z with false
        by (symmetry; rewrite !orb_false_iff, !Z.leb_gt; lia).
      destruct (V h ltac:(lia)) as [(th & -> & Hh)|(e & -> & Hh & He & Hs)].
      2:{ exists e. split; [reflexivity|]. split; [tauto|]. intros; apply Hs; lia. }
      rewrite andthen_lift.
      destruct (V m ltac:(lia)) as [(tm & -> & Hm)|(e & -> & Hm & He & Hs)].
      2:{ exists e. split; [reflexivity|]. split; [tauto|]. intros; apply Hs; lia. }
      rewrite andthen_lift.
      destruct (V x ltac:(lia)) as [(tx & -> & Hx)|(e & -> & Hx & He & Hs)].
      2:{ exists e. split; [reflexivity|]. split; [tauto|]. intros; apply Hs; lia. }
      lia. }
    unfold temporization_command in K.
    replace ((24 <=? h) || (60 <=? m) || (60 <=? x))%Z with false in K
      by (symmetry; rewrite !orb_false_iff, !Z.leb_gt; lia).
    destruct K as (e & K1 & K2 & K3). exists e. split; [exact K1|]. split; [exact K2|]. split; [lia|]. intros; apply K3; lia.
Qed.

Theorem hsv_range it h x v (s : script) :
  ready it -> placed it ->
  ((0 <= h <= 359 /\ 0 <= x <= 100 /\ 0 <= v <= 100)%Z ->
   answered (frame_dimwri (it_who it) (it_where it) [49; 50] [dec (Z.to_N h); dec (Z.to_N x); dec (Z.to_N v)]) s
     (set_hsv it h x v s : out)) /\
  (~ (0 <= h <= 359 /\ 0 <= x <= 100 /\ 0 <= v <= 100)%Z -> (set_hsv it h x v s : out) = ([], s, Err ValueError)).
Proof.
  intros Hr Hp. unfold set_hsv. split; intros H.
  - replace ((h <? 0) || (359 <? h))%Z with false by (symmetry; rewrite orb_false_iff, !Z.ltb_ge; lia).
    replace ((x <? 0) || (100 <? x))%Z with false by (symmetry; rewrite orb_false_iff, !Z.ltb_ge; lia).
    replace ((v <? 0) || (100 <? v))%Z with false by (symmetry; rewrite orb_false_iff, !Z.ltb_ge; lia).
    rewrite !value_int_small by lia. rewrite !andthen_lift.
    apply writing_answered; try assumption; [apply (dec_tagtext 12)|].
    repeat (apply Forall_cons; [apply dec_tagtext|]). apply Forall_nil.
  - destruct ((h <? 0) || (359 <? h))%Z eqn:E1; [reflexivity|].
    destruct ((x <? 0) || (100 <? x))%Z eqn:E2; [reflexivity|].
    destruct ((v <? 0) || (100 <? v))%Z eqn:E3; [reflexivity|].
    exfalso. rewrite !orb_false_iff, !Z.ltb_ge in *. lia.
Qed.

Theorem white_range it t (s : script) :
  ready it -> placed it ->
  ((1 <= t <= 65534)%Z ->
   answered (frame_dimwri (it_who it) (it_where it) [49; 51] [dec (Z.to_N t)]) s (set_white_temperature it t s : out)) /\
  (~ (1 <= t <= 65534)%Z -> (set_white_temperature it t s : out) = ([], s, Err ValueError)).
Proof.
  intros Hr Hp. unfold set_white_temperature. split; intros H.
  - replace ((t <? 1) || (65534 <? t))%Z with false by (symmetry; rewrite orb_false_iff, !Z.ltb_ge; lia).
    rewrite !value_int_small by lia. rewrite !andthen_lift.
    apply writing_answered; try assumption; [apply (dec_tagtext 13)|].
    repeat (apply Forall_cons; [apply dec_tagtext|]). apply Forall_nil.
  - destruct ((t <? 1) || (65534 <? t))%Z eqn:E1; [reflexivity|].
    exfalso. rewrite !orb_false_iff, !Z.ltb_ge in *. lia.
Qed.

Theorem dial_range it x y (s : script) :
  ready it -> it_who it = VIDEO_DOOR_ENTRY ->
  ((1 <= x <= 4 /\ 1 <= y <= 4)%Z ->
   answered (frame_camera (300 + 10 * Z.to_N x + Z.to_N y)) s (display_dial it x y s : out)) /\
  (~ (1 <= x <= 4 /\ 1 <= y <= 4)%Z -> (display_dial it x y s : out) = ([], s, Err ValueError)).
Proof.
  intros Hr Hw. unfold display_dial. split; intros H.
  - assert (Hx : (x = 1 \/ x = 2 \/ x = 3 \/ x = 4)%Z) by lia.
    assert (Hy : (y = 1 \/ y = 2 \/ y = 3 \/ y = 4)%Z) by lia.
    destruct Hx as [Hx|[Hx|[Hx|Hx]]]; destruct Hy as [Hy|[Hy|[Hy|Hy]]]; subst x y;
      cbn [Z.leb Z.ltb Z.compare Pos.compare Pos.compare_cont andb orb negb];
      match goal with |- context [dial_get ?a ?b] =>
        let r := eval vm_compute in (dial_get a b) in change (dial_get a b) with r
      end; rewrite andthen_lift;
      match goal with |- answered (frame_camera ?n) _ _ =>
        let n' := eval vm_compute in n in exact (camera_sent it n' s Hr Hw)
      end.
  - destruct (negb ((1 <=? x) && (x <? 5)) || negb ((1 <=? y) && (y <? 5)))%Z eqn:E; [reflexivity|].
    exfalso. rewrite orb_false_iff, !negb_false_iff, !andb_true_iff, !Z.leb_le, !Z.ltb_lt in E. lia.
Qed.

(** No range is checked here: every pair of numbers is written. *)
Theorem brightness_any it b v (s : script) :
  ready it -> placed it -> slen (dec b) <= 4300 -> slen (dec v) <= 4300 ->
  answered (frame_dimwri (it_who it) (it_where it) [49] [dec b; dec v]) s
    (set_brightness_with_speed it (AInt (Z.of_N b)) (AInt (Z.of_N v)) s : out).
Proof.
  intros Hr Hp Hb Hv. unfold set_brightness_with_speed.
  pose proof (value_int_ok (Z.of_N b) ltac:(lia)) as Eb. pose proof (value_int_ok (Z.of_N v) ltac:(lia)) as Ev.
  rewrite N2Z.id in Eb, Ev. unfold value_int in *. rewrite Eb, Ev by assumption. rewrite !andthen_lift.
  apply writing_answered; try assumption; [apply (dec_tagtext 1)|].
  repeat (apply Forall_cons; [apply dec_tagtext|]). apply Forall_nil.
Qed.

End Cmd.
