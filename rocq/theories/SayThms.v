(** * What an item can say: proofs *)
From Coq Require Import String List NArith ZArith Bool Lia.
From Verif Require Import PyStr Tags Messages MessageFacts SpecMsg MessageThms MessageThms2 SpecTag TagThms MessageThms3
  IO Client SpecClient HandshakeThms Items SpecItem ItemThms Lighting LightThms PyDate SpecGateway CalendarThms Gateway GatewayThms PyFloat Energy
  SpecEnergy EnergyThms2 SpecFrames FrameThms MeterThms SpecSay.
Import ListNotations.
Open Scope N_scope.
Open Scope list_scope.

(** ** Everything written is said *)

Lemma bytes_inv m b : msg_bytes m = Ok b -> b = wire (ptags m).
Proof. rewrite <- msg_str_wire. unfold msg_bytes, encode_ascii. destruct (forallb _ _); congruence. Qed.

Lemma with_inv s z r : with_parameter s (AInt z) = Ok r -> exists n t, shown n t /\ r = s ++ 35 :: t.
Proof.
  unfold with_parameter. cbn [py_str]. destruct (py_str_int z) as [t|e] eqn:E; [|discriminate]. cbn [bind].
  intros H. destruct (mk_cases (s ++ [c_hash] ++ t)) as [[M T]|[M _]]; unfold mk in M; rewrite M in H; [|discriminate].
  injection H as <-. cbn [app] in T. apply Forall_app in T as [_ T]. inversion T as [|? ? _ T1]; subst.
  pose proof (str_int_digits _ _ E T1) as [D _]. unfold py_str_int in E.
  destruct (_ <? _) eqn:L; [discriminate|]. apply N.ltb_ge in L. destruct (z <? 0)%Z eqn:S.
  { injection E as <-. exfalso. inversion D as [|? ? H _]; subst. unfold digitchar, c_minus in H. lia. }
  injection E as <-. exists (Z.abs_N z), (dec (Z.abs_N z)). split; [|reflexivity].
  split; [apply numeral_dec; reflexivity|]. exact L.
Qed.

Lemma int_inv z r : tag_make (AInt z) = Ok r -> (0 <= z)%Z /\ r = dec (Z.to_N z) /\ shown (Z.to_N z) r.
Proof. intros H. apply tag_int in H as (P & E & L). split; [exact P|]. split; [apply numeral_dec, E|split; assumption]. Qed.

Section said.
Variable it : item.
Definition said (m : msg) : Prop := says (it_who it) (it_where it) (ptags m).

Lemma s_normal {Y} what : says (it_who it) (it_where it) [who_str (it_who it); what; it_where it] ->
  writes said (send_normal_message (Y:=Y) it what).
Proof. intros H. apply writes_normal. intros w E. apply mk_inv in E as [-> _]. exact H. Qed.
Lemma s_status {Y} (body : msg -> res (list Y)) : says (it_who it) (it_where it) [35 :: who_str (it_who it); it_where it] ->
  writes said (send_status_request it body).
Proof. intros H. apply writes_status, H. Qed.
Lemma s_request {Y} dim (body : msg -> res (list Y)) :
  says (it_who it) (it_where it) [35 :: who_str (it_who it); it_where it; dim] ->
  writes said (send_dimension_request it dim body).
Proof. intros H. apply writes_request. intros w E. apply mk_inv in E as [-> _]. exact H. Qed.
Lemma s_write {Y} dim v vs : says (it_who it) (it_where it) ((35 :: who_str (it_who it)) :: it_where it :: (35 :: dim) :: v :: vs) ->
  writes said (send_dimension_writing (Y:=Y) it dim (v :: vs)).
Proof. intros H. apply writes_writing. intros w E. apply mk_inv in E as [-> _]. exact H. Qed.
Lemma s_camera {Y} what : says (it_who it) (it_where it) [who_str (it_who it); what] ->
  writes said (send_command_without_where (Y:=Y) it what).
Proof. intros H. apply writes_camera. exact H. Qed.
Lemma s_single {Y} dim : says (it_who it) (it_where it) [35 :: who_str (it_who it); it_where it; dim] ->
  writes said (single_dim_req (Y:=Y) it dim).
Proof. intros H. apply writes_single. intros w E. apply mk_inv in E as [-> _]. exact H. Qed.
Lemma s_gateway {Y A} w (decode : list str -> res A) : it_who it = GATEWAY -> writes said (ask_gateway (Y:=Y) it w decode).
Proof.
  intros W. apply writes_andthen; [|intros; apply writes_lift]. apply s_single. rewrite W.
  assert (D : exists d, In d gateway_dims /\ wg_str w = dec d).
  { exists (dval (wg_str w)). destruct w; (split; [vm_compute; tauto|reflexivity]). }
  destruct D as (d & I & ->). exact (S_gateway_ask _ d I).
Qed.
Lemma de_dec d : exists n, In n (meter_dims ++ bare_dims) /\ de_str d = dec n.
Proof. exists (dval (de_str d)). destruct d; (split; [vm_compute; tauto|reflexivity]). Qed.
Lemma s_energy {Y A} d (decode : list str -> res A) : it_who it = ENERGY_MANAGEMENT -> writes said (ask_energy (Y:=Y) it (Ok (de_str d)) decode).
Proof.
  intros W. apply writes_lift_then. intros x [= <-]. apply writes_andthen; [|intros; apply writes_lift]. apply s_single. rewrite W.
  destruct (de_dec d) as (n & I & ->). exact (S_meter_ask _ n I).
Qed.
Lemma s_enum {Y} w p (f : str -> io Y unit) : writes said (andthen (lift (enum_with_parameter what_light_values w p)) f).
Proof. apply writes_lift_then. intros a H. rewrite enum_param_fails in H. discriminate. Qed.

Lemma s_what {Y} n : it_who it = LIGHTING -> In n light_whats -> writes said (send_normal_message (Y:=Y) it (dec n)).
Proof. intros W I. apply s_normal. rewrite W. exact (S_light _ n I). Qed.
Lemma s_text {Y} w : it_who it = LIGHTING -> w = dec (dval w) -> In (dval w) light_whats -> writes said (send_normal_message (Y:=Y) it w).
Proof. intros W E I. rewrite E. apply s_what; assumption. Qed.
Lemma s_speed {Y} n v : it_who it = LIGHTING -> In n light_whats -> writes said (dimmer_speed (Y:=Y) it (dec n) v).
Proof.
  intros W I. destruct v as [v|]; cbn [dimmer_speed]; [|apply s_what; assumption].
  apply writes_if; intros _; [apply writes_raise|]. apply s_enum.
Qed.
Lemma s_step {Y} n v w : it_who it = LIGHTING -> In n light_whats -> writes said (dimmer_step (Y:=Y) it (dec n) v w).
Proof.
  intros W I. unfold dimmer_step. apply writes_if; intros _; [apply writes_raise|].
  destruct v as [v|]; [apply s_enum|]. apply writes_lift_then. intros a [= <-].
  destruct w as [w|]; [apply s_enum|]. apply writes_lift_then. intros a [= <-]. apply s_what; assumption.
Qed.

Lemma zone_said us : zone4 (sent_zone us).
Proof.
  pose proof (own_hours_range us). unfold sent_zone. apply (Zone4 _ _ (own_hours us)).
  - destruct (0 <=? us)%Z; auto.
  - apply fmt_fixed; [lia|]. cbn. lia.
  - lia.
Qed.
Lemma clock_said h m s : (0 <= h <= 23)%Z -> (0 <= m <= 59)%Z -> (0 <= s <= 59)%Z -> clock (fmt 2 h) (fmt 2 m) (fmt 2 s).
Proof. intros H1 H2 H3. exists h, m, s. repeat split; try (apply fmt_fixed; [lia|cbn; lia]); lia. Qed.
Lemma date_said y m d : calendar_date (y, m, d) ->
  day_fields (fmt 2 (sunday_based (weekday (y, m, d)))) (fmt 2 d) (fmt 2 m) (fmt 1 y).
Proof.
  intros C. pose proof (calendar_bounds _ _ _ C). exists (sunday_based (weekday (y, m, d))), d, m, y.
  split; [exact C|]. split; [apply weekday_true; [assumption|reflexivity]|].
  pose proof (sunday_based_range _ (weekday_range (y, m, d))).
  split; [apply fmt_fixed; lia|]. split; [apply fmt_fixed; lia|]. split; [apply fmt_fixed; lia|].
  apply numeral_dec. unfold fmt, pad. destruct (dec (Z.to_N y)) as [|c r] eqn:E; [|reflexivity].
  exfalso. destruct (proj2 (numeral_dec (Z.to_N y) _) eq_refl) as (_ & Q & _). contradiction.
Qed.
Lemma tz_inv t r : tz_to_own_tz t = Ok r -> exists us, r = sent_zone us.
Proof. destruct t as [| |us]; try discriminate. rewrite tz_sent. intros [= <-]. eauto. Qed.

Lemma energy_said c w : it_who it = ENERGY_MANAGEMENT -> energy_what c = Ok w -> says ENERGY_MANAGEMENT (it_where it) [lit "18"; w; it_where it].
Proof.
  intros W.
  assert (B : forall n, In n [26; 27; 71; 73; 74] -> Ok (dec n) = Ok w -> says ENERGY_MANAGEMENT (it_where it) [lit "18"; w; it_where it]).
  { intros n I [= <-]. apply S_meter, I. }
  assert (Q : forall n z, In n [58; 59; 510; 73; 75] -> param (dec n) z = Ok w -> says ENERGY_MANAGEMENT (it_where it) [lit "18"; w; it_where it]).
  { intros n z I H. apply with_inv in H as (x & t & Sh & ->). exact (S_meter_number _ n x t I Sh). }
  destruct c as [day month n1 n2|month n|month n|month n| |[t|]| |n| |]; cbn [energy_what].
  - intros H. unfold param in H. destruct (with_parameter _ _) as [u|e] eqn:E; [|discriminate]. cbn [bind] in H.
    apply with_inv in E as (x & a & Sx & ->). apply with_inv in H as (y & b & Sy & ->).
    rewrite <- app_assoc. exact (S_daily _ x y a b Sx Sy).
  - apply (Q 58). vm_compute. tauto.
  - apply (Q 59). vm_compute. tauto.
  - apply (Q 510). vm_compute. tauto.
  - apply (B 71). vm_compute. tauto.
  - apply (Q 73). vm_compute. tauto.
  - apply (B 73). vm_compute. tauto.
  - apply (B 74). vm_compute. tauto.
  - apply (Q 75). vm_compute. tauto.
  - apply (B 26). vm_compute. tauto.
  - apply (B 27). vm_compute. tauto.
Qed.

Ltac lifts := repeat (match goal with |- writes _ (andthen (lift _) _) => apply writes_lift_then; intros ? ? end).
Ltac ifs := repeat (apply writes_if; intros ?; [try apply writes_raise|try apply writes_raise]).
Ltac bools := rewrite ?orb_false_iff, ?Z.leb_gt, ?Z.ltb_ge, ?negb_false_iff, ?andb_true_iff, ?Z.leb_le, ?Z.ltb_lt in *.
Ltac ints := repeat match goal with
  | H : value_int _ = Ok _ |- _ => unfold value_int in H
  | H : tag_make (AInt _) = Ok _ |- _ => apply int_inv in H as (? & -> & _)
  end.
Ltac inl := vm_compute; tauto.

Lemma arg_tag a r : tag_make a = Ok r -> tagtext r.
Proof.
  destruct a as [s|z|b]; intros E.
  - apply mk_inv in E as [-> T]. exact T.
  - apply int_wire in E as [E _]. exact E.
  - rewrite tag_bool in E. discriminate.
Qed.

Theorem named_says W Y A (x : io Y A) : it_who it = W -> named it W Y A x -> writes said x.
Proof.
  intros HW M. destruct M.
  - apply (s_text _ HW); destruct c; (reflexivity || inl).
  - apply (s_text _ HW); destruct c; (reflexivity || inl).
  - apply (s_text _ HW); destruct c; (reflexivity || inl).
  - apply (s_speed 1 v HW). inl.
  - apply (s_speed 0 v HW). inl.
  - apply (s_step 30 v w HW). inl.
  - apply (s_step 31 v w HW). inl.
  - unfold temporization_command. ifs. lifts. ints. bools. apply s_write. rewrite HW. apply (S_timer _ (Z.to_N h) (Z.to_N m) (Z.to_N s)); lia.
  - unfold set_brightness_with_speed. lifts. apply s_write. rewrite HW. apply S_brightness; eapply arg_tag; eassumption.
  - unfold set_hsv. ifs. lifts. ints. bools. apply s_write. rewrite HW. apply (S_hsv _ (Z.to_N h) (Z.to_N s) (Z.to_N v)); lia.
  - unfold set_white_temperature. ifs. lifts. ints. bools. apply s_write. rewrite HW. apply (S_white _ (Z.to_N t)); lia.
  - apply s_status. rewrite HW. apply S_light_status.
  - apply s_status. rewrite HW. apply S_light_status.
  - apply s_request. rewrite HW. apply (S_light_ask _ 2). inl.
  - apply s_request. rewrite HW. apply (S_light_ask _ 3). inl.
  - apply s_request. rewrite HW. apply (S_light_ask _ 1). inl.
  - apply s_request. rewrite HW. apply (S_light_ask _ 12). inl.
  - apply s_request. rewrite HW. apply (S_light_ask _ 14). inl.
  - apply s_normal. rewrite HW. destruct c; [apply (S_shutter _ 0)|apply (S_shutter _ 1)|apply (S_shutter _ 2)]; lia.
  - apply s_status. rewrite HW. apply S_shutter_status.
  - apply s_normal. rewrite HW. apply S_video.
  - apply s_camera. rewrite HW.
    assert (D : exists d, (d = 9 \/ In d camera_whats) /\ cam_what c = dec d).
    { exists (dval (cam_what c)). destruct c; (split; [vm_compute; tauto|reflexivity]). }
    destruct D as (d & I & ->). exact (S_camera _ d I).
  - unfold display_dial. ifs. lifts. bools. apply s_camera. rewrite HW.
    assert (Hx : (x = 1 \/ x = 2 \/ x = 3 \/ x = 4)%Z) by lia.
    assert (Hy : (y = 1 \/ y = 2 \/ y = 3 \/ y = 4)%Z) by lia.
    destruct Hx as [Hx|[Hx|[Hx|Hx]]]; destruct Hy as [Hy|[Hy|[Hy|Hy]]]; subst x y;
      match goal with H : dial_get (Zpos ?a) (Zpos ?b) = Ok _ |- _ =>
        let H' := fresh in assert (H' : dial_get (Zpos a) (Zpos b) = Ok (dec (300 + 10 * Npos a + Npos b))) by reflexivity;
        rewrite H' in H; injection H as <-; apply (S_dial _ (Npos a) (Npos b)); lia end.
  - apply s_gateway, HW.
  - apply s_gateway, HW.
  - apply s_gateway, HW.
  - apply s_gateway, HW.
  - apply s_gateway, HW.
  - unfold get_netinfo. apply writes_andthen; [apply s_gateway, HW|]. intros ip.
    apply writes_andthen; [apply s_gateway, HW|intros; apply writes_lift].
  - apply s_gateway, HW.
  - apply s_gateway, HW.
  - apply s_gateway, HW.
  - apply s_gateway, HW.
  - apply s_gateway, HW.
  - apply s_gateway, HW.
  - unfold set_time. lifts. rewrite mk_fmt in *. repeat match goal with H : Ok _ = Ok _ |- _ => injection H as <- end.
    match goal with H : tz_to_own_tz _ = Ok _ |- _ => apply tz_inv in H as (us & ->) end.
    apply s_write. rewrite HW. apply S_set_time; [apply clock_said; assumption|apply zone_said].
  - intros s b. rewrite set_date_is. revert s b. change (writes said (send_dimension_writing (Y:=Y) it (wg_str DATE) (sent_date dt))).
    destruct dt as [[y m] d]. apply s_write. rewrite HW. apply S_set_date, date_said. assumption.
  - destruct dt as [[y mo] d]. unfold set_datetime. lifts. rewrite mk_fmt in *.
    repeat match goal with H : Ok _ = Ok _ |- _ => injection H as <- end.
    match goal with H : tz_to_own_tz _ = Ok _ |- _ => apply tz_inv in H as (us & ->) end.
    apply s_write. rewrite HW. eapply S_set_datetime; [apply clock_said; assumption|apply zone_said|apply date_said; assumption].
  - unfold run_energy. lifts. apply s_normal. rewrite HW. eapply energy_said; eassumption.
  - apply s_energy, HW.
  - apply s_energy, HW.
  - apply s_energy, HW.
  - apply s_energy, HW.
  - apply s_energy, HW.
  - apply s_energy, HW.
  - unfold request_status. apply writes_andthen; [|intros; apply writes_lift].
    apply writes_collect, s_request. rewrite HW. destruct (de_dec d) as (n & I & ->). exact (S_meter_ask _ n I).
  - unfold start_sending_instant_power. lifts.
    match goal with H : param _ _ = Ok _ |- _ => apply with_inv in H as (x & q & Sx & ->) end.
    match goal with H : tag_make _ = Ok _ |- _ => apply int_inv in H as (? & _ & Sy) end.
    apply s_write. rewrite HW. exact (S_power _ _ _ _ _ Sy Sx).
  - unfold stop_sending_instant_power. lifts.
    match goal with H : param _ _ = Ok _ |- _ => apply with_inv in H as (x & q & Sx & ->) end.
    match goal with H : tag_make _ = Ok _ |- _ => apply int_inv in H as (? & _ & Sy) end.
    apply s_write. rewrite HW. exact (S_power _ _ _ _ _ Sy Sx).
  - unfold get_energy_unit_per_month, ask_energy. apply writes_lift_then. intros d H. unfold param in H.
    destruct (with_parameter _ _) as [u|e] eqn:E; [|discriminate]. cbn [bind] in H.
    apply with_inv in E as (x & a & Sx & ->). apply with_inv in H as (z & b & Sz & ->).
    apply writes_andthen; [|intros; apply writes_lift]. apply s_single. rewrite HW, <- app_assoc.
    exact (S_per_month _ x z a b Sx Sz).
  - unfold get_totalizers, ask_energy. apply writes_lift_then. intros d H. apply with_inv in H as (x & a & Sx & ->).
    apply writes_andthen; [|intros; apply writes_lift]. apply s_single. rewrite HW. exact (S_totalizers _ x a Sx).
Qed.
End said.

(** ** Everything said can be written *)

Section sayable.
Variable it : item.
Hypothesis Hr : ready it.
Hypothesis Hp : placed it.

Definition sent_by {Y A} (x : io Y A) (ts : list str) : Prop := In (wire ts) (sents (evs_of (x []))).

Lemma sent_answered {Y} (x : io Y unit) ts : answered (wire ts) [] (x []) -> sent_by x ts.
Proof. unfold sent_by. intros H. inversion H. left. reflexivity. Qed.

Lemma sent_andthen {Y A B} (x : io Y A) (f : A -> io Y B) ts : sent_by x ts -> sent_by (andthen x f) ts.
Proof.
  unfold sent_by, andthen. destruct (x []) as [[es s] [a|e]]; [|auto]. destruct (f a s) as [[es' s'] r]. cbn.
  intros H. rewrite sents_app. apply in_or_app. auto.
Qed.
Lemma sent_collect {Y Z} (g : io Y unit) ts : sent_by g ts -> sent_by (collect (Z:=Z) g) ts.
Proof. unfold sent_by, collect. destruct (g []) as [[es s] r]. cbn. rewrite sents_drop. auto. Qed.
Lemma sent_lift {Y A B} (a : A) (f : A -> io Y B) ts : sent_by (f a) ts -> sent_by (andthen (lift (Ok a)) f) ts.
Proof. unfold sent_by. rewrite andthen_lift. auto. Qed.
Lemma sent_send {Y} m ts : msg_bytes m = Ok (wire ts) -> sent_by (item_send (Y:=Y) it m) ts.
Proof. intros H. unfold sent_by. rewrite (item_send_ok it m _ [] Hr H). left. reflexivity. Qed.

Lemma b_normal {Y} what : tagtext what -> sent_by (send_normal_message (Y:=Y) it what) [who_str (it_who it); what; it_where it].
Proof. intros T. apply sent_answered. apply command_answered; assumption. Qed.
Lemma b_write {Y} dim v vs : tagtext dim -> Forall tagtext (v :: vs) ->
  sent_by (send_dimension_writing (Y:=Y) it dim (v :: vs)) ((35 :: who_str (it_who it)) :: it_where it :: (35 :: dim) :: v :: vs).
Proof. intros T V. apply sent_answered. apply writing_answered; assumption. Qed.
Lemma b_status {Y} (body : msg -> res (list Y)) : sent_by (send_status_request it body) [35 :: who_str (it_who it); it_where it].
Proof. apply sent_andthen, sent_send, status_bytes, Hp. Qed.
Lemma b_request {Y} dim (body : msg -> res (list Y)) : tagtext dim ->
  sent_by (send_dimension_request it dim body) [35 :: who_str (it_who it); it_where it; dim].
Proof.
  intros T. unfold send_dimension_request. rewrite (proj2 (mk_ok dim) T). apply sent_lift.
  apply sent_andthen, sent_send, dimreq_bytes; assumption.
Qed.
Lemma b_single {Y} dim : tagtext dim -> sent_by (single_dim_req (Y:=Y) it dim) [35 :: who_str (it_who it); it_where it; dim].
Proof. intros T. apply sent_andthen, sent_collect, b_request, T. Qed.
Lemma b_energy {Y A} dim d (decode : list str -> res A) : dim = Ok d -> tagtext d ->
  sent_by (ask_energy (Y:=Y) it dim decode) [35 :: who_str (it_who it); it_where it; d].
Proof. intros -> T. apply sent_lift, sent_andthen, b_single, T. Qed.
Lemma b_gateway {Y A} w (decode : list str -> res A) : sent_by (ask_gateway (Y:=Y) it w decode) [35 :: who_str (it_who it); it_where it; wg_str w].
Proof. apply sent_andthen, b_single, wg_tag. Qed.
Lemma b_camera {Y} what : tagtext what -> sent_by (send_command_without_where (Y:=Y) it what) [who_str (it_who it); what].
Proof.
  intros T. apply sent_andthen, sent_send, generic_bytes; [discriminate|].
  apply Forall_cons; [apply digits_tag, who_digits|]. apply Forall_cons; [exact T|apply Forall_nil].
Qed.

Definition sayable (ts : list str) : Prop :=
  exists Y A (x : io Y A) s, named it (it_who it) Y A x /\ In (wire ts) (sents (evs_of (x s))).

Lemma say Y A (x : io Y A) W ts : it_who it = W -> named it W Y A x -> sent_by x ts -> sayable ts.
Proof. intros <- M S. exists Y, A, x, []. split; assumption. Qed.

Definition light_call (n : N) : io Empty_set unit :=
  match n with
  | 0 => run_base it turn_off | 1 => run_base it turn_on
  | 2 => run_level it set_20_percent | 3 => run_level it set_30_percent | 4 => run_level it set_40_percent
  | 5 => run_level it set_50_percent | 6 => run_level it set_60_percent | 7 => run_level it set_70_percent
  | 8 => run_level it set_80_percent | 9 => run_level it set_90_percent | 10 => run_level it set_100_percent
  | 11 => run_base it turn_on_1_min | 12 => run_base it turn_on_2_min | 13 => run_base it turn_on_3_min
  | 14 => run_base it turn_on_4_min | 15 => run_base it turn_on_5_min | 16 => run_base it turn_on_15_min
  | 17 => run_base it turn_on_30_min | 18 => run_base it turn_on_0_5_sec
  | 20 => run_blink it blink_0_5_sec | 21 => run_blink it blink_1_0_sec | 22 => run_blink it blink_1_5_sec
  | 23 => run_blink it blink_2_0_sec | 24 => run_blink it blink_2_5_sec | 25 => run_blink it blink_3_0_sec
  | 26 => run_blink it blink_3_5_sec | 27 => run_blink it blink_4_0_sec | 28 => run_blink it blink_4_5_sec
  | 29 => run_blink it blink_5_0_sec | 30 => up_percent it None None | _ => down_percent it None None
  end.

Lemma light_called n W : it_who it = W -> W = LIGHTING -> In n light_whats -> sayable [who_str W; dec n; it_where it].
Proof.
  intros HW -> I. apply (say Empty_set unit (light_call n) LIGHTING); [exact HW| |].
  - repeat (destruct I as [<-|I]; [first [exact (N_light it _ _)|exact (N_blink it _ _)|exact (N_level it _ _)|exact (N_up it _ _ _)|exact (N_down it _ _ _)]|]). destruct I.
  - pose proof (b_normal (Y:=Empty_set) (dec n) (dec_tagtext n)) as B. rewrite HW in B.
    repeat (destruct I as [<-|I]; [first [exact B|do 2 apply sent_lift; exact B]|]). destruct I.
Qed.

Lemma value_of_N n : n < 100000 -> value_int (Z.of_N n) = Ok (dec n).
Proof. intros H. rewrite value_int_small by lia. rewrite N2Z.id. reflexivity. Qed.

Lemma decs l : Forall tagtext (map dec l).
Proof. apply Forall_map, Forall_forall. intros n _. apply dec_tagtext. Qed.

Lemma fixed_fmt2 s n : fixed 2 s n -> (n <= 59)%Z -> s = fmt 2 n /\ (0 <= n <= 59)%Z.
Proof.
  intros F H. assert (0 <= n)%Z by (destruct F as ((_ & _ & _ & ->) & _); lia).
  split; [|lia]. apply (fixed_inj 2 _ _ n F). apply fmt_fixed; [lia|cbn; lia].
Qed.

Lemma zone_sent4 z : zone4 z -> exists us, z = sent_zone us.
Proof.
  intros [c s h Hc F Hh]. assert (0 <= h)%Z by (destruct F as ((_ & _ & _ & ->) & _); lia).
  assert (E : s = fmt 3 h) by (apply (fixed_inj 3 _ _ h F); apply fmt_fixed; [lia|cbn; lia]). subst s.
  unfold sent_zone. destruct Hc as [->| ->].
  - exists (h * 3600 * 1000000)%Z. destruct (Z.leb_spec 0 (h * 3600 * 1000000)); [|lia].
    f_equal. f_equal. unfold own_hours, td_seconds. rewrite Z.div_mul by lia. rewrite Z.mod_small by lia. symmetry. apply Z.div_mul. lia.
  - exists ((h * 3600 - 86400) * 1000000)%Z. destruct (Z.leb_spec 0 ((h * 3600 - 86400) * 1000000)); [lia|].
    f_equal. f_equal. unfold own_hours, td_seconds. rewrite Z.div_mul by lia.
    replace (h * 3600 - 86400)%Z with (h * 3600 + (-1) * 86400)%Z by lia. rewrite Z.mod_add by lia.
    rewrite Z.mod_small by lia. symmetry. apply Z.div_mul. lia.
Qed.

Lemma day_sent w d m y : day_fields w d m y -> exists ny nm nd, calendar_date (ny, nm, nd) /\ [w; d; m; y] = sent_date (ny, nm, nd).
Proof.
  intros (nw & nd & nm & ny & C & Fo & F1 & F2 & F3 & Nm). exists ny, nm, nd. split; [exact C|].
  eapply sent_date_is; eassumption.
Qed.

Definition gateway_call (n : N) : what_gateway :=
  match n with
  | 0 => TIME | 1 => DATE | 10 => IP_ADDRESS | 11 => NET_MASK | 12 => MAC_ADDRESS | 15 => DEVICE_TYPE
  | 16 => FIRMWARE_VERSION | 19 => UPTIME | 22 => DATE_TIME | 23 => KERNEL_VERSION | _ => DISTRIBUTION_VERSION
  end.

Lemma de_all n : In n (meter_dims ++ bare_dims) -> exists d, de_str d = dec n.
Proof.
  intros I.
  assert (H : forall n, In n (meter_dims ++ bare_dims) -> existsb (fun d => str_eqb (de_str d) (dec n)) all_de = true).
  { apply Forall_forall. vm_compute. repeat (apply Forall_cons; [reflexivity|]). apply Forall_nil. }
  specialize (H n I). apply existsb_exists in H as (d & _ & E). exists d. apply str_eqb_spec, E.
Qed.

Lemma param2 s x a y b : tagtext s -> shown x a -> shown y b ->
  (do w <- with_parameter s (AInt (Z.of_N x)); with_parameter w (AInt (Z.of_N y))) = Ok (s ++ 35 :: a ++ 35 :: b).
Proof.
  intros T Sx Sy. rewrite (with_int s x a T Sx). cbn [bind]. rewrite (with_int _ y b).
  - rewrite <- app_assoc. reflexivity.
  - apply hash_tag; [exact T|]. eapply shown_tag, Sx.
  - exact Sy.
Qed.

Theorem says_sayable ts : says (it_who it) (it_where it) ts -> sayable ts.
Proof.
  intros H. remember (it_who it) as W eqn:HW. remember (it_where it) as whr eqn:Hx. symmetry in HW.
  pose proof Hp as Tw. unfold placed in Tw.
  destruct H; subst whr.
  - apply (light_called n LIGHTING HW eq_refl H).
  - eapply (say _ _ _ _ _ HW); [apply N_light_status|]. pose proof (b_status light_status_body) as B. rewrite HW in B. exact B.
  - assert (B : forall Y (body : msg -> res (list Y)), sent_by (send_dimension_request it (dec d) body) [lit "#1"; it_where it; dec d]).
    { intros Y body. pose proof (b_request (dec d) body (dec_tagtext d)) as B. rewrite HW in B. exact B. }
    destruct H as [<-|[<-|[<-|[<-|[<-|[]]]]]]; eapply (say _ _ _ _ _ HW).
    + apply N_brightness_request.
    + apply B.
    + apply N_temporization_request.
    + apply B.
    + apply N_working_time.
    + apply B.
    + apply N_hsv_request.
    + apply B.
    + apply N_white_request.
    + apply B.
  - eapply (say _ _ _ _ _ HW); [apply (N_brightness it Empty_set (AStr b) (AStr v))|].
    unfold set_brightness_with_speed.
    change (tag_make (AStr b)) with (mk b). change (tag_make (AStr v)) with (mk v).
    rewrite (proj2 (mk_ok b) H), (proj2 (mk_ok v) H0). do 2 apply sent_lift.
    pose proof (b_write (Y:=Empty_set) (lit "1") b [v] (dec_tagtext 1)) as B. rewrite HW in B. apply B.
    apply Forall_cons; [exact H|]. apply Forall_cons; [exact H0|apply Forall_nil].
  - eapply (say _ _ _ _ _ HW); [apply (N_temporization it Empty_set (Z.of_N h) (Z.of_N m) (Z.of_N s))|].
    unfold temporization_command.
    replace ((24 <=? Z.of_N h)%Z || (60 <=? Z.of_N m)%Z || (60 <=? Z.of_N s)%Z) with false by (symmetry; rewrite !orb_false_iff, !Z.leb_gt; lia).
    rewrite !value_of_N by lia. do 3 apply sent_lift.
    pose proof (b_write (Y:=Empty_set) (lit "2") (dec h) [dec m; dec s] (dec_tagtext 2)) as B. rewrite HW in B. apply B.
    exact (decs [h; m; s]).
  - eapply (say _ _ _ _ _ HW); [apply (N_hsv it Empty_set (Z.of_N h) (Z.of_N s) (Z.of_N v))|].
    unfold set_hsv.
    replace ((Z.of_N h <? 0)%Z || (359 <? Z.of_N h)%Z) with false by (symmetry; rewrite !orb_false_iff, !Z.ltb_ge; lia).
    replace ((Z.of_N s <? 0)%Z || (100 <? Z.of_N s)%Z) with false by (symmetry; rewrite !orb_false_iff, !Z.ltb_ge; lia).
    replace ((Z.of_N v <? 0)%Z || (100 <? Z.of_N v)%Z) with false by (symmetry; rewrite !orb_false_iff, !Z.ltb_ge; lia).
    rewrite !value_of_N by lia. do 3 apply sent_lift.
    pose proof (b_write (Y:=Empty_set) (lit "12") (dec h) [dec s; dec v] (dec_tagtext 12)) as B. rewrite HW in B. apply B.
    exact (decs [h; s; v]).
  - eapply (say _ _ _ _ _ HW); [apply (N_white it Empty_set (Z.of_N t))|].
    unfold set_white_temperature.
    replace ((Z.of_N t <? 1)%Z || (65534 <? Z.of_N t)%Z) with false by (symmetry; rewrite !orb_false_iff, !Z.ltb_ge; lia).
    rewrite !value_of_N by lia. apply sent_lift.
    pose proof (b_write (Y:=Empty_set) (lit "13") (dec t) [] (dec_tagtext 13)) as B. rewrite HW in B. apply B.
    exact (decs [t]).
  - assert (n = 0 \/ n = 1 \/ n = 2) as Hn by lia.
    pose proof (b_normal (Y:=Empty_set) (dec n) (dec_tagtext n)) as B. rewrite HW in B.
    destruct Hn as [->|[->| ->]]; (eapply (say _ _ _ _ _ HW); [|exact B]).
    + apply (N_auto it Empty_set stop).
    + apply (N_auto it Empty_set up).
    + apply (N_auto it Empty_set down).
  - eapply (say _ _ _ _ _ HW); [apply N_auto_status|]. pose proof (b_status auto_status_body) as B. rewrite HW in B. exact B.
  - eapply (say _ _ _ _ _ HW); [apply (N_video it Empty_set)|].
    pose proof (b_normal (Y:=Empty_set) (lit "0") (dec_tagtext 0)) as B. rewrite HW in B. exact B.
  - pose proof (b_camera (Y:=Empty_set) (dec n) (dec_tagtext n)) as B. rewrite HW in B.
    assert (C : exists c, cam_what c = dec n).
    { destruct H as [->|H]; [exists free_resources; reflexivity|].
      destruct H as [<-|[<-|[<-|[<-|[<-|[<-|[<-|[<-|[<-|[<-|[<-|[<-|[<-|[<-|[]]]]]]]]]]]]]]];
        [exists zoom_in|exists zoom_out|exists increase_x|exists decrease_x|exists increase_y|exists decrease_y
        |exists increase_luminosity|exists decrease_luminosity|exists increase_contrast|exists decrease_contrast
        |exists increase_color|exists decrease_color|exists increase_quality|exists decrease_quality]; reflexivity. }
    destruct C as (c & C). eapply (say _ _ _ _ _ HW); [apply (N_camera it Empty_set c)|]. unfold run_cam. rewrite C. exact B.
  - eapply (say _ _ _ _ _ HW); [apply (N_dial it Empty_set (Z.of_N x) (Z.of_N y))|].
    apply sent_answered. pose proof (dial_range (Y:=Empty_set) it (Z.of_N x) (Z.of_N y) [] Hr HW) as [D _].
    rewrite !N2Z.id in D. apply D. lia.
  - destruct H as [<-|[<-|[<-|[<-|[<-|[<-|[<-|[<-|[<-|[<-|[<-|[]]]]]]]]]]]]; eapply (say _ _ _ _ _ HW).
    + apply (N_get_time it Empty_set).
    + pose proof (b_gateway (Y:=Empty_set) TIME time_of) as B. rewrite HW in B. exact B.
    + apply (N_get_date it Empty_set).
    + pose proof (b_gateway (Y:=Empty_set) DATE date_of) as B. rewrite HW in B. exact B.
    + apply (N_get_ip it Empty_set).
    + pose proof (b_gateway (Y:=Empty_set) IP_ADDRESS ip_of) as B. rewrite HW in B. exact B.
    + apply (N_get_netmask it Empty_set).
    + pose proof (b_gateway (Y:=Empty_set) NET_MASK dotted_of) as B. rewrite HW in B. exact B.
    + apply (N_get_mac it Empty_set).
    + pose proof (b_gateway (Y:=Empty_set) MAC_ADDRESS mac_of) as B. rewrite HW in B. exact B.
    + apply (N_get_model it Empty_set).
    + pose proof (b_gateway (Y:=Empty_set) DEVICE_TYPE model_of) as B. rewrite HW in B. exact B.
    + apply (N_get_firmware it Empty_set).
    + pose proof (b_gateway (Y:=Empty_set) FIRMWARE_VERSION version_of) as B. rewrite HW in B. exact B.
    + apply (N_get_uptime it Empty_set).
    + pose proof (b_gateway (Y:=Empty_set) UPTIME uptime_of) as B. rewrite HW in B. exact B.
    + apply (N_get_datetime it Empty_set).
    + pose proof (b_gateway (Y:=Empty_set) DATE_TIME datetime_of) as B. rewrite HW in B. exact B.
    + apply (N_get_kernel it Empty_set).
    + pose proof (b_gateway (Y:=Empty_set) KERNEL_VERSION version_of) as B. rewrite HW in B. exact B.
    + apply (N_get_distribution it Empty_set).
    + pose proof (b_gateway (Y:=Empty_set) DISTRIBUTION_VERSION version_of) as B. rewrite HW in B. exact B.
  - destruct H as (nh & nm & ns & F1 & F2 & F3 & B1 & B2 & B3). apply zone_sent4 in H0 as (us & ->).
    apply fixed_fmt2 in F1 as [-> ?]; [|lia]. apply fixed_fmt2 in F2 as [-> ?]; [|lia]. apply fixed_fmt2 in F3 as [-> ?]; [|lia].
    eapply (say _ _ _ _ _ HW); [apply (N_set_time it Empty_set nh nm ns (Offset us)); lia|].
    apply sent_answered. pose proof (set_time_answered (Y:=Empty_set) it nh nm ns us [] Hr Hp) as A. rewrite HW in A. exact A.
  - apply day_sent in H as (ny & nm & nd & C & E).
    eapply (say _ _ _ _ _ HW); [apply (N_set_date it Empty_set (ny, nm, nd)), C|].
    apply sent_answered. pose proof (set_date_answered (Y:=Empty_set) it (ny, nm, nd) [] Hr Hp) as A. rewrite HW, <- E in A. exact A.
  - destruct H as (nh & nn & ns & F1 & F2 & F3 & B1 & B2 & B3). apply zone_sent4 in H0 as (us & ->).
    apply fixed_fmt2 in F1 as [-> ?]; [|lia]. apply fixed_fmt2 in F2 as [-> ?]; [|lia]. apply fixed_fmt2 in F3 as [-> ?]; [|lia].
    apply day_sent in H1 as (ny & nm & nd & C & E). unfold sent_date in E. injection E as _ -> -> ->.
    eapply (say _ _ _ _ _ HW); [apply (N_set_datetime it Empty_set (ny, nm, nd) nh nn ns (Offset us)); [exact C|lia|lia|lia]|].
    apply sent_answered. pose proof (set_datetime_answered (Y:=Empty_set) it (ny, nm, nd) nh nn ns us [] Hr Hp) as A. rewrite HW in A. exact A.
  - pose proof (b_normal (Y:=Empty_set) (dec n) (dec_tagtext n)) as B. rewrite HW in B.
    destruct H as [<-|[<-|[<-|[<-|[<-|[]]]]]].
    + eapply (say _ _ _ _ _ HW); [apply (N_energy it Empty_set enable_automatic_reset)|apply sent_lift; exact B].
    + eapply (say _ _ _ _ _ HW); [apply (N_energy it Empty_set disable_automatic_reset)|apply sent_lift; exact B].
    + eapply (say _ _ _ _ _ HW); [apply (N_energy it Empty_set enable_actuator)|apply sent_lift; exact B].
    + eapply (say _ _ _ _ _ HW); [apply (N_energy it Empty_set (force_actuator_on None))|apply sent_lift; exact B].
    + eapply (say _ _ _ _ _ HW); [apply (N_energy it Empty_set force_actuator_off)|apply sent_lift; exact B].
  - pose proof (b_normal (Y:=Empty_set) (dec n ++ 35 :: t)) as B. rewrite HW in B.
    specialize (B (hash_tag _ _ (dec_tagtext n) (shown_tag _ _ H0))).
    assert (C : exists c, energy_what c = with_parameter (dec n) (AInt (Z.of_N x))).
    { destruct H as [<-|[<-|[<-|[<-|[<-|[]]]]]];
        [exists (start_sending_monthly_average_hourly (Some (Z.of_N x)) (1, 1, 1)%Z)
        |exists (start_sending_monthly_totalizers_current_year (Some (Z.of_N x)) (1, 1, 1)%Z)
        |exists (start_sending_monthly_totalizers_last_year (Some (Z.of_N x)) (1, 1, 1)%Z)
        |exists (force_actuator_on (Some (Z.of_N x)))|exists (reset_totalizers (Z.of_N x))]; reflexivity. }
    destruct C as (c & C). eapply (say _ _ _ _ _ HW); [apply (N_energy it Empty_set c)|].
    unfold run_energy. rewrite C, (with_int _ _ _ (dec_tagtext n) H0). apply sent_lift. exact B.
  - eapply (say _ _ _ _ _ HW);
      [apply (N_energy it Empty_set (start_sending_daily_totalizers_hourly (Some (Z.of_N x)) (Some (Z.of_N y)) (1, 1, 1)%Z (1, 1, 1)%Z))|].
    apply sent_answered.
    pose proof (daily_answered it (Some (Z.of_N x)) (Some (Z.of_N y)) (1, 1, 1)%Z (1, 1, 1)%Z x y a b [] Hr Hp (Given x _) (Given y _) H H0) as A.
    rewrite HW in A. exact A.
  - eapply (say _ _ _ _ _ HW); [apply (N_start it Empty_set (Z.of_N x) (Z.of_N y))|].
    apply sent_answered. pose proof (start_power_answered it x y t p [] Hr Hp H H0) as A. rewrite HW in A. exact A.
  - destruct (de_all d H) as (e & E). eapply (say _ _ _ _ _ HW); [apply (N_stop_go it Empty_set e)|].
    apply sent_andthen, sent_collect. rewrite E. pose proof (b_request (dec d) status_step (dec_tagtext d)) as B. rewrite HW in B. exact B.
  - eapply (say _ _ _ _ _ HW); [apply (N_per_month it Empty_set (Some (Z.of_N y)) (Some (Z.of_N x)) (1, 1, 1)%Z (1, 1, 1)%Z)|].
    pose proof (b_energy (Y:=Empty_set) _ _ float0 (param2 _ x a y b (de_tag ENERGY_UNIT_PER_MONTH) H H0)) as B. rewrite HW in B.
    apply B. apply hash_tag; [apply de_tag|]. apply hash_tag; eapply shown_tag; eassumption.
  - eapply (say _ _ _ _ _ HW); [apply (N_totalizers it Empty_set (Z.of_N x))|].
    pose proof (b_energy (Y:=Empty_set) _ _ totalizer_of (with_int _ x n (de_tag TOTALIZERS) H)) as B. rewrite HW in B.
    apply B. apply hash_tag; [apply de_tag|]. eapply shown_tag; eassumption.
Qed.
End sayable.
